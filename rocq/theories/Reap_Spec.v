(** What is expected of the processes that ended. *)
From Verif Require Import Base Reap_Model.
Local Open Scope list_scope.

(** Every process is started once. *)
Definition starts (es : list event) : list N := flat_map (fun e => match e with Start p => [p] | _ => [] end) es.
Definition ends (es : list event) : list N := flat_map (fun e => match e with End p => [p] | _ => [] end) es.
(** Between two ends of processes SIGCHLD is read. *)
Fixpoint apart (quiet : bool) (es : list event) : Prop :=
  match es with
  | [] => True
  | End _ :: es => quiet = true /\ apart false es
  | Handle _ :: es => apart true es
  | _ :: es => apart quiet es
  end.
Definition zombie (p : N) (k : kids) : Prop := In p (map c_pid (k_dead k)).
Definition runs (p : N) (k : kids) : Prop := In p (map c_pid (k_run k)).
Definition watched (p : N) (k : kids) : Prop := In (mkChild p true) (k_run k) \/ In (mkChild p true) (k_dead k).
