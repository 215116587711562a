(** What is expected of running "ip". *)
From Coq Require Import String ZArith.
From Verif Require Import Base Text IpRun_Model.
Local Open Scope list_scope.
Local Open Scope Z_scope.

(** Results as the kernel gives them: process numbers are positive, exit statuses below 256,
    signals below 127; waitpid fails with -1. *)
Definition sane_ending (e : ending) : Prop := match e with Exited n => 0 <= n < 256 | Killed s _ => 1 <= s < 127 end.
Definition sane (w : world) : Prop :=
  w_fork w <> 0 /\ (forall p a e, w_exec w p a = Some e -> sane_ending e) /\ (w_wait w = None \/ w_wait w = Some (-1)).
(** The program was run with these words and said that it worked. *)
Definition worked (w : world) (binary : list byte) (words : list (list byte)) : Prop :=
  0 < w_fork w /\ w_wait w = None /\ w_exec w binary (binary :: words) = Some (Exited 0).
(** Programs that are executed in a process. *)
Definition executed (o : list out) (path : list byte) (argv : list (list byte)) : Prop := exists acts, In (Fork acts) o /\ In (Execve path argv) acts.
