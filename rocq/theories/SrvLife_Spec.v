(** What the owner of a DHCP server may do, and what they may expect. *)
From Verif Require Import Base SrvLife_Model.

(** References held after operations, beginning with [n]; None if one is used without a
    reference. *)
Fixpoint refs (n : N) (os : list op) : option N :=
  match os with
  | [] => Some n
  | (OStart _ | OStop) :: os => if n =? 0 then None else refs n os
  | ORef :: os => if n =? 0 then None else refs (n + 1) os
  | OUnref :: os => if n =? 0 then None else refs (n - 1) os
  | (OError _ | OOther | OEndOther _) :: os => refs n os
  end.
(** The program before there is a server: sources of others only. *)
Definition before (w : world) : Prop :=
  srv w = None /\ NoDup (map s_id (srcs w)) /\ Forall (fun s => s_sock s = None /\ 0 < s_id s < next_id w) (srcs w) /\
  0 < next_id w /\ opened w = [] /\ closed w = [] /\ warned w = [].
(** Sockets that the main loop watches. *)
Definition watched (w : world) : list N := flat_map sockof (srcs w).
(** Sources of others. *)
Definition others (w : world) : list source := filter (fun s => match s_sock s with Some _ => false | None => true end) (srcs w).
(** The numbers of sources suffice. *)
Definition room (w : world) (os : list op) : Prop := next_id w + lenN os <= guint_max.
(** A server was made. *)
Definition made (w w1 : world) : Prop := exists f i, server_new f i w = (w1, NONE).
Definition is_error (o : op) : bool := match o with OError _ => true | _ => false end.
(** The server is stopped, or let go with [n] references, before it was ever started. *)
Fixpoint unused (n : N) (os : list op) : bool :=
  match os with
  | [] => false
  | OStart true :: _ => false
  | OStop :: _ => true
  | OUnref :: os => if n =? 1 then true else unused (n - 1) os
  | ORef :: os => unused (n + 1) os
  | _ :: os => unused n os
  end.
