(** What is expected of the reference counts. *)
From Verif Require Import Base Ref_Model.

(** Everything is freed. *)
Definition freed (s : st) : Prop := s_alive s = false /\ s_msgs s = [].
(** Somebody has a reference to the bus or to a message. *)
Definition held (s : st) : Prop := 0 < s_ext s \/ exists m, In m (s_msgs s) /\ 0 < g_user m.
(** A message is on both lists. *)
Definition twice (s : st) : Prop := exists id, In id (s_out s) /\ In id (s_wait s).
(** The references to a message: of users, of the two lists and of the parser. *)
Definition links_of (s : st) (id : N) : N :=
  (if in_dec N.eq_dec id (s_out s) then 1 else 0) + (if in_dec N.eq_dec id (s_wait s) then 1 else 0)
  + (match s_parser s with Some p => if N.eq_dec p id then 1 else 0 | None => 0 end).
