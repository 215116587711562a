(** What is expected of the start and the end of miracle-wifid. *)
From Coq Require Import String.
From Verif Require Import Base Text Link_Model Link_Spec Wifid_Model.
Local Open Scope list_scope.

(** A device that should become a link. *)
Definition wanted (c : mgr) (ds : list dev) (i : N) : Prop := exists d n, In d ds /\ d_ix d = i /\ i <> 0 /\ d_name d = Some n /\ acceptable c n.
(** Results of system calls: an errno or something that is not negative. *)
Definition usual (f : call -> Z) : Prop := forall c, (-255 <= f c)%Z.
Definition asks_to_end (s : sig) : Prop := s = INT \/ s = TERM \/ s = QUIT \/ s = HUP.
(** The first call that fails. *)
Definition first_failure (f : call -> Z) (c : call) : Prop := exists a b, calls = a ++ c :: b /\ (f c < 0)%Z /\ Forall (fun x => (0 <= f x)%Z) a.
