(** What is expected of the setup of a supplicant process. *)
From Verif Require Import Base Setup_Model.

(** Requests that were unanswered at failures. *)
Fixpoint lost (u : setup) (es : list event) : N :=
  match es with
  | [] => 0
  | e :: es => (match e with Failed => lenN (u_wait u) | _ => 0 end) + lost (step u e) es
  end.
Definition is_reply (e : event) : Prop := match e with Reply _ => True | _ => False end.
(** At first or right after a failure. *)
Definition at_start (es : list event) : Prop := es = [] \/ exists es', es = es' ++ [Failed].
(** Replies that list one more peer. *)
Definition is_more (e : event) : bool := match e with Reply a => match a_peer a with PMore => true | _ => false end | _ => false end.
