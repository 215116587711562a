(** What is expected of the supplicant control channel. *)
From Verif Require Import Base WpasMsg_Model WpasBus_Model.

(** What may be observed when [p] is the request on the wire without reply and [g]
    the requests cancelled so far. [cb]: the requests with a callback. *)
Inductive orderly (cb : nat -> bool) : option nat -> list nat -> list obs -> Prop :=
| o_nil p g : orderly cb p g []
| o_datagram id t g l : orderly cb (Some id) g l -> orderly cb None g (Datagram id t :: l)
| o_stray a g l : orderly cb None g l -> orderly cb None g (Got a :: l)
| o_reply id a g l : cb id = true -> ~ In id g -> orderly cb None g l -> orderly cb (Some id) g (Got a :: Callback id a :: l)
| o_silent id a g l : cb id = false \/ In id g -> orderly cb None g l -> orderly cb (Some id) g (Got a :: l)
| o_cancel id p g l : orderly cb p (id :: g) l -> orderly cb p g (Cancelled id :: l)
| o_forward a p g l : orderly cb p g l -> orderly cb p g (Forward a :: l).

(** Requests made with the API: a name that is not empty and any texts. *)
Definition made (m : wmsg) : Prop :=
  w_type m = WRequest -> w_peer m = false ->
  exists name m0 args, new_wrequest name = inl m0 /\ (m = fst (wappend m0 args) \/ m = fst (wseal (fst (wappend m0 args)))).
(** Only calls: nothing is sent with wpas_send. *)
Definition only_calls (e : event) : Prop := match e with ECall m _ => made m | ESend _ => False | _ => True end.

Definition has_cb (b : chan) (id : nat) : bool := match get b id with Some c => k_cb c | None => false end.
Fixpoint datagrams (l : list obs) : list nat :=
  match l with [] => [] | Datagram id _ :: l => id :: datagrams l | _ :: l => datagrams l end.
Fixpoint callbacks (l : list obs) : list nat :=
  match l with [] => [] | Callback id _ :: l => id :: callbacks l | _ :: l => callbacks l end.
Definition is_got (o : obs) : bool := match o with Got _ => true | _ => false end.
Definition is_cancelled (o : obs) : Prop := match o with Cancelled _ => True | _ => False end.
