(** Properties C28 and C29: the supplicant control channel. *)
From Coq Require Import String Sorted.
From Verif Require Import Base Text WpasMsg_Model WpasMsg_Spec WpasBus_Model WpasBus_Spec WpasBus_Proofs.
Local Open Scope list_scope.

Definition request (name : string) : wmsg := wnew WRequest (Some (text name)) 0.
Definition reply (s : string) : wmsg := match parse false (text s) with Ok (inl m) => m | _ => new_wreply end.

(** C28 is refuted by requests sent with wpas_send: the reply to the PING is given to
    the caller of STATUS. *)
Theorem C28_send_refuted : exists es b o,
  run (chan_open false) es = (b, o) /\ o = [Datagram 0 (text "PING"); Datagram 1 (text "STATUS"); Got (reply "PONG"); Callback 1 (reply "PONG")].
Proof.
  exists [ESend (request "PING"); ECall (request "STATUS") true; EWrite Sent; EWrite Sent; ERead (reply "PONG")].
  eexists. eexists. split; [vm_compute; reflexivity|]. vm_compute. reflexivity.
Qed.
Print Assumptions C28_send_refuted.
(** Without wpas_send: a request is written only when the one before was answered,
    and a reply is given to the callback of the request on the wire, unless it was
    cancelled. *)
Theorem C28_one_at_a_time_partial : forall es server b o, Forall only_calls es -> run (chan_open server) es = (b, o) -> orderly (has_cb b) None [] o.
Proof. exact calls_orderly. Qed.
Print Assumptions C28_one_at_a_time_partial.
(** Requests are written in the order of the calls, each once, with any events. *)
Theorem C28_written_in_order : forall es server b o, run (chan_open server) es = (b, o) -> StronglySorted lt (datagrams o).
Proof. exact datagrams_ordered. Qed.
Print Assumptions C28_written_in_order.
Theorem C28_callbacks_in_order_partial : forall es server b o, Forall only_calls es -> run (chan_open server) es = (b, o) -> StronglySorted lt (callbacks o).
Proof. exact callbacks_ordered. Qed.
Print Assumptions C28_callbacks_in_order_partial.

(** C29. With any events, wpas_send included: after the cancellation the request is
    not written and its callback does not run. *)
Theorem C29_cancelled_silent : forall es server b l1 id l2, run (chan_open server) es = (b, l1 ++ Cancelled id :: l2) ->
  ~ In id (datagrams l2) /\ ~ In id (callbacks l2).
Proof. exact cancelled_silent. Qed.
Print Assumptions C29_cancelled_silent.
(** The cookie of a queued request cancels this request. *)
Theorem C29_cookie_cancels : forall es server b o id c, run (chan_open server) es = (b, o) -> lenN es < two64 ->
  In id (q_list b) -> get b id = Some c -> k_cookie c <> 0 -> exists b', step b (ECancel (k_cookie c)) = (b', [Cancelled id]).
Proof. exact cancel_hits. Qed.
Print Assumptions C29_cookie_cancels.
(** With wpas_send a reply can be given to the wrong one: here the reply "ra" to the
    cancelled request is given to the next. *)
Theorem C29_reply_refuted : exists es b, run (chan_open false) es =
  (b, [Datagram 0 (text "PING"); Datagram 1 (text "A"); Cancelled 1; Got (reply "PONG"); Datagram 2 (text "B"); Got (reply "ra"); Callback 2 (reply "ra")]).
Proof.
  exists [ESend (request "PING"); ECall (request "A") true; EWrite Sent; EWrite Sent; ECancel 1; ERead (reply "PONG"); ECall (request "B") true; EWrite Sent; ERead (reply "ra")].
  eexists. vm_compute. reflexivity.
Qed.
Print Assumptions C29_reply_refuted.
(** Without wpas_send: the reply that arrives for a request cancelled after it was written is given to
    nobody. *)
Theorem C29_reply_swallowed_partial : forall es server b l1 id t l2 a l3, Forall only_calls es ->
  run (chan_open server) es = (b, l1 ++ Datagram id t :: l2 ++ Got a :: l3) -> existsb is_got l2 = false -> In (Cancelled id) l2 ->
  forall id' a' l4, l3 <> Callback id' a' :: l4.
Proof. exact cancelled_reply. Qed.
Print Assumptions C29_reply_swallowed_partial.

Example C28_made : only_calls (ECall (request "STATUS") true).
Proof. intros _ _. exists (text "STATUS"), (request "STATUS"), []. split; [reflexivity|]. left. reflexivity. Qed.
Example C28_nontrivial :
  snd (run (chan_open false) [ECall (request "A") true; ECall (request "B") true; ECall (request "C") false; EWrite Again; EWrite Sent; EWrite Sent;
     ERead (reply "<3>EV"); ERead (reply "ra"); ERead (reply "late"); EWrite Sent; ERead (reply "rb"); EWrite Sent; ERead (reply "rc")])
  = [Datagram 0 (text "A"); Forward (Some (reply "<3>EV")); Got (reply "ra"); Callback 0 (reply "ra"); Got (reply "late");
     Datagram 1 (text "B"); Got (reply "rb"); Callback 1 (reply "rb"); Datagram 2 (text "C"); Got (reply "rc")].
Proof. vm_compute. reflexivity. Qed.
Example C29_nontrivial :
  snd (run (chan_open false) [ECall (request "A") true; ECall (request "B") true; ECall (request "C") true; EWrite Sent; ECancel 1; ECancel 2;
     ERead (reply "ra"); EWrite Sent; ERead (reply "rc")])
  = [Datagram 0 (text "A"); Cancelled 0; Cancelled 1; Got (reply "ra"); Datagram 2 (text "C"); Got (reply "rc"); Callback 2 (reply "rc")].
Proof. vm_compute. reflexivity. Qed.

(** C201. The end of the channel, [Forward None], is told once, and always when the
    connection is lost; afterwards nothing is written, received or called back. *)
Theorem C201_end_told_once : forall es server b o, run (chan_open server) es = (b, o) ->
  (In EHup es -> In (Forward None) o) /\ (forall l1 l2, o = l1 ++ Forward None :: l2 -> ~ In (Forward None) l1 /\ Forall is_cancelled l2).
Proof. exact end_told. Qed.
Print Assumptions C201_end_told_once.
Example C201_ex :
  snd (run (chan_open false) [ECall (request "A") true; ECall (request "B") true; EWrite Sent; ETimer; ERead (reply "ra"); EWrite Sent; ECancel 2; EHup; ETimer; ECall (request "C") true; EWrite Sent])
  = [Datagram 0 (text "A"); Forward None; Cancelled 1].
Proof. vm_compute. reflexivity. Qed.
