(** Properties C23 to C27, C64, C90 and C91: the RTSP bus. *)
From Coq Require Import String Sorted.
From Verif Require Import Base Text RtspMsg_Model RtspMsg_Spec RtspBus_Model RtspBus_Spec RtspBus_Proofs.
From Verif Require Htable_Model.

(** C23. The bytes put on the wire are whole messages in the order in which they were
    queued, followed by the beginning of the message that is now first in the
    queue. Without replies, timeouts and cancellations no message is left out. *)
Theorem C23_written_in_order : forall es b log, run bus_open es = Ok (b, log) ->
  exists done, StronglySorted lt (done ++ b_out b)
    /\ wire_bytes log = flat_map (raw_of b) done ++ current b
    /\ (forallb (fun e => negb (dropping e)) es = true -> done ++ b_out b = seq 0 (Datatypes.length (b_calls b))).
Proof. exact written_in_order. Qed.
Print Assumptions C23_written_in_order.

Definition request (ck : N) : message := match build (Req (text "M") (text "*")) ck [] [] with Some m => m | None => msg_new (Unknown []) end.
Definition response (ck : N) : message := match build (Rep 200 (text "OK")) ck [] [] with Some m => m | None => msg_new (Unknown []) end.

(** C24 is refuted: two replies to a request that is still queued. *)
Theorem C24_completes_once_refuted : exists es b log,
  run bus_open es = Ok (b, log) /\ distinct_run bus_open es
  /\ (forall id q, ~ In (Cancelled id q) log) /\ callbacks 0 log = [Some (response 5); Some (response 5)].
Proof.
  exists [ECall (request 5) true; EIncoming (response 5) 0 0; EIncoming (response 5) 0 0].
  assert (E : exists b, run bus_open [ECall (request 5) true; EIncoming (response 5) 0 0; EIncoming (response 5) 0 0]
    = Ok (b, [Callback 0 (Some (response 5)) true; Callback 0 (Some (response 5)) false])) by (eexists; vm_compute; reflexivity).
  destruct E as (b & E). exists b. eexists. split; [exact E|]. split.
  - cbn [distinct_run]. split; [intros ck m' e' _ [|id] c; discriminate|].
    destruct (step bus_open (ECall (request 5) true)) as [[b1 o1]|]; [|exact I]. split; [exact I|]. destruct (step b1 _) as [[b2 o2]|]; [|exact I]. split; [exact I|]. destruct (step b2 _) as [[b3 o3]|]; exact I.
  - split; [intros id q [H|[H|[]]]; discriminate|]. vm_compute. reflexivity.
Qed.
Print Assumptions C24_completes_once_refuted.
(** A call whose cookie is not that of another waiting message completes at most
    twice, and at most once if nothing hit it while it was untouched in the queue. *)
Theorem C24_completes_partial : forall es b log id, distinct_run bus_open es -> run bus_open es = Ok (b, log) ->
  (Datatypes.length (callbacks id log) <= 2)%nat /\ (~ In true (hits id log) -> (Datatypes.length (callbacks id log) <= 1)%nat).
Proof. exact completes. Qed.
Print Assumptions C24_completes_partial.
(** In full: what can happen to a call, [true] before and [false] after the first
    attempt to write it. *)
Theorem C24_fate_partial : forall es b log id, distinct_run bus_open es -> run bus_open es = Ok (b, log) ->
  In (hits id log) [[]; [false]; [true]; [true; false]].
Proof. exact calls_fate. Qed.
Print Assumptions C24_fate_partial.

(** C25 is refuted: a call cancelled before anything of it was written times out. *)
Theorem C25_cancelled_refuted : exists es b, run bus_open es = Ok (b, [Cancelled 0 true; Callback 0 None false]).
Proof. exists [EAttach; ECall (request 5) true; ECancel 5 0 0; ETimer 0 0]. eexists. vm_compute. reflexivity. Qed.
Print Assumptions C25_cancelled_refuted.
Theorem C25_cancelled_partial : forall es b a c q id, distinct_run bus_open es -> run bus_open es = Ok (b, a ++ Cancelled id q :: c) ->
  (q = false -> callbacks id c = []) /\ (Datatypes.length (callbacks id c) <= 1)%nat.
Proof. exact cancelled_done. Qed.
Print Assumptions C25_cancelled_partial.

(** C26 is refuted: no new message is accepted, *)
Theorem C26_no_cookie_refuted : exists m cb, new_request (text "M") (text "*") = inl m
  /\ call_async bus_open m cb = Ok (bus_open, m, Some EINVAL).
Proof. exists (msg_new (Request (text "M") (text "*"))), true. vm_compute. auto. Qed.
Print Assumptions C26_no_cookie_refuted.
Theorem C26_rejected_partial : forall b m cb, m_cookie m = 0 -> call_async b m cb = Ok (b, m, Some EINVAL).
Proof. exact call_rejected. Qed.
Print Assumptions C26_rejected_partial.
(** but every request that can be sealed and has a cookie of ours. *)
Theorem C26_accepted_partial : forall b m cb ck m', b_dead b = false -> m_cookie m <> 0 -> m_used m = false ->
  seal (b_ck b) m = Ok (ck, m', None) -> m_raw m' <> None -> is_reply m' = false -> has_flag (m_cookie m') = false ->
  exists b', call_async b m cb = Ok (b', set_used m', None).
Proof. exact call_accepted. Qed.
Print Assumptions C26_accepted_partial.

(** C27. What completes a call is a reply with its cookie, and the call is no reply
    of ours; *)
Theorem C27_replies_matched : forall es b log id r q, run bus_open es = Ok (b, log) -> In (Callback id (Some r) q) log ->
  is_reply r = true /\ exists c, get b id = Some c /\ is_reply (c_msg c) = false /\ c_cookie c = without_flag (m_cookie r).
Proof. exact replies_matched. Qed.
Print Assumptions C27_replies_matched.
(** a reply completes the call waiting for it, other replies change nothing. *)
Theorem C27_reply_completes : forall es b log r pk pk', distinct_run bus_open es -> run bus_open es = Ok (b, log) -> is_reply r = true ->
  (forall id c, get b id = Some c -> c_wait c = true -> c_cb c = true -> c_cookie c = without_flag (m_cookie r) ->
     exists b', step b (EIncoming r pk pk') = Ok (b', [Callback id (Some r) (queued c)]))
  /\ ((forall id c, get b id = Some c -> c_wait c = true -> c_cookie c <> without_flag (m_cookie r)) -> step b (EIncoming r pk pk') = Ok (b, [])).
Proof. exact reply_completes. Qed.
Print Assumptions C27_reply_completes.

(** C64 is refuted: three replies to requests with the same CSeq. The hash table
    really finds the elements that the run picks. *)
Definition echo : list event :=
  let send := [EWrite (Sent 1000) 0; EWrite (Sent 0) 0] in
  [ECall (response 5) false; EUnref 0; ECall (response 5) false; EUnref 1]
  ++ send ++ [ECall (response 5) false; EUnref 2; EWrite (Sent 1000) 1; EWrite (Sent 0) 0] ++ send.
Definition echo_table : list Htable_Model.op :=
  [Htable_Model.Insert 4096 5 true; Htable_Model.Insert 4160 5 true; Htable_Model.Remove 0 5;
   Htable_Model.Insert 4224 5 true; Htable_Model.Remove 0 5; Htable_Model.Visit].
Theorem C64_same_cseq_refuted : exists es ops, run bus_open es = UB
  /\ match Htable_Model.run (fun _ => 5) (fun _ _ => true) Htable_Model.ht_init ops with
     | Ret (_, l) => l = [Htable_Model.OInsert true; Htable_Model.OInsert true; Htable_Model.OFound (Some 4096);
                          Htable_Model.OInsert true; Htable_Model.OFound (Some 4224); Htable_Model.OList [4160]]
     | _ => False end.
Proof. exists echo, echo_table. vm_compute. auto. Qed.
Print Assumptions C64_same_cseq_refuted.
(** With different cookies the only undefined behaviour is that of sealing a message. *)
Theorem C64_safe_partial : forall es, distinct_run bus_open es -> run bus_open es = UB ->
  exists es1 m cb es2 b1 o1, es = es1 ++ ECall m cb :: es2 /\ run bus_open es1 = Ok (b1, o1) /\ seal (b_ck b1) m = UB.
Proof. exact calls_safe. Qed.
Print Assumptions C64_safe_partial.
Theorem C64_table_live_partial : forall es b log, distinct_run bus_open es -> run bus_open es = Ok (b, log) ->
  forall id, In id (b_table b) -> exists c, get b id = Some c /\ live c = true.
Proof. exact table_live. Qed.
Print Assumptions C64_table_live_partial.

(** Two calls; the first is written in two parts and its reply arrives; a reply to
    the second comes before it is written, then its timeout. *)
Example bus_nontrivial :
  match run bus_open [EAttach; ECall (request 5) true; ECall (request 6) true; EWrite (Sent 3) 0; EWrite Again 0; EWrite (Sent 1000) 0;
                      EIncoming (response 6) 0 0; EIncoming (response 5) 0 0; EWrite (Sent 4) 0; ETimer 1 0; EWrite (Sent 1000) 0] with
  | Ok (b, log) => callbacks 0 log = [Some (response 5)] /\ hits 1 log = [true; false] /\ b_out b = [] /\ b_table b = []
                   /\ wire_bytes log = c_raw (mkCall (request 5) true 0 true true false false false)
  | UB => False end.
Proof. vm_compute. auto 10. Qed.
Example bus_cancel_nontrivial :
  match run bus_open [ECall (request 5) true; ECall (request 6) true; EWrite (Sent 3) 0; ECancel 5 0 0; EIncoming (response 5) 0 0; EWrite (Sent 1000) 0; EWrite (Sent 1000) 0; EIncoming (response 6) 0 0] with
  | Ok (b, log) => callbacks 0 log = [] /\ callbacks 1 log = [Some (response 6)] /\ hits 0 log = [false]
                   /\ wire_bytes log = (raw_of b 0 ++ raw_of b 1)%list
  | UB => False end.
Proof. vm_compute. auto 10. Qed.
Example bus_distinct_nontrivial : distinct_run bus_open [ECall (request 5) true; ECall (response 5) false].
Proof.
  cbn [distinct_run]. split; [intros ck m' e' _ [|id] c; discriminate|].
  destruct (step bus_open (ECall (request 5) true)) as [[b1 o1]|] eqn:E; [|exact I].
  split; [|destruct (step b1 _) as [[b2 o2]|]; exact I]. vm_compute in E. injection E as <- <-.
  intros ck m' e' S. vm_compute in S. injection S as <- <- <-. intros [|[|id]] c; cbn; try discriminate. intros [= <-] _. vm_compute. discriminate.
Qed.

(** C90. A lost connection is reported once, and nothing is accepted afterwards. *)
Theorem C90_connection_lost : forall es b log, run bus_open es = Ok (b, log) ->
  losses log = (if existsb is_hup es then 1 else 0)%nat
  /\ (In EHup es -> forall m cb, call_async b m cb = Ok (b, m, Some EINVAL)).
Proof. exact connection_lost. Qed.
Print Assumptions C90_connection_lost.
Example C90_nontrivial :
  match run bus_open [EAttach; ECall (request 5) true; EHup; EAttach; EHup; ECall (request 6) true; EDetach; EHup] with
  | Ok (b, log) => log = [Forward None] /\ Datatypes.length (b_calls b) = 1%nat
  | UB => False end.
Proof. vm_compute. auto. Qed.

(** C91. Messages sealed on a bus are numbered 1, 2, 3 and so on. *)
Theorem C91_numbered : forall ms ms' i m', seals (b_ck bus_open) ms ms' -> Forall (fun m => m_sealed m = false /\ m_cookie m = 0) ms ->
  lenN ms < 2 ^ 63 -> nth_error ms' i = Some m' -> without_flag (m_cookie m') = N.of_nat i + 1.
Proof. exact open_numbered. Qed.
Print Assumptions C91_numbered.
Example C91_nontrivial :
  let m := msg_new (Request (text "M") (text "*")) in
  match seal 0 m with
  | Ok (ck, a, None) => match seal ck m with
                        | Ok (_, b, None) => m_raw a = Some (text "M * RTSP/1.0" ++ [13; 10] ++ text "CSeq: 1" ++ [13; 10; 13; 10])%list
                                             /\ m_raw b = Some (text "M * RTSP/1.0" ++ [13; 10] ++ text "CSeq: 2" ++ [13; 10; 13; 10])%list
                        | _ => False end
  | _ => False end.
Proof. vm_compute. auto. Qed.

(** C202. No call times out while the bus is not attached to an event loop: before it
    is attached, after it is detached, after the connection was lost. Refuted for
    two calls with the same cookie: the timeout of the second takes the first out of
    the table (which the hash table finds first), whose timer then stays. *)
Theorem C202_same_cookie_refuted : exists es b log, attached es = false
  /\ run bus_open (es ++ [ETimer 0 0]) = Ok (b, log) /\ callbacks 0 log = [None] /\ callbacks 1 log = [None]
  /\ match run bus_open es with Ok (_, log) => callbacks 0 log = [] | UB => False end.
Proof.
  exists [EAttach; ECall (request 5) true; ECall (request 5) true; EWrite (Sent 1000) 0; EWrite (Sent 1000) 0; ETimer 1 0; EDetach].
  eexists. eexists. split; [reflexivity|]. split; [vm_compute; reflexivity|]. vm_compute. auto.
Qed.
Print Assumptions C202_same_cookie_refuted.
Theorem C202_detached_quiet_partial : forall es b log id pk, distinct_run bus_open es -> run bus_open es = Ok (b, log) -> attached es = false ->
  step b (ETimer id pk) = Ok (b, []).
Proof. exact quiet. Qed.
Print Assumptions C202_detached_quiet_partial.
(** Attached again the call does time out. *)
Example C202_ex :
  match run bus_open [EAttach; ECall (request 5) true; EDetach; ETimer 0 0], run bus_open [ECall (request 5) true; ETimer 0 0; EAttach; EDetach; ETimer 0 0; EAttach; ETimer 0 0],
        run bus_open [EAttach; ECall (request 5) true; EHup; ETimer 0 0; EAttach; ETimer 0 0] with
  | Ok (_, l1), Ok (_, l2), Ok (_, l3) => l1 = [] /\ l2 = [Callback 0 None true] /\ l3 = [Forward None]
  | _, _, _ => False end.
Proof. vm_compute. auto. Qed.
