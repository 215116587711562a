(** Properties C18, C20 and C21: RTSP messages and packets between peers. *)
From Coq Require Import String.
From Verif Require Import Base Qstr_Model Text RtspMsg_Model RtspMsg_Spec RtspSend_Proofs RtspParser_Model RtspParser_Spec RtspWire_Spec RtspWire_Proofs.

(** C18. Every described message of at most 61 headers is built, with the described
    contents and bytes; *)
Theorem C18_built : forall f cookie hs bs, good_message f cookie hs bs ->
  exists m, build f cookie hs bs = Some m /\ contents m f cookie hs bs /\ m_cookie m = cookie_of f cookie.
Proof. exact build_wire. Qed.
Print Assumptions C18_built.
(** every item is sent as its bytes; *)
Theorem C18_sent : forall i, good_item i -> exists m, sent i = Some m /\ m_raw m = Some (wire_of i).
Proof. exact sent_wire. Qed.
Print Assumptions C18_sent.
(** a stream of messages and packets, in any division into reads, is received as
    exactly these, in order, and the parser is ready for the next (also C20). *)
Theorem C18_received_partial : forall is ls, Forall good_item is -> Forall (fun l => l <> []) ls -> concat ls = flat_map wire_of is ->
  exists d ck ms, parse_chunks record (parser_init, 0, []) ls = Ok (d, ck, ms, None) /\ Forall2 arrives is ms /\ ready d.
Proof. exact stream_received. Qed.
Print Assumptions C18_received_partial.
(** Without a bound on the headers it is refuted: 62 headers and a body are sent
    but not received. *)
Definition many (n : nat) : list field := repeat (text "A", [text "b"]) n.
Theorem C18_any_number_refuted : exists f cookie hs bs,
  match build f cookie hs bs with
  | Some m => m_raw m = Some (wire f cookie hs bs) /\ received (wire f cookie hs bs) = None
  | None => False end.
Proof. exists (Req (text "M") (text "*")), 1, (many 62), [(text "x", [text "y"])]. vm_compute. auto. Qed.
Print Assumptions C18_any_number_refuted.

(** C20. Packets of 1 to 65535 bytes. *)
Theorem C20_packet : forall channel payload ls, channel < 256 -> 0 < lenN payload < 65536 ->
  Forall (fun l => l <> []) ls -> concat ls = wire_of (Pkt channel payload) ->
  (exists m, sent (Pkt channel payload) = Some m /\ m_raw m = Some (concat ls))
  /\ exists d ck m, parse_chunks record (parser_init, 0, []) ls = Ok (d, ck, [m], None)
       /\ m_start m = Data channel payload /\ ready d.
Proof. exact packet_round_trip. Qed.
Print Assumptions C20_packet.

(** C21 is refuted. A packet of 65536 bytes is announced as empty; *)
Theorem C21_large_refuted : exists channel payload,
  match sent (Pkt channel payload) with
  | Some m => match m_raw m with
              | Some r => takeN 4 r = [36; channel; 0; 0] /\ lenN payload = 65536 | None => False end
  | None => False end.
Proof. exists 0, (repeat 7 (N.to_nat 65536)). vm_compute. auto. Qed.
Print Assumptions C21_large_refuted.
(** after an empty one the following byte is lost. *)
Theorem C21_empty_refuted : exists next,
  match sent (Pkt 0 []) with
  | Some m => match m_raw m with
              | Some r => match received (r ++ [next]) with Some (ms, d) => map m_start ms = [Data 0 []] /\ ready d | None => False end
              | None => False end
  | None => False end /\ next = 82.
Proof. exists 82. vm_compute. auto 10. Qed.
Print Assumptions C21_empty_refuted.
(** What holds for any size up to 65535 that is not empty: the packet is received,
    and what follows is received as if it came alone. *)
Theorem C21_sync_partial : forall channel payload is ls, channel < 256 -> 0 < lenN payload < 65536 -> Forall good_item is ->
  Forall (fun l => l <> []) ls -> concat ls = wire_of (Pkt channel payload) ++ flat_map wire_of is ->
  exists d ck m ms, parse_chunks record (parser_init, 0, []) ls = Ok (d, ck, m :: ms, None)
    /\ m_start m = Data channel payload /\ Forall2 arrives is ms /\ ready d.
Proof. exact packet_in_sync. Qed.
Print Assumptions C21_sync_partial.

Definition described : list item :=
  [Msg (Req (text "SET_PARAMETER") (text "rtsp://x/y")) 12 [(text "Session", [text "a b"; text "c"])] [(text "wfd_idr", [text "on"]); (text "k", [text "v"])];
   Pkt 3 [36; 0; 13; 10]; Msg (Rep 404 []) 12 [] []].
Example C18_nontrivial :
  match received (flat_map wire_of described) with
  | Some (ms, _) => map m_start ms = [Request (text "SET_PARAMETER") (text "rtsp://x/y"); Data 3 [36; 0; 13; 10]; Reply 404 (text "Not Found")]
      /\ map (fun m => map h_tokens (a_used (m_headers m))) ms
         = [[[text "a b"; text "c"]; [text "19"]; [text "text/parameters"]; [text "12"]]; []; [[text "12"]]]
      /\ map (fun m => map h_key (a_used (m_body_headers m))) ms = [[text "wfd_idr"; text "k"]; []; []]
  | None => False end.
Proof. vm_compute. auto. Qed.
Example C20_nontrivial :
  match parse_chunks record (parser_init, 0, []) [[36; 3]; [0; 2; 36]; [13]] with
  | Ok (d, _, [m], None) => m_start m = Data 3 [36; 13] /\ ready d | _ => False end.
Proof. vm_compute. auto 6. Qed.
