(** Properties C16, C17, C62 and C63: the RTSP stream parser. *)
From Coq Require Import String.
From Verif Require Import Base Text RtspMsg_Model RtspMsg_Spec RtspParser_Model RtspParser_Spec RtspParser_Frame RtspParser_Proofs RtspWire_Spec RtspWire_Proofs RtspSafe_Proofs.

(** C16. Any division of a stream into non-empty reads does the same as one read,
    for every handler of messages and from every state of the parser. *)
Theorem C16_chunk_independent : forall (W : Type) (inc : W -> N -> message -> W * N * option err) d ck w ls,
  ls <> [] -> Forall (fun l => l <> []) ls ->
  same (parse_chunks inc (d, ck, w) ls) (parse_data inc (d, ck, w) (concat ls)).
Proof. exact (fun W inc => @chunk_independent W inc). Qed.
Print Assumptions C16_chunk_independent.

(** C17. The internal consistency check never fails: *)
Theorem C17_never_inconsistent : forall (W : Type) (inc : W -> N -> message -> W * N * option err),
  (forall w ck m, snd (inc w ck m) <> Some EFAULT) ->
  forall s ls s', parse_chunks inc s ls <> Ok (s', Some EFAULT).
Proof. exact (fun W inc H => @never_inconsistent W inc H). Qed.
Print Assumptions C17_never_inconsistent.

(** while a read is worked through, the buffer is always the inspected bytes
    followed by those still to be inspected, and the count is the number of the
    inspected ones. *)
Theorem C17_inspected : forall (W : Type) (inc : W -> N -> message -> W * N * option err) d ck w p r d' ck' w',
  feed_all inc (p_buf d (d_buf d ++ p ++ r) (lenN (d_buf d)), ck, w) p = Ok (d', ck', w', None) ->
  exists seen, d_buf d' = seen ++ r /\ d_buflen d' = lenN seen.
Proof. exact (fun W inc => @inspected W inc). Qed.
Print Assumptions C17_inspected.

(** That every byte belongs to one message is refuted: the byte after an empty data
    packet (here an R) belongs to none and is lost; *)
Theorem C17_every_byte_used_refuted : exists stream,
  match received stream with
  | Some ([m], d) => m_raw m = Some [36; 0; 0; 0] /\ ready d /\ stream = [36; 0; 0; 0; 82]
  | _ => False
  end.
Proof. exists [36; 0; 0; 0; 82]. vm_compute. auto 8. Qed.
Print Assumptions C17_every_byte_used_refuted.
(** it holds for streams of well-formed items ([C20_stream]). *)

(** C62 is refuted: 62 headers followed by a body make the parser read a freed
    header array. *)
Definition many (n : nat) : list field := repeat (text "A", [text "b"]) n.
Theorem C62_parser_memory_safe_refuted : exists stream,
  parse_data record (parser_init, 0, []) stream = UB.
Proof. exists (wire (Req (text "M") (text "*")) 1 (many 62) [(text "x", [text "y"])]). vm_compute. reflexivity. Qed.
Print Assumptions C62_parser_memory_safe_refuted.
(** It needs a message of more than 60 headers, whatever the stream. *)
Theorem C62_parser_memory_safe_partial : forall (W : Type) (inc : W -> N -> message -> W * N * option err) ck w ls,
  Forall (fun l => l <> []) ls -> lenN (concat ls) < 2 ^ 60 ->
  parse_chunks inc (parser_init, ck, w) ls = UB ->
  exists seen rest d ck' w' m,
    concat ls = seen ++ rest /\ parse_data inc (parser_init, ck, w) seen = Ok (d, ck', w', None)
    /\ d_m d = Some m /\ 60 < lenN (a_used (m_headers m)).
Proof. exact (fun W inc => @stream_safe W inc). Qed.
Print Assumptions C62_parser_memory_safe_partial.

(** C63 is refuted: a text body whose only line end is its last byte makes the byte
    after the buffer be read. *)
Definition overread : list byte := wire (Req (text "M") (text "*")) 1 [] [(text "x", [text "y"])].
Theorem C63_from_raw_inside_refuted : exists d, new_from_raw 0 d None = UB.
Proof. exists overread. vm_compute. reflexivity. Qed.
Print Assumptions C63_from_raw_inside_refuted.
(** With one more readable byte (of any value) and at most 60 line ends it is
    safe. *)
Theorem C63_from_raw_inside_partial : forall ck d after, lenN d < 2 ^ 61 -> breaks d <= 60 ->
  new_from_raw ck d (Some after) <> UB.
Proof. exact from_raw_safe. Qed.
Print Assumptions C63_from_raw_inside_partial.

(** A request cut in the middle of a header and a packet cut in its length. *)
Definition sample : list byte := wire (Req (text "PLAY") (text "*")) 7 [(text "Session", [text "12"])] [].
Example C16_nontrivial :
  match parse_chunks record (parser_init, 0, []) [takeN 20 sample; dropN 20 sample ++ [36; 5; 0]; [1; 9]] with
  | Ok (d, _, [a; b], None) => m_start a = Request (text "PLAY") (text "*") /\ m_start b = Data 5 [9] /\ ready d
  | _ => False
  end.
Proof. vm_compute. auto 6. Qed.
Example C17_nontrivial :
  match feed_all record (p_buf parser_init sample 0, 0, []) (takeN 30 sample) with
  | Ok (d, _, _, None) => 0 < d_buflen d /\ lenN (d_buf d) = d_buflen d + (lenN sample - 30)
  | _ => False
  end.
Proof. vm_compute. auto. Qed.
Example C62_nontrivial :
  match parse_data record (parser_init, 0, []) (wire (Req (text "M") (text "*")) 1 (many 61) [(text "x", [text "y"])]) with
  | Ok (d, _, [m], None) => lenN (a_used (m_headers m)) = 64 | _ => False end.
Proof. vm_compute. reflexivity. Qed.
Example C63_nontrivial :
  match new_from_raw 0 overread (Some 0) with
  | Ok (_, inl m) => map h_key (a_used (m_headers m)) = [text "Content-Length"; text "Content-Type"; text "CSeq"] /\ m_raw m = Some overread
  | _ => False end.
Proof. vm_compute. auto. Qed.
