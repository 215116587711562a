(** C221: raw values and lines of RTSP messages. *)
From Coq Require Import String.
From Verif Require Import Base Qstr_Model Text RtspMsg_Model RtspMsg_Spec RtspRaw_Proofs.

(** C221: a raw value makes one header of one line. Refuted: it may contain line ends. *)
Theorem C221_one_line_refuted : exists key v m h, match new_request (text "M") (text "*") with
    | inl m0 => match append m0 [BOpen key; BRaw v; BClose] with Ok (m1, None) => m = m1 | _ => False end | inr _ => False end
  /\ a_used (m_headers m) = [h] /\ exists l, h_line h = Some l /\ newlines l = 2.
Proof. exact cex_split. Qed.
(** Missing: values with line ends. The header is added behind the others, with exactly this text, *)
Theorem C221_value : forall m key v, built m -> in_memory m -> is_data m = false -> m_sealed m = false -> m_iter_header m = None -> key <> [] -> v <> [] ->
  exists m', append m [BOpen key; BRaw v; BClose] = Ok (m', None)
    /\ a_used (array m' (m_iter_body m)) = a_used (array m (m_iter_body m))
         ++ [mkHeader key (Some v) (tokenize v) (Some (key ++ [58; 32] ++ v ++ [13; 10]))]
    /\ array m' (negb (m_iter_body m)) = array m (negb (m_iter_body m)) /\ m_iter_header m' = None /\ m_iter_body m' = m_iter_body m.
Proof. exact raw_value. Qed.
(** which is one line if it has no line end; *)
Theorem C221_one_line_partial : forall key v, ~ In 10 key -> ~ In 10 v -> newlines (key ++ [58; 32] ++ v ++ [13; 10]) = 1.
Proof. exact raw_plain. Qed.
(** a header takes one value only, and no empty one; *)
Theorem C221_once : forall m key v u t, built m -> in_memory m -> is_data m = false -> m_sealed m = false -> m_iter_header m = None -> key <> [] -> v <> [] ->
  (exists m1, append m [BOpen key; BRaw v] = Ok (m1, None) /\ append_basic m1 (BRaw u) = Ok (m1, Some EINVAL) /\ append_basic m1 (BToken t) = Ok (m1, Some EINVAL))
  /\ (exists m1, append m [BOpen key; BToken t] = Ok (m1, None) /\ append_basic m1 (BRaw u) = Ok (m1, Some EINVAL))
  /\ (exists m1, append m [BOpen key] = Ok (m1, None) /\ append_basic m1 (BRaw []) = Ok (m1, Some EINVAL)).
Proof. exact raw_once. Qed.
(** and a raw line outside of a header is taken as it is. *)
Theorem C221_line : forall m line, built m -> in_memory m -> is_data m = false -> m_sealed m = false -> m_iter_header m = None ->
  exists m' h, append m [BRaw line] = Ok (m', None)
    /\ a_used (array m' (m_iter_body m)) = a_used (array m (m_iter_body m)) ++ [h] /\ h_line h = Some (line ++ [13; 10])
    /\ array m' (negb (m_iter_body m)) = array m (negb (m_iter_body m)) /\ m_iter_header m' = None /\ m_iter_body m' = m_iter_body m.
Proof. exact raw_line. Qed.
Example C221_ex :
  match new_request (text "M") (text "*") with
  | inl m0 => match append m0 [BOpen (text "A"); BRaw (text "b  'c d'"); BClose; BRaw (text "E : f g "); BBody; BRaw (text "x"); BBodyEnd] with
              | Ok (m, None) => a_used (m_headers m) = [mkHeader (text "A") (Some (text "b  'c d'")) [text "b"; text "c d"] (Some (text "A: b  'c d'" ++ [13; 10]));
                                                        mkHeader (text "E") (Some (text "f g")) [text "f"; text "g"] (Some (text "E : f g " ++ [13; 10]))]
                                /\ map h_line (a_used (m_body_headers m)) = [Some (text "x" ++ [13; 10])]
              | _ => False end
  | inr _ => False end.
Proof. vm_compute. auto. Qed.

Print Assumptions C221_one_line_refuted.
Print Assumptions C221_value.
Print Assumptions C221_one_line_partial.
Print Assumptions C221_once.
Print Assumptions C221_line.
