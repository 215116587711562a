(** Properties C232 and C233: reading RTSP messages. *)
From Coq Require Import String.
From Verif Require Import Base Text RtspMsg_Model RtspMsg_Spec RtspRead_Model RtspRead_Spec RtspRead_Proofs RtspRead_Cex.
Local Open Scope list_scope.

(** ** Examples *)
Example stands_there : stands sample top.
Proof. exact sample_top. Qed.
Definition got (r : res (message * (list (list byte) + err))) : option (list (list byte) + err) := match r with Ok (_, x) => Some x | UB => None end.
Definition then_read (r : res (message * (list (list byte) + err))) (ops : list rop) : option (list (list byte) + err) := match r with Ok (m, _) => got (readv m (Some ops)) | UB => None end.
(** The first of two headers is read, whatever the case of the name. *)
Example reads_header : got (readv sample (Some [REnter (text "SESSION"); RString; RString; RExit])) = Some (inl [[]; text "12"; text "x y"; []]).
Proof. vm_compute. reflexivity. Qed.
Example reads_raw_value : got (readv sample (Some [REnter (text "Session"); RRaw; RSkip; RString])) = Some (inl [[]; text "12 ""x y"""; []; text "x y"]).
Proof. vm_compute. reflexivity. Qed.
Example reads_body_header : got (readv sample (Some [RBody; REnter (text "wfd_idr"); RString; RExit; RBodyEnd])) = Some (inl [[]; []; text "on"; []; []]).
Proof. vm_compute. reflexivity. Qed.
Example no_more_tokens : got (readv sample (Some [REnter (text "Session"); RString; RString; RString])) = Some (inr ENOENT)
  /\ then_read (readv sample (Some [REnter (text "Session"); RString; RString; RString])) [REnter (text "Session"); RString] = Some (inl [[]; text "12"]).
Proof. split; vm_compute; reflexivity. Qed.
Example not_in_front : got (readv sample (Some [REnter (text "wfd_idr")])) = Some (inr ENOENT) /\ got (readv sample (Some [RBody; RBody])) = Some (inr EINVAL)
  /\ got (readv sample (Some [RString])) = Some (inr EINVAL) /\ got (readv sample (Some [REnter []])) = Some (inr EINVAL) /\ got (readv sample (Some [RExit])) = Some (inl [[]]).
Proof. repeat split; vm_compute; reflexivity. Qed.
(** The body is left when reading in it fails. *)
Example leaves_body : then_read (readv sample (Some [RBody; REnter (text "none")])) [RBody; REnter (text "wfd_idr"); RString] = Some (inl [[]; []; text "on"]).
Proof. vm_compute. reflexivity. Qed.
(** After skipping that failed the reader stays in the body. *)
Example skip_stays : match skip sample (Some [RBody; RString]) with Ok (m, Some EINVAL) => m_iter_body m | _ => false end = true.
Proof. vm_compute. reflexivity. Qed.
Example nothing_asked : got (readv sample None) = Some (inl []) /\ match skip sample None with Ok (_, None) => true | _ => false end = true.
Proof. split; vm_compute; reflexivity. Qed.
Example skips_token : match readv sample (Some [REnter (text "Session")]) with
  | Ok (m, _) => match skip m (Some [RString]) with Ok (m, None) => got (readv m (Some [RString])) | _ => None end
  | UB => None end = Some (inl [text "x y"]).
Proof. vm_compute. reflexivity. Qed.
Example goes_back : match readv sample (Some [RBody; REnter (text "wfd_idr"); RString]) with
  | Ok (m, _) => got (readv (fst (rewind m false)) (Some [RString])) = Some (inl [text "on"]) /\ got (readv (fst (rewind m true)) (Some [REnter (text "Session"); RString])) = Some (inl [[]; text "12"])
  | UB => False end.
Proof. vm_compute. split; reflexivity. Qed.
Example not_rewound : snd (rewind (msg_new (Unknown [])) true) = Some EBUSY /\ snd (rewind (msg_new (Data 1 [])) true) = Some EINVAL.
Proof. split; reflexivity. Qed.
Example bytes_given : get_body sample = Some (text "wfd_idr: on" ++ [13; 10]) /\ get_raw (msg_new (Unknown [])) = None /\ get_body (msg_new (Unknown [])) = None
  /\ match get_raw sample with Some t => takeN 5 t = text "SETUP" | None => False end.
Proof. vm_compute. repeat split; reflexivity. Qed.

(** ** C232: several values are read as the message has them *)
(** Reading is defined from wherever the reader stands and does not change the message. It gives the
    values, or there are none and the reader stands outside of all headers and of the body. *)
Theorem C232_reads m p ops : stands m p -> exists m' r, readv m (Some ops) = Ok (m', r) /\ same_contents m m' /\
  match r with
  | inl vs => exists q, stands m' q /\ reads (front m) (behind m) p ops vs q
  | inr _ => stands m' top /\ forall vs q, ~ reads (front m) (behind m) p ops vs q
  end.
Proof. exact (readv_all m p ops). Qed.
Print Assumptions C232_reads.
Theorem C232_exact m p ops vs q : stands m p -> reads (front m) (behind m) p ops vs q -> exists m', readv m (Some ops) = Ok (m', inl vs) /\ stands m' q /\ same_contents m m'.
Proof. exact (readv_exact m p ops vs q). Qed.
Print Assumptions C232_exact.
Theorem C232_sealed m : m_sealed m = true -> is_data m = false -> m_iter_body m = false -> m_iter_header m = None -> stands m top.
Proof. exact (sealed_top m). Qed.
Print Assumptions C232_sealed.
Theorem C232_data m ops : is_data m = true -> readv m ops = Ok (m, inr EINVAL).
Proof. exact (readv_not m ops). Qed.
Print Assumptions C232_data.
Theorem C232_unsealed m ops : is_data m = false -> m_sealed m = false -> readv m ops = Ok (m, inr EBUSY) /\ skip m ops = Ok (m, Some EBUSY).
Proof. exact (readv_unsealed m ops). Qed.
Print Assumptions C232_unsealed.

(** The bytes of the body and of the message are given once it is sealed, those of the body not
    for data. *)
Theorem C232_bytes m : (get_body m = if is_data m || negb (m_sealed m) then None else m_body m) /\ (get_raw m = if m_sealed m then m_raw m else None).
Proof. exact (bytes_when m). Qed.
Print Assumptions C232_bytes.

(** ** C233: skipping and going back *)
(** Refuted: no header can be skipped, as its name is not passed. *)
Theorem C233_skip_refuted : exists m m' vs name, stands m top /\ readv m (Some [REnter name; RString; RExit]) = Ok (m', inl vs)
  /\ skip m (Some [REnter name; RString; RExit]) = Ok (m, Some EINVAL).
Proof. exact skip_differs. Qed.
Print Assumptions C233_skip_refuted.
Theorem C233_never m p name ops : stands m p -> skip m (Some (REnter name :: ops)) = Ok (m, Some EINVAL).
Proof. exact (skip_enter m p name ops). Qed.
Print Assumptions C233_never.
(** Missing: types that enter a header. Skipping goes where reading goes; if it fails, the
    reader stays before what cannot be read. *)
Theorem C233_skip_partial m p ops : stands m p -> existsb enters ops = false -> exists m' e, skip m (Some ops) = Ok (m', e) /\ same_contents m m' /\
  match e with
  | None => exists vs q, stands m' q /\ reads (front m) (behind m) p ops vs q
  | Some _ => (exists before o after vs q, ops = before ++ o :: after /\ stands m' q /\ reads (front m) (behind m) p before vs q /\ forall v r, ~ reads1 (front m) (behind m) q o v r)
              /\ forall vs q, ~ reads (front m) (behind m) p ops vs q
  end.
Proof. exact (skip_all m p ops). Qed.
Print Assumptions C233_skip_partial.
Theorem C233_rewind m b h ts : stands m (mkPlace b (Some (h, ts))) -> snd (rewind m false) = None /\ stands (fst (rewind m false)) (mkPlace b (Some (h, h_tokens h))) /\ same_contents m (fst (rewind m false)).
Proof. exact (rewind_back m b h ts). Qed.
Print Assumptions C233_rewind.
Theorem C233_rewind_all m p : stands m p -> snd (rewind m true) = None /\ stands (fst (rewind m true)) top /\ same_contents m (fst (rewind m true)).
Proof. exact (rewind_top m p). Qed.
Print Assumptions C233_rewind_all.
Theorem C233_again m b h ts : stands m (mkPlace b (Some (h, ts))) -> exists m', readv (fst (rewind m false)) (Some (map (fun _ => RString) (h_tokens h))) = Ok (m', inl (h_tokens h)).
Proof. exact (again m b h ts). Qed.
Print Assumptions C233_again.
