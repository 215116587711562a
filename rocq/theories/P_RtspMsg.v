(** Properties C19, C22 and C61: RTSP messages. *)
From Coq Require Import String.
From Verif Require Import Base Qstr_Model Text RtspMsg_Model RtspMsg_Spec RtspMsg_Proofs RtspBuilt_Proofs.

(** C19. Every sealed request or reply, built by any sequence of calls, is complete:
    start line, headers, blank line and body, the last Content-Length being the
    number of bytes of the body. *)
Theorem C19_sealed_complete : forall m,
  built m -> m_sealed m = true -> is_data m = false -> complete m.
Proof. exact built_complete. Qed.
Print Assumptions C19_sealed_complete.

(** C22. Nothing changes the contents of a sealed message; *)
Theorem C22_sealed_stays : forall m m', later m m' -> m_sealed m = true -> same_contents m m'.
Proof. exact later_same. Qed.
Print Assumptions C22_sealed_stays.
(** every change is rejected; *)
Theorem C22_changes_rejected : forall m, m_sealed m = true ->
  (forall o, exists e, append_basic m o = Ok (m, Some e))
  /\ (forall s, exists e, append_line m s = Ok (m, Some e))
  /\ (forall l, exists e, append m l = Ok (m, Some e))
  /\ (forall c, set_cookie m c = (m, Some EBUSY)).
Proof. exact (fun m S => conj (fun o => sealed_append m o S) (conj (fun s => sealed_line m s S) (conj (fun l => sealed_ops m l S) (fun c => sealed_cookie_kept m c S)))). Qed.
Print Assumptions C22_changes_rejected.
(** sealing again succeeds without effect; *)
Theorem C22_seal_again : forall m ck, m_sealed m = true -> seal ck m = Ok (ck, m, None).
Proof. exact sealed_seal. Qed.
Print Assumptions C22_seal_again.
(** sealing with an open header or body is rejected. *)
Theorem C22_seal_open : forall ck m, m_sealed m = false -> m_iter_body m = true \/ m_iter_header m <> None ->
  seal ck m = Ok (ck, m, Some EINVAL).
Proof. exact seal_open. Qed.
Print Assumptions C22_seal_open.

(** C61 is refuted: a Content-Type header followed by 64 others, then a body. *)
Definition many (n : nat) : list field := repeat (text "A", [text "b"]) n.
Definition crowd : list bop :=
  field_ops (text "Content-Type", [text "text/parameters"]) ++ flat_map field_ops (many 64)
  ++ BBody :: field_ops (text "x", [text "y"]) ++ [BBodyEnd].
Theorem C61_any_headers_refuted : exists method uri ops,
  match new_request method uri with
  | inl m => match append m ops with Ok (m, None) => seal 0 m = UB | _ => False end
  | inr _ => False end.
Proof. exists (text "M"), (text "*"), crowd. vm_compute. reflexivity. Qed.
Print Assumptions C61_any_headers_refuted.
(** Building is always safe, *)
Theorem C61_building_partial : forall m o, built m -> in_memory m -> append_basic m o <> UB.
Proof. exact built_append_safe. Qed.
Print Assumptions C61_building_partial.
(** sealing up to 61 headers; it then fails only if something is open. *)
Theorem C61_sealing_partial : forall ck m, built m -> lenN (a_used (m_headers m)) <= 61 ->
  exists ck' m' e, seal ck m = Ok (ck', m', e)
    /\ (e = None <-> m_sealed m = true \/ m_iter_body m = false /\ m_iter_header m = None).
Proof. exact built_seal_safe. Qed.
Print Assumptions C61_sealing_partial.

(** The caller gives a wrong Content-Length. *)
Example C19_nontrivial :
  match build (Req (text "M") (text "*")) 5 [(text "content-length", [text "9"])] [(text "x", [text "y"])] with
  | Some m => m_raw m = Some (text "M * RTSP/1.0" ++ [13; 10] ++ text "content-length: 6" ++ [13; 10] ++ text "Content-Type: text/parameters" ++ [13; 10]
                ++ text "CSeq: 5" ++ [13; 10; 13; 10] ++ text "x: y" ++ [13; 10])
  | None => False end.
Proof. vm_compute. reflexivity. Qed.
Example C22_nontrivial :
  match build (Req (text "M") (text "*")) 5 [] [] with
  | Some m => append_basic m (BOpen (text "A")) = Ok (m, Some EBUSY) /\ seal 0 m = Ok (0, m, None)
  | None => False end.
Proof. vm_compute. auto. Qed.
Example C61_nontrivial :
  match build (Req (text "M") (text "*")) 5 (many 61) [(text "x", [text "y"])] with
  | Some m => lenN (a_used (m_headers m)) = 64
  | None => False end.
Proof. vm_compute. reflexivity. Qed.
