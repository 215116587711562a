(** Building and sealing a message gives its wire format. *)
From Coq Require Import String.
From Verif Require Import Base Qstr_Model Text Text_Proofs RtspMsg_Model RtspMsg_Spec RtspMsg_Proofs RtspSeal_Proofs RtspBuilt_Proofs RtspText_Proofs.

Lemma fields_ok fs : forall m rest, Forall (fun f => fst f <> []) fs -> wf m -> is_data m = false -> m_sealed m = false -> m_iter_header m = None ->
  lenN (a_used (array m (m_iter_body m))) + lenN fs < 2 ^ 62 ->
  exists m', append_ops m (flat_map field_ops fs ++ rest) = append_ops m' rest /\ wf m' /\ kept m m' /\ m_iter_header m' = None
    /\ m_iter_body m' = m_iter_body m /\ a_used (array m' (m_iter_body m)) = a_used (array m (m_iter_body m)) ++ map header_of fs
    /\ array m' (negb (m_iter_body m)) = array m (negb (m_iter_body m)).
Proof.
  induction fs as [|f fs IH]; intros m rest K Wm D S I L.
  - exists m. cbn [flat_map app map]. rewrite app_nil_r. auto 10 using kept_refl.
  - inversion K as [|? ? K1 K2]; subst. cbn [flat_map]. rewrite <- app_assoc. rewrite lenN_cons in L.
    destruct (field_ok m f (flat_map field_ops fs ++ rest)) as (m1 & p & E & A & I1 & W1); auto.
    { red. red. lia. }
    destruct A as [_ U O B T Kp _ _]. destruct (kept_data _ _ Kp) as (D1 & S1 & _).
    destruct (IH m1 rest) as (m2 & E2 & W2 & Kp2 & I2 & B2 & U2 & O2); auto; try congruence.
    { rewrite B, U. len. lia. }
    exists m2. rewrite E, E2. split; [reflexivity|]. split; [assumption|]. split; [eapply kept_trans; eassumption|].
    split; [assumption|]. split; [congruence|]. rewrite B in U2, O2. split; [rewrite U2, U, <- app_assoc; reflexivity|congruence].
Qed.

Lemma ops_head m o l m' : append_basic m o = Ok (m', None) -> append_ops m (o :: l) = append_ops m' l.
Proof. intros E. cbn [append_ops]. rewrite E. reflexivity. Qed.

Lemma lenN_fields bs : lenN bs <= lenN (body_bytes bs).
Proof.
  induction bs as [|b bs IH]; [reflexivity|]. unfold body_bytes in *. cbn [flat_map]. rewrite lenN_cons, lenN_app.
  unfold field_line at 1. rewrite !lenN_app. change (lenN [58; 32]) with 2. lia.
Qed.

(** Before sealing. *)
Lemma append_ok m hs bs : closed m -> m_headers m = no_arr -> m_body_headers m = no_arr ->
  Forall (fun f => fst f <> []) hs -> Forall (fun f => fst f <> []) bs -> lenN hs <= 61 -> lenN bs < 2 ^ 32 ->
  exists m', append m (build_ops hs bs) = Ok (m', None) /\ closed m' /\ kept m m'
    /\ a_used (m_headers m') = map header_of hs /\ a_used (m_body_headers m') = map header_of bs.
Proof.
  intros [Wm D S I B] Eh Eb Kh Kb Lh Lb. assert (E32 : 2 ^ 32 = 4294967296) by reflexivity. unfold append. rewrite guard_open by assumption. unfold build_ops.
  match goal with |- context [append_ops m (_ ++ ?r)] => destruct (fields_ok hs m r) as (m1 & E & W1 & K1 & I1 & B1 & U1 & O1); auto end.
  { rewrite B. cbn [array]. rewrite Eh, p62. cbn [no_arr a_used]. rewrite lenN_nil. lia. }
  rewrite E. destruct (kept_data _ _ K1) as (D1 & S1 & _). rewrite D in D1. rewrite S in S1. rewrite B in *. cbn [negb array] in *. rewrite Eh in U1. rewrite Eb in O1. cbn [no_arr a_used app] in U1.
  destruct bs as [|b bs].
  { exists m1. split; [reflexivity|]. split; [constructor; congruence|]. split; [assumption|]. split; [assumption|]. rewrite O1. reflexivity. }
  set (m2 := set_iter m1 true (m_iter_header m1) (m_iter_token m1)).
  assert (E2 : append_basic m1 BBody = Ok (m2, None)).
  { unfold append_basic, open_body. rewrite !guard_open by congruence. unfold m2. rewrite I1, B1. reflexivity. }
  rewrite (ops_head _ _ _ _ E2).
  assert (W2 : wf m2). { destruct W1 as [? ? ? ? ? Op]. constructor; auto. red in Op |- *. rewrite I1 in Op. unfold m2. cbn. rewrite I1. assumption. }
  destruct (fields_ok (b :: bs) m2 [BBodyEnd]) as (m3 & E3 & W3 & K3 & I3 & B3 & U3 & O3); auto; try exact S1; try exact D1.
  { unfold m2. cbn. rewrite O1. change (lenN (a_used no_arr)) with 0. rewrite lenN_cons in Lb. rewrite lenN_cons. change 4611686018427387904 with (2 ^ 62). rewrite p62. lia. }
  rewrite E3. change (m_iter_body m2) with true in *. cbn [negb array] in *. change (m_body_headers m2) with (m_body_headers m1) in U3. change (m_headers m2) with (m_headers m1) in O3.
  set (m4 := set_iter m3 false (m_iter_header m3) (m_iter_token m3)).
  destruct (kept_data _ _ K3) as (D3 & S3 & _). change (is_data m2) with (is_data m1) in D3. change (m_sealed m2) with (m_sealed m1) in S3.
  assert (E4 : append_basic m3 BBodyEnd = Ok (m4, None)).
  { unfold append_basic, close_body. rewrite !guard_open by congruence. unfold m4. rewrite I3, B3. reflexivity. }
  rewrite (ops_head _ _ _ _ E4). exists m4. split; [reflexivity|].
  assert (W4 : wf m4). { destruct W3 as [? ? ? ? ? Op]. constructor; auto. red in Op |- *. rewrite I3 in Op. unfold m4. cbn. rewrite I3. assumption. }
  split; [constructor; [exact W4|exact (eq_trans D3 D1)|exact (eq_trans S3 S1)|exact I3|reflexivity]|]. split.
  { eapply kept_trans; [exact K1|]. eapply (kept_trans _ m3); [|unfold m4; repeat split]. exact K3. }
  unfold m4. cbn [m_headers m_body_headers set_iter]. rewrite O3, U3, O1. auto.
Qed.

Lemma not_known_none hs : Forall (fun x => ~ known (fst x)) hs -> forall name, In name [text "Content-Length"; text "Content-Type"; text "CSeq"] ->
  none_of name (map header_of hs).
Proof.
  intros F name Hn. unfold none_of. apply Forall_map. eapply Forall_impl; [|exact F]. intros x Hx. cbn [header_of h_key].
  destruct (case_eq (fst x) name) eqn:E; [|reflexivity]. exfalso. apply Hx. unfold known. cbn [In] in Hn.
  destruct Hn as [<-|[<-|[<-|[]]]]; auto.
Qed.
Lemma text_of_map fs : text_of (map header_of fs) = flat_map field_line fs.
Proof. induction fs as [|f fs IH]; [reflexivity|]. cbn [map text_of flat_map header_of h_line]. unfold text_of in IH. now rewrite IH. Qed.
Lemma without_with c : c < 2 ^ 63 -> without_flag (with_flag c) = c.
Proof.
  unfold without_flag, with_flag, remote_flag. change (2 ^ 63) with 9223372036854775808. intros H.
  rewrite (N.mod_small c) by lia. rewrite <- (N.mul_1_l 9223372036854775808) at 1. rewrite N.mod_add by lia. apply N.mod_small. lia.
Qed.
Lemma without_small c : c < 2 ^ 63 -> without_flag c = c.
Proof. apply N.mod_small. Qed.
Lemma with_with c : with_flag (with_flag c) = with_flag c.
Proof.
  unfold with_flag, remote_flag. change (2 ^ 63) with 9223372036854775808.
  rewrite <- (N.mul_1_l 9223372036854775808) at 2. rewrite N.mod_add by lia. rewrite N.mod_mod by lia. reflexivity.
Qed.

Definition cookie_of (f : first_line) (cookie : N) : N := match f with Req _ _ => cookie | Rep _ _ => with_flag cookie end.
Lemma create_ok f cookie : good_first f -> 0 < cookie < 2 ^ 63 ->
  create f cookie = inl (set_cookie' (msg_new (start_of f)) (cookie_of f cookie)).
Proof.
  intros G C. destruct f as [method uri|code phrase]; cbn [good_first create start_of cookie_of] in *.
  - destruct G as ((N1 & _) & (N2 & _) & _). destruct method; [congruence|]. destruct uri; [congruence|]. cbn [new_request].
    unfold set_cookie. cbn [m_sealed msg_new fst]. cbn [is_reply m_start msg_new]. rewrite without_small by lia. reflexivity.
  - destruct G as (G & _). unfold new_reply. destruct (N.eqb_spec cookie 0); [lia|]. unfold new_raw_reply. destruct (N.eqb_spec code (2 ^ 32 - 1)); [lia|]. reflexivity.
Qed.
Lemma field_key f : good_field f -> fst f <> [].
Proof. intros ((H & _) & _). exact H. Qed.

Theorem build_wire f cookie hs bs : good_message f cookie hs bs ->
  exists m, build f cookie hs bs = Some m /\ contents m f cookie hs bs /\ m_cookie m = cookie_of f cookie.
Proof.
  intros (Gf & Gc & Gh & Gn & Gb & Gl & Gs). unfold build. rewrite create_ok by assumption.
  set (m0 := set_cookie' _ _). assert (D0 : is_data m0 = false) by (now destruct f).
  assert (C0 : closed m0). { constructor; auto. apply with_cookie_wf, wf_new. }
  destruct (append_ok m0 hs bs C0 eq_refl eq_refl) as (m1 & E1 & C1 & K1 & U1 & V1); auto.
  { eapply Forall_impl; [|exact Gh]. exact field_key. }
  { eapply Forall_impl; [|exact Gb]. exact field_key. }
  { eapply N.le_lt_trans; [apply lenN_fields|exact Gl]. }
  rewrite E1. destruct K1 as (K1 & K2 & K3 & K4 & K5 & K6 & K7 & K8).
  assert (Ec : m_cookie m1 = cookie_of f cookie) by (rewrite K2; reflexivity).
  assert (Nz : cookie_of f cookie <> 0). { destruct f; cbn; [lia|]. unfold with_flag, remote_flag. change (2 ^ 63) with 9223372036854775808. lia. }
  assert (Eck : cooked 0 m1 = m1).
  { unfold cooked, sealed_cookie. destruct (N.eqb_spec (m_cookie m1) 0); [congruence|]. unfold is_reply. rewrite K1.
    destruct f; cbn [m0 m_start set_cookie' msg_new start_of]; [apply set_cookie_same|]. rewrite Ec. cbn [cookie_of]. rewrite with_with.
    replace (with_flag cookie) with (m_cookie m1) by exact Ec. apply set_cookie_same. }
  destruct C1 as [W1 D1 S1 I1 B1].
  assert (L1 : lenN (a_used (m_headers m1)) <= 61) by (rewrite U1, lenN_map; assumption).
  assert (E60 : 2 ^ 60 = 1152921504606846976) by reflexivity.
  destruct (serialize_ok m1) as (m2 & E2 & C2 & A1 & A2 & A3 & A4 & A5 & A6 & A7 & A8 & _ & _ & _ & A9).
  { constructor; assumption. } { lia. } { left. assumption. }
  rewrite (seal_eq 0 m1 S1 B1 I1), Eck, E2. cbn [bind].
  assert (Es : match m_start m1 with Data c p => Ok (serialize_data m1 c p, None) | _ => Ok (m2, None) end = Ok (m2, @None err)).
  { unfold is_data in D1. destruct (m_start m1); try reflexivity. discriminate. }
  rewrite Es. cbn [bind]. exists (set_sealed m2). split; [reflexivity|].
  assert (Bo : body_of m1 = body_bytes bs).
  { unfold body_of. rewrite K5. cbn [m0 m_body set_cookie' msg_new]. rewrite V1. apply text_of_map. }
  assert (Wf : without_flag (m_cookie m1) = cookie). { rewrite Ec. destruct f; cbn; [now apply without_small|now apply without_with]. }
  assert (Fl : a_used (m_headers m2) = map header_of (full_headers cookie hs bs)).
  { rewrite A9 by (rewrite U1; apply not_known_none; [assumption|cbn; tauto]).
    unfold full_headers. rewrite !map_app, U1, Bo, V1, Wf. f_equal. rewrite app_assoc. f_equal. destruct bs as [|b bs]; [reflexivity|].
    pose proof (lenN_fields (b :: bs)) as Hl. rewrite lenN_cons in Hl.
    destruct (N.eqb_spec (lenN (body_bytes (b :: bs))) 0); [lia|]. rewrite N.mod_small by assumption. reflexivity. }
  split; [|cbn; congruence]. destruct C2 as [W2 D2 S2 I2 B2].
  unfold contents. cbn [set_sealed m_start m_major m_minor m_headers m_body_headers m_body m_raw m_sealed m_iter_body m_iter_header].
  split; [rewrite A1, K1; reflexivity|]. split; [rewrite A3, K3; reflexivity|]. split; [rewrite A4, K4; reflexivity|].
  split; [exact Fl|]. split; [congruence|]. split; [congruence|]. split; [|auto].
  rewrite A8, Fl, text_of_map, Bo. f_equal. unfold wire. f_equal.
  rewrite start_line_status; [|split; [rewrite K3; reflexivity|split; [rewrite K4; reflexivity|rewrite K1; now destruct f]]|assumption].
  rewrite K1. destruct f as [method uri|code phrase]; [reflexivity|]. cbn [m0 m_start set_cookie' msg_new start_of status_of].
  unfold status. now rewrite <- !app_assoc.
Qed.
