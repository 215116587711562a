(** The parser on arbitrary streams: undefined behaviour needs a message with
    many headers. *)
From Coq Require Import String.
From Verif Require Import Base Text RtspMsg_Model RtspMsg_Spec RtspMsg_Proofs RtspSeal_Proofs RtspBuilt_Proofs RtspParser_Model RtspParser_Spec RtspParser_Frame.

Lemma cut_line_len d : lenN (snd (cut_line d)) <= lenN d.
Proof.
  induction d as [|c d IH]; [reflexivity|]. cbn [cut_line]. destruct ((c =? 13) || (c =? 10)); [reflexivity|].
  destruct (cut_line d) as [a r]. cbn [snd] in *. rewrite lenN_cons. lia.
Qed.
Lemma cut_line_none d r : cut_line d = ([], r) -> r = d.
Proof. destruct d as [|c d]; cbn [cut_line]; [congruence|]. destruct ((c =? 13) || (c =? 10)); [congruence|]. destruct (cut_line d). discriminate. Qed.
Lemma cut_line_some d c v r : cut_line d = (c :: v, r) -> lenN r + 1 <= lenN d.
Proof.
  destruct d as [|x d]; cbn [cut_line]; [discriminate|]. destruct ((x =? 13) || (x =? 10)); [discriminate|].
  pose proof (cut_line_len d) as H. destruct (cut_line d) as [a t]. intros [= -> -> ->]. cbn [snd] in H. rewrite lenN_cons. lia.
Qed.

Lemma body_loop_safe fuel : forall m d after, wf m -> is_data m = false -> m_iter_header m = None -> m_iter_body m = true ->
  lenN (a_used (m_body_headers m)) + lenN d < 2 ^ 62 ->
  exists m', body_loop fuel m d (Some after) = Ok (m', None) /\ wf m' /\ kept m m' /\ m_iter_header m' = None /\ m_iter_body m' = true /\ m_headers m' = m_headers m.
Proof.
  induction fuel as [|fuel IH]; intros m d after Wm D I B L; cbn [body_loop]; [exists m; auto 8 using kept_refl|].
  destruct d as [|z zs] eqn:Ed; [exists m; auto 8 using kept_refl|]. rewrite <- Ed in *. clear z zs Ed.
  destruct (cut_line d) as [v r] eqn:Ec.
  assert (R : exists rest, match r with [] => Ok [] | [_] => match Some after with Some _ => Ok [] | None => UB end | _ :: t => Ok t end = Ok rest /\ lenN rest <= lenN r).
  { destruct r as [|x [|y r]]; eexists; (split; [reflexivity|rewrite ?lenN_cons, ?lenN_nil; lia]). }
  destruct R as (rest & Er & Lr). rewrite Er. cbn [bind]. pose proof (cut_line_len d) as Lc. rewrite Ec in Lc. cbn [snd] in Lc.
  destruct v as [|c v]; [apply IH; auto; lia|]. apply cut_line_some in Ec.
  destruct (append_header_line_ok m (sanitize (c :: v))) as (m1 & p & E & A & I1 & W1); auto.
  { red. rewrite B. red. cbn [array]. lia. }
  rewrite E. cbn [bind]. destruct A as [_ U O B1 _ K _ _]. rewrite B in *. cbn [array negb] in *. destruct (kept_data _ _ K) as (D1 & _).
  destruct (IH m1 rest after) as (m2 & E2 & W2 & K2 & I2 & B2 & H2); auto; try congruence.
  { rewrite U, lenN_app, lenN_cons, lenN_nil. lia. }
  exists m2. split; [exact E2|]. split; [assumption|]. split; [eapply kept_trans; eassumption|]. repeat split; congruence.
Qed.

Lemma append_body_safe m body after : closed m -> lenN (a_used (m_headers m)) <= 64 -> lenN (a_used (m_body_headers m)) + lenN body < 2 ^ 62 ->
  exists m', append_body m body (Some after) = Ok (m', None) /\ closed m' /\ a_used (m_headers m') = a_used (m_headers m).
Proof.
  intros C L Lb. assert (C0 := C). destruct C as [Wm D S I B]. unfold append_body. destruct body as [|z zs] eqn:Eb; [exists m; auto|]. rewrite <- Eb in *. clear z zs Eb.
  assert (T : exists t, match m_ctype m with None => Ok false | Some p => do h <- deref m p; Ok (match h_value h with Some v => str_eq v (text "text/parameters") | None => false end) end = Ok t).
  { destruct (m_ctype m) as [p|] eqn:Ep; [|eauto]. pose proof (wf_ctype m Wm) as P. rewrite Ep in P. destruct P as (Pb & Pm & a & h & b & E & Ei & _).
    rewrite (deref_mid m p a h b); [eexists; reflexivity| | |]; rewrite ?Pb; cbn [array]; auto. }
  destruct T as (t & ->). cbn [bind]. destruct t; cbn [negb].
  2: { eexists. split; [reflexivity|]. split; [|reflexivity]. constructor; auto. destruct Wm as [? ? ? ? ? Op]. constructor; auto. }
  unfold open_body. rewrite guard_open by assumption. rewrite I, B. cbn [no_ptr negb orb bind].
  set (m1 := set_iter m true None (m_iter_token m)).
  assert (W1 : wf m1). { destruct Wm as [? ? ? ? ? Op]. constructor; auto. red in Op |- *. rewrite I in Op. exact Op. }
  destruct (body_loop_safe (Datatypes.length body) m1 body after) as (m2 & E2 & W2 & K2 & I2 & B2 & H2); auto.
  rewrite E2. cbn [bind]. destruct (kept_data _ _ K2) as (D2 & S2 & _). change (is_data m1) with (is_data m) in D2. change (m_sealed m1) with (m_sealed m) in S2.
  unfold close_body. rewrite guard_open by congruence. rewrite I2, B2. cbn [no_ptr negb].
  eexists. split; [reflexivity|]. split; [|cbn [set_iter m_headers]; rewrite H2; reflexivity].
  assert (W3 : wf (set_iter m2 false None (m_iter_token m2))). { destruct W2 as [? ? ? ? ? Op]. constructor; auto. red in Op |- *. rewrite I2 in Op. exact Op. }
  constructor; [exact W3|exact (eq_trans D2 D)|exact (eq_trans S2 S)|reflexivity|reflexivity].
Qed.

Section F.
Context {W : Type} (inc : W -> N -> message -> W * N * option err).

Definition fine (d : parser) : Prop :=
  lenN (d_buf d) = d_buflen d /\
  match d_m d with Some m => closed m /\ m_body_headers m = no_arr | None => True end.
Definition few (n : N) (d : parser) : Prop := match d_m d with Some m => lenN (a_used (m_headers m)) <= n | None => True end.
Definition fine' (d : parser) : Prop := match d_m d with Some m => closed m /\ m_body_headers m = no_arr | None => True end.
(** No undefined behaviour; the message is fine if there is no error, and the
    buffer has not grown. *)
Definition good_out (n : N) (x : @out W) : Prop := exists d ck w e, x = Ok (d, ck, w, e) /\ (e = None -> fine' d /\ lenN (d_buf d) <= n).

Lemma append_header_safe d m line : closed m -> m_body_headers m = no_arr -> lenN (a_used (m_headers m)) <= 60 ->
  exists d' m' e, parser_append_header d m line = Ok (d', e) /\ d_m d' = Some m' /\ closed m' /\ m_body_headers m' = no_arr /\ lenN (a_used (m_headers m')) <= 61
    /\ d_buf d' = d_buf d /\ d_buflen d' = d_buflen d.
Proof.
  intros C Eb L. destruct C as [Wm D S I B]. unfold parser_append_header.
  destruct (append_header_line_ok m line) as (m1 & p & E & A & I1 & W1); auto.
  { red. rewrite B. red. cbn [array]. rewrite p62. lia. }
  rewrite E. cbn [bind]. rewrite (added_deref _ _ _ _ A). cbn [bind]. set (h := line_header line) in *. clearbody h.
  destruct A as [_ U O B1 _ K _ _]. rewrite B in *. cbn [array negb] in *. destruct (kept_data _ _ K) as (D1 & S1 & _).
  assert (C1 : closed m1) by (constructor; congruence).
  assert (L1 : lenN (a_used (m_headers m1)) <= 61) by (rewrite U, lenN_app, lenN_cons, lenN_nil; lia).
  assert (O1 : m_body_headers m1 = no_arr) by congruence.
  assert (C2 : forall c, closed (set_cookie' m1 c)) by (intros; now apply with_cookie_closed).
  destruct (ptr_eqb p (m_clen m1)).
  { destruct (h_tokens h) as [|t ?]; [do 3 eexists; split; [reflexivity|]; cbn; auto 8|]. destruct (whole_number t) as [[?|?] []]; do 3 eexists; (split; [reflexivity|]); cbn; auto 8. }
  destruct (ptr_eqb p (m_cseq m1)); [|do 3 eexists; split; [reflexivity|]; cbn; auto 8].
  destruct (h_tokens h) as [|t ?]; [do 3 eexists; split; [reflexivity|]; cbn; auto 8|].
  destruct (whole_number t) as [[n|?] []]; try (do 3 eexists; (split; [reflexivity|]); cbn; auto 8; fail).
  do 3 eexists; split; [reflexivity|]. cbn. split; [reflexivity|]. destruct (has_flag n); cbn; auto 8.
Qed.
Lemma from_head_closed line m : from_head line = inl m -> closed m /\ m_body_headers m = no_arr /\ lenN (a_used (m_headers m)) = 0.
Proof.
  assert (H : forall s a b, match s with Data _ _ => False | _ => True end -> closed (set_version (msg_new s) a b) /\ m_body_headers (set_version (msg_new s) a b) = no_arr /\ lenN (a_used (m_headers (set_version (msg_new s) a b))) = 0).
  { intros s a b Hs. split; [|split; reflexivity]. constructor; auto; [|now destruct s]. destruct (wf_new s) as [? ? ? ? ? Op]. constructor; auto. }
  assert (H0 : forall s, match s with Data _ _ => False | _ => True end -> closed (msg_new s) /\ m_body_headers (msg_new s) = no_arr /\ lenN (a_used (m_headers (msg_new s))) = 0).
  { intros s Hs. exact (H s 1 0 Hs). }
  unfold from_head. destruct (case_prefix (text "RTSP/") line).
  - unfold from_reply. destruct (case_prefix (text "RTSP/") line); [|intros [= <-]; now apply H0].
    destruct (version_of (dropN 5 line) (fun c => c =? 32) false) as [[[a b] [|c r]]|]; try (intros [= <-]; now apply H0).
    destruct (Atoi_Model.next (Atoi_Model.atoi_un r 10) =? 0); [intros [= <-]; now apply H0|].
    assert (F : forall ph m', match new_raw_reply (Atoi_Model.value (Atoi_Model.atoi_un r 10)) ph with inl m => inl (set_version m a b) | inr e => inr e end = inl m' ->
      closed m' /\ m_body_headers m' = no_arr /\ lenN (a_used (m_headers m')) = 0).
    { intros ph m'. unfold new_raw_reply. destruct (_ =? 2 ^ 32 - 1); [discriminate|]. intros [= <-]. now apply H. }
    destruct (dropN _ r) as [|x ph]; [apply F|].
    destruct x as [|x]; [intros [= <-]; now apply H0|].
    do 6 (destruct x as [x|x|]; try (intros [= <-]; now apply H0)); apply F.
  - intros [= <-]. unfold from_request.
    destruct (break_at 32 line) as [[|c cmd] [[|x r]|]]; try (now apply H0).
    destruct (break_at 32 r) as [[|c' url] [[|x' r']|]]; try (now apply H0).
    destruct (case_prefix (text "RTSP/") r'); [|now apply H0].
    destruct (version_of (dropN 5 r') (fun _ => false) true) as [[[a b] ?]|]; [now apply H|now apply H0].
Qed.

Lemma finish_line_safe d ck (w : W) : d_buflen d <= lenN (d_buf d) -> match d_m d with Some m => closed m /\ m_body_headers m = no_arr | None => True end -> few 60 d ->
  exists d' e, finish_line (d, ck, w) = Ok (d', ck, w, e) /\ d_buf d' = d_buf d /\ d_buflen d' = d_buflen d
    /\ (e = None -> exists m, d_m d' = Some m /\ closed m /\ m_body_headers m = no_arr /\ lenN (a_used (m_headers m)) <= 61).
Proof.
  intros Hb Hm Hf. unfold finish_line. unfold copy. destruct (N.leb_spec (d_buflen d) (lenN (d_buf d))); [|lia]. cbn [bind].
  destruct (d_m d) as [m|] eqn:Em.
  - destruct Hm as (C & Eb). unfold few in Hf. rewrite Em in Hf.
    destruct (append_header_safe d m (sanitize (takeN (d_buflen d) (d_buf d))) C Eb Hf) as (d' & m' & e & E & E1 & C1 & B1 & L1 & F1 & F2). rewrite E. cbn [bind fst snd].
    exists d', e. repeat split; auto. intros _. exists m'. auto.
  - destruct (from_head _) as [m|e] eqn:Eh.
    + apply from_head_closed in Eh as (C & B & L). eexists. exists None. split; [reflexivity|]. cbn [p_m d_buf d_buflen d_m]. split; [reflexivity|]. split; [reflexivity|]. intros _. exists m. rewrite L. split; [reflexivity|]. split; [exact C|]. split; [exact B|discriminate].
    + exists d, (Some e). repeat split; auto. discriminate.
Qed.
Lemma submit_safe d ck (w : W) : (forall m, d_m d = Some m -> closed m /\ lenN (a_used (m_headers m)) <= 61) ->
  exists ck' w' e, submit inc (d, ck, w) = Ok (p_m d None, ck', w', e).
Proof.
  intros H. unfold submit. destruct (d_m d) as [m|] eqn:Em.
  - destruct (H m eq_refl) as ([Wm D S I B] & L). unfold dispatch.
    destruct (seal_ok ck m) as (m' & _ & E); auto. { assert (E60 : 2 ^ 60 = 1152921504606846976) by reflexivity. lia. }
    rewrite E. cbn [bind]. destruct (inc w _ _) as [[w' ck'] e]. eauto.
  - exists ck, w, None. destruct d; cbn in *. now rewrite Em.
Qed.

Lemma pull_len d n : lenN (d_buf (pull d n)) <= lenN (d_buf d).
Proof. unfold pull. cbn. len. lia. Qed.
Ltac good := do 4 eexists; split; [reflexivity|intros _; split; [|try first [reflexivity|apply pull_len|cbn -[N.le]; apply pull_len]]].

Lemma feed_new_safe n d ck (w : W) c : fine' d -> lenN (d_buf d) <= n -> good_out n (feed_new (d, ck, w) c).
Proof.
  intros E L. unfold feed_new. destruct ((c =? 13) || (c =? 10) || (c =? 9) || (c =? 32)); [|destruct (c =? 36)]; do 4 eexists; (split; [reflexivity|intros _; split; [exact E|]]).
  - exact L.
  - etransitivity; [apply pull_len|exact L].
  - cbn [p_buf d_buf]. etransitivity; [apply pull_len|exact L].
Qed.
Lemma submit_good n d ck (w : W) : (forall m, d_m d = Some m -> closed m /\ lenN (a_used (m_headers m)) <= 61) -> lenN (d_buf d) <= n -> good_out n (submit inc (d, ck, w)).
Proof. intros H L. destruct (submit_safe d ck w H) as (ck' & w' & e & ->). do 4 eexists. split; [reflexivity|]. intros _. split; [exact I|exact L]. Qed.

Lemma feed_header_safe n d ck (w : W) c : fine' d -> few 60 d -> lenN (d_buf d) <= n -> d_buflen d <= lenN (d_buf d) -> good_out n (feed_header inc (d, ck, w) c).
Proof.
  intros F Fw L Lb. unfold feed_header.
  assert (G : forall s, d_buf s = d_buf d -> d_buflen s = d_buflen d -> d_m s = d_m d -> exists d' e, finish_line (s, ck, w) = Ok (d', ck, w, e) /\ lenN (d_buf d') <= n
     /\ (e = None -> exists m, d_m d' = Some m /\ closed m /\ m_body_headers m = no_arr /\ lenN (a_used (m_headers m)) <= 61)).
  { intros s E1 E2 E3. destruct (finish_line_safe s ck w) as (d' & e & E & B1 & B2 & H); [congruence|rewrite E3; exact F|red; rewrite E3; exact Fw|].
    exists d', e. split; [exact E|]. split; [congruence|exact H]. }
  destruct (c =? 13).
  { destruct ((d_last d =? 13) || (d_last d =? 10)); [|do 4 eexists; split; [reflexivity|intros _; split; [exact F|exact L]]].
    destruct (G (p_state d SHeaderNl)) as (d' & e & E & L' & H); auto. rewrite E. cbn [bind].
    destruct e as [e|]; [do 4 eexists; split; [reflexivity|discriminate]|]. destruct (H eq_refl) as (m & Em & C & Eb & L1).
    assert (L2 : lenN (d_buf (pull d' (d_buflen d' + 1))) <= n) by (etransitivity; [apply pull_len|exact L']).
    assert (M2 : d_m (pull d' (d_buflen d' + 1)) = Some m) by exact Em.
    destruct (d_remaining (pull d' (d_buflen d' + 1)) =? 0).
    - apply submit_good; [|exact L2]. rewrite M2. intros ? [= <-]. auto.
    - do 4 eexists. split; [reflexivity|]. intros _. split; [red; rewrite M2; auto|exact L2]. }
  destruct (c =? 10).
  { destruct (d_last d =? 10); [|do 4 eexists; split; [reflexivity|intros _; split; [exact F|exact L]]].
    destruct (G d) as (d' & e & E & L' & H); auto. rewrite E. cbn [bind].
    destruct e as [e|]; [do 4 eexists; split; [reflexivity|discriminate]|]. destruct (H eq_refl) as (m & Em & C & Eb & L1).
    assert (L2 : lenN (d_buf (pull d' (d_buflen d' + 1))) <= n) by (etransitivity; [apply pull_len|exact L']).
    assert (M2 : d_m (pull d' (d_buflen d' + 1)) = Some m) by exact Em.
    destruct (d_remaining (pull d' (d_buflen d' + 1)) =? 0).
    - apply submit_good; [|exact L2]. cbn [p_state d_m]. rewrite M2. intros ? [= <-]. auto.
    - do 4 eexists. split; [reflexivity|]. intros _. split; [red; cbn [p_state d_m]; rewrite M2; auto|exact L2]. }
  destruct ((c =? 9) || (c =? 32)); [do 4 eexists; split; [reflexivity|intros _; split; [exact F|exact L]]|].
  destruct ((d_last d =? 13) || (d_last d =? 10)).
  - destruct (G d) as (d' & e & E & L' & H); auto. rewrite E. cbn [bind].
    destruct e as [e|]; cbn [bind]; [do 4 eexists; split; [reflexivity|discriminate]|]. destruct (H eq_refl) as (m & Em & C & Eb & L1).
    assert (L2 : lenN (d_buf (pull d' (d_buflen d'))) <= n) by (etransitivity; [apply pull_len|exact L']).
    assert (M2 : d_m (pull d' (d_buflen d')) = Some m) by exact Em.
    do 4 eexists. split; [reflexivity|]. intros _. destruct (c =? 34); (split; [red; cbn [p_quoted p_state count d_m]|exact L2]);
      match goal with |- match d_m ?x with _ => _ end => change (d_m x) with (d_m (pull d' (d_buflen d'))) | _ => idtac end; rewrite ?M2; auto.
  - cbn [bind]. do 4 eexists. split; [reflexivity|]. intros _. destruct (c =? 34); (split; [exact F|exact L]).
Qed.
Lemma feed_quote_safe n d ck (w : W) c : fine' d -> lenN (d_buf d) <= n -> good_out n (feed_quote (d, ck, w) c).
Proof.
  intros F L. unfold feed_quote. destruct ((d_last d =? 92) && negb (d_quoted d)); do 4 eexists; (split; [reflexivity|intros _]); [split; [exact F|exact L]|].
  destruct (c =? 34); (split; [exact F|exact L]).
Qed.
Lemma feed_body_safe n d ck (w : W) c : fine' d -> few 60 d -> lenN (d_buf d) <= n -> n < 2 ^ 60 -> d_buflen d < lenN (d_buf d) -> good_out n (feed_body inc (d, ck, w) c).
Proof.
  intros F Fw L Ln Lb. unfold feed_body. destruct (d_remaining d =? 0); [apply feed_new_safe; auto|].
  cbv zeta. set (d1 := p_remaining (count d) (d_remaining d - 1)).
  assert (F1 : fine' d1) by exact F. assert (L1 : lenN (d_buf d1) <= n) by exact L.
  assert (Lb1 : d_buflen d1 <= lenN (d_buf d1)) by (cbn; lia). assert (Fw1 : few 60 d1) by exact Fw. clearbody d1.
  destruct (d_remaining d1 =? 0); [|do 4 eexists; split; [reflexivity|intros _; auto]].
  assert (P : forall d2 ck2 w2 e, d_m d2 = None -> lenN (d_buf d2) <= n -> good_out n (do r <- Ok (d2, ck2, w2, e); let '((d, ck, w), e) := r in Ok (pull (p_state d SNew) (d_buflen d), ck, w, e))).
  { intros d2 ck2 w2 e M2 L2. cbn [bind]. do 4 eexists. split; [reflexivity|]. intros _. split; [|etransitivity; [apply pull_len|exact L2]].
    red. change (d_m (pull (p_state d2 SNew) (d_buflen d2))) with (d_m d2). now rewrite M2. }
  red in F1, Fw1. destruct (d_m d1) as [m|] eqn:Em; [|now apply P].
  destruct F1 as (C & Eb). unfold copy. destruct (N.leb_spec (d_buflen d1) (lenN (d_buf d1))); [|lia]. cbn [bind].
  assert (E60 : 2 ^ 60 = 1152921504606846976) by reflexivity. assert (E62 : 2 ^ 62 = 4611686018427387904) by reflexivity.
  destruct (append_body_safe m (takeN (d_buflen d1) (d_buf d1)) 0 C) as (m' & E & C' & Lh); [lia| |].
  { rewrite Eb. cbn [a_used no_arr]. rewrite lenN_nil. len. lia. }
  rewrite E. cbn [bind].
  destruct (submit_safe (p_m d1 (Some m')) ck w) as (ck' & w' & e & E').
  { cbn [p_m d_m]. intros ? [= <-]. split; [exact C'|]. rewrite Lh. lia. }
  rewrite E'. apply P; [reflexivity|exact L1].
Qed.
Lemma feed_data_body_safe n d ck (w : W) c : fine' d -> lenN (d_buf d) <= n -> d_buflen d < lenN (d_buf d) -> good_out n (feed_data_body inc (d, ck, w) c).
Proof.
  intros F L Lb. unfold feed_data_body. cbv zeta.
  assert (F1 : fine' (count d)) by exact F. assert (L1 : lenN (d_buf (count d)) <= n) by exact L.
  assert (Lb1 : d_buflen (count d) <= lenN (d_buf (count d))) by (cbn; lia). set (d1 := count d) in *. clearbody d1.
  destruct (N.leb_spec (d_size d1) (d_buflen d1)); [|do 4 eexists; split; [reflexivity|intros _; auto]].
  unfold copy. destruct (N.leb_spec (d_size d1) (lenN (d_buf d1))); [|lia]. cbn [bind].
  assert (S : exists ck' w' e, submit_data inc (d1, ck, w) (takeN (d_size d1) (d_buf d1)) = Ok (d1, ck', w', e)).
  { generalize (takeN (d_size d1) (d_buf d1)). intros p. unfold submit_data, new_data. destruct (d_channel d1 =? 2 ^ 32 - 1); [eauto|].
    unfold dispatch. rewrite seal_eq by reflexivity. cbn [msg_new m_start bind]. destruct (inc _ _ _) as [[w' ck'] e]. eauto. }
  destruct S as (ck' & w' & e & ->). cbn [bind]. do 4 eexists. split; [reflexivity|]. intros _. split; [exact F1|etransitivity; [apply pull_len|exact L1]].
Qed.
Lemma feed_char_safe n d ck (w : W) c : fine' d -> few 60 d -> lenN (d_buf d) <= n -> n < 2 ^ 60 -> lenN (d_buf d) = d_buflen d + 1 -> good_out n (feed_char inc (d, ck, w) c).
Proof.
  intros F Fw L Ln Lb. unfold feed_char. cbn [fst]. destruct (d_state d).
  - now apply feed_new_safe.
  - apply feed_header_safe; auto. lia.
  - now apply feed_quote_safe.
  - unfold feed_header_nl. destruct (c =? 10).
    + do 4 eexists. split; [reflexivity|]. intros _. split; [exact F|etransitivity; [apply pull_len|exact L]].
    + apply feed_body_safe; auto.
      * etransitivity; [apply pull_len|exact L].
      * unfold pull. cbn. len. lia.
  - apply feed_body_safe; auto. lia.
  - unfold feed_data_head. cbv zeta. change (d_buflen (count d)) with (d_buflen d + 1).
    destruct (N.leb_spec 3 (d_buflen d + 1)); [|do 4 eexists; split; [reflexivity|intros _; auto]].
    unfold copy. change (d_buf (count d)) with (d_buf d). destruct (N.leb_spec 3 (lenN (d_buf d))); [|lia]. cbn [bind].
    assert (T : exists x y z, takeN 3 (d_buf d) = [x; y; z]).
    { destruct (d_buf d) as [|x [|y [|z r]]]; rewrite ?lenN_cons, ?lenN_nil in *; try lia. exists x, y, z. reflexivity. }
    destruct T as (x & y & z & ->). do 4 eexists. split; [reflexivity|]. intros _. split; [exact F|etransitivity; [apply pull_len|exact L]].
  - apply feed_data_body_safe; auto. lia.
Qed.

Lemma feed_seq_safe l : forall d ck (w : W), fine' d -> lenN (d_buf d) = d_buflen d -> lenN (d_buf d) + lenN l < 2 ^ 60 ->
  feed_seq inc (d, ck, w) l = UB ->
  exists l1 c l2 d1 ck1 w1 m, l = l1 ++ c :: l2 /\ feed_seq inc (d, ck, w) l1 = Ok (d1, ck1, w1, None) /\ d_m d1 = Some m /\ 60 < lenN (a_used (m_headers m)).
Proof.
  induction l as [|c l IH]; intros d ck w F Lb Ln; cbn [feed_seq]; [discriminate|]. rewrite lenN_cons in Ln.
  assert (Q : few 60 d \/ exists m, d_m d = Some m /\ 60 < lenN (a_used (m_headers m))).
  { unfold few. destruct (d_m d) as [m|]; [|now left]. destruct (N.le_gt_cases (lenN (a_used (m_headers m))) 60); eauto. }
  destruct Q as [Fw|(m & Em & L)].
  2: { intros _. exists [], c, l, d, ck, w, m. auto. }
  destruct (feed_char_safe (lenN (d_buf d) + 1) (push d c) ck w c) as (d' & ck' & w' & e & E & H); auto.
  { unfold push. cbn [p_buf d_buf]. rewrite lenN_app, lenN_cons, lenN_nil. lia. }
  { lia. }
  { unfold push. cbn [p_buf d_buf d_buflen]. rewrite lenN_app, lenN_cons, lenN_nil. lia. }
  destruct (feed_char_frame inc [] (push d c) ck w c) as (_ & Lv). { red. unfold push. cbn [p_buf d_buf d_buflen]. rewrite lenN_app, lenN_cons, lenN_nil. lia. }
  rewrite E in *. cbn [bind]. destruct e as [e|]; [discriminate|]. destruct (H eq_refl) as (F' & L').
  intros U. apply IH in U as (l1 & c1 & l2 & d1 & ck1 & w1 & m & -> & E1 & E2 & E3); [|exact F'|exact Lv|cbn [p_last d_buf]; lia].
  exists (c :: l1), c1, l2, d1, ck1, w1, m. split; [reflexivity|]. split; [|auto]. cbn [feed_seq]. rewrite E. exact E1.
Qed.

(** Undefined behaviour on a stream needs a message with more than 60 headers. *)
Lemma stream_safe ck (w : W) ls : Forall (fun l => l <> []) ls -> lenN (concat ls) < 2 ^ 60 ->
  parse_chunks inc (parser_init, ck, w) ls = UB ->
  exists seen rest d ck' w' m, concat ls = seen ++ rest /\ parse_data inc (parser_init, ck, w) seen = Ok (d, ck', w', None)
    /\ d_m d = Some m /\ 60 < lenN (a_used (m_headers m)).
Proof.
  intros Hn L U. destruct ls as [|l ls]; [discriminate|].
  pose proof (chunk_independent inc parser_init ck w (l :: ls) ltac:(discriminate) Hn) as S. rewrite U in S. destruct (parse_data inc (parser_init, ck, w) (concat (l :: ls))) as [[[[? ?] ?] [?|]]|] eqn:E; try contradiction.
  assert (N0 : concat (l :: ls) <> []). { inversion Hn; subst. cbn [concat]. destruct l; [congruence|discriminate]. }
  pose proof (parse_data_seq inc parser_init ck w _ N0) as S1. rewrite E in S1. destruct (feed_seq inc (rest parser_init, ck, w) (concat (l :: ls))) as [[[[? ?] ?] [?|]]|] eqn:E1; try contradiction.
  apply feed_seq_safe in E1 as (l1 & c & l2 & d1 & ck1 & w1 & m & E2 & E3 & E4 & E5); [|exact I|reflexivity|change (d_buf (rest parser_init)) with (@nil N); rewrite lenN_nil; lia].
  assert (N1 : l1 <> []). { intros ->. cbn in E3. injection E3 as <- _ _. discriminate. }
  pose proof (parse_data_seq inc parser_init ck w _ N1) as S2. rewrite E3 in S2.
  destruct (parse_data inc (parser_init, ck, w) l1) as [[[[? ?] ?] [?|]]|] eqn:E6; cbn in S2; try contradiction. injection S2 as -> -> ->.
  exists l1, (c :: l2), d1, ck1, w1, m. auto.
Qed.
End F.

(** ** Messages from a buffer *)
Lemma cut_line_breaks d v r : cut_line d = (v, r) -> breaks d = breaks r /\ match r with [] => True | c :: _ => (c =? 13) || (c =? 10) = true end.
Proof.
  revert v. induction d as [|c d IH]; intros v; cbn [cut_line]; [intros [= <- <-]; auto|].
  destruct ((c =? 13) || (c =? 10)) eqn:E; [intros [= <- <-]; auto|]. destruct (cut_line d) as [a t] eqn:Ec. intros [= <- <-].
  destruct (IH _ eq_refl) as (B & H). split; [|exact H]. unfold breaks in *. cbn [filter]. now rewrite E.
Qed.
Lemma breaks_tail c t : (c =? 13) || (c =? 10) = true -> breaks (c :: t) = 1 + breaks t.
Proof. intros E. unfold breaks. cbn [filter]. rewrite E. apply lenN_cons. Qed.
Lemma breaks_cons c t : breaks t <= breaks (c :: t).
Proof. unfold breaks. cbn [filter]. destruct ((c =? 13) || (c =? 10)); rewrite ?lenN_cons; lia. Qed.

Lemma raw_loop_safe fuel after : forall m d, lenN d < 2 ^ 61 ->
  match m with
  | Some m => closed m /\ m_body_headers m = no_arr /\ lenN (a_used (m_headers m)) <= 61 /\ (d = [] \/ lenN (a_used (m_headers m)) + breaks d <= 60)
  | None => breaks d <= 60 end ->
  exists m' e, raw_loop fuel m d (Some after) = Ok (m', e) /\ (e = None -> match m' with Some m' => closed m' /\ lenN (a_used (m_headers m')) <= 61 | None => True end).
Proof.
  assert (E61 : 2 ^ 61 = 2305843009213693952) by reflexivity. assert (E62 : 2 ^ 62 = 4611686018427387904) by reflexivity.
  induction fuel as [|fuel IH]; intros m d Ld P; cbn [raw_loop].
  { exists m, None. split; [reflexivity|]. intros _. destruct m; [destruct P as (? & _ & ? & _); auto|exact I]. }
  destruct d as [|z zs] eqn:Ed. { exists m, None. split; [reflexivity|]. intros _. destruct m; [destruct P as (? & _ & ? & _); auto|exact I]. }
  rewrite <- Ed in *. assert (Hd : d <> []) by congruence. clear z zs Ed.
  destruct (cut_line d) as [v r] eqn:Ec. pose proof (cut_line_len d) as Lc. rewrite Ec in Lc. cbn [snd] in Lc.
  destruct (cut_line_breaks _ _ _ Ec) as (Bd & Br).
  set (rest := match r with | 13 :: 10 :: t => t | _ :: t => t | [] => [] end).
  assert (R : (rest = [] \/ breaks rest + 1 <= breaks d) /\ lenN rest <= lenN d).
  { assert (G : forall c t, r = c :: t -> breaks t + 1 = breaks d). { intros c t ->. rewrite Bd, breaks_tail by exact Br. lia. }
    clear Bd Br. destruct r as [|c t]; [split; [now left|exact Lc]|]. specialize (G c t eq_refl).
    assert (Q : rest = t \/ exists c', t = c' :: rest).
    { subst rest. destruct c as [|p]; [auto|]. do 4 (destruct p as [p|p|]; auto). destruct t as [|c' t]; [auto|]. destruct c' as [|p]; [auto|]. do 4 (destruct p as [p|p|]; auto). right. eauto. }
    rewrite lenN_cons in Lc. destruct Q as [->|(c' & Et)]; [split; [right|]; lia|]. rewrite Et in *. pose proof (breaks_cons c' rest). rewrite lenN_cons in Lc. split; [right|]; lia. }
  destruct R as (Rb & Rl). clearbody rest.
  destruct v as [|c v].
  - assert (Q : exists m1, match m with Some m => inl m | None => from_head [] end = inl m1 /\ closed m1 /\ m_body_headers m1 = no_arr /\ lenN (a_used (m_headers m1)) <= 61).
    { destruct m as [m|]. { exists m. destruct P as (? & ? & ? & ?). auto. }
      eexists. split; [reflexivity|]. destruct (from_head_closed [] _ eq_refl) as (C & B & L). split; [exact C|]. split; [exact B|]. rewrite L. lia. }
    destruct Q as (m1 & -> & C & B & L).
    destruct (append_body_safe m1 rest after C) as (m2 & E & C2 & L2); [lia|rewrite B; cbn [a_used no_arr]; rewrite lenN_nil; lia|].
    rewrite E. cbn [bind fst snd]. do 2 eexists. split; [reflexivity|]. intros _. cbn beta iota. rewrite L2. auto.
  - destruct m as [m|].
    + destruct P as (C & B & L & [P|P]); [congruence|]. assert (C0 := C). destruct C as [Wm D S I Bo].
      destruct (append_header_line_ok m (sanitize (c :: v))) as (m1 & p & E & A & I1 & W1); auto.
      { red. rewrite Bo. red. cbn [array]. lia. }
      rewrite E. cbn [bind]. destruct A as [_ U O B1 _ K _ _]. rewrite Bo in *. cbn [array negb] in *. destruct (kept_data _ _ K) as (D1 & S1 & _).
      apply IH; [lia|]. split; [constructor; congruence|]. split; [congruence|]. rewrite U, lenN_app, lenN_cons, lenN_nil. split; [lia|]. destruct Rb as [Rb|Rb]; [now left|right; lia].
    + destruct (from_head (sanitize (c :: v))) as [m1|e] eqn:Eh; [|do 2 eexists; split; [reflexivity|discriminate]].
      apply from_head_closed in Eh as (C & B & L). apply IH; [lia|]. rewrite L. split; [exact C|]. split; [exact B|]. split; [lia|]. destruct Rb as [Rb|Rb]; [now left|right; lia].
Qed.
Lemma from_raw_safe ck d after : lenN d < 2 ^ 61 -> breaks d <= 60 -> new_from_raw ck d (Some after) <> UB.
Proof.
  intros L B. unfold new_from_raw. destruct (raw_loop_safe (Datatypes.length d) after None d L B) as (m & e & E & H). rewrite E. cbn [bind].
  destruct e as [e|]; [destruct m; discriminate|]. destruct m as [m|]; [|discriminate]. destruct (H eq_refl) as ([Wm D S I Bo] & Lh).
  destruct (seal_ok ck m) as (m' & _ & Es); auto. { assert (E60 : 2 ^ 60 = 1152921504606846976) by reflexivity. lia. }
  rewrite Es. discriminate.
Qed.
