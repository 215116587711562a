(** The parser on well-formed messages and data packets. *)
From Coq Require Import String.
From Verif Require Import Base Atoi_Model Qstr_Model Qstr_Proofs Text Text_Proofs RtspMsg_Model RtspMsg_Spec RtspMsg_Proofs RtspSeal_Proofs
  RtspBuilt_Proofs RtspText_Proofs RtspSend_Proofs RtspParser_Model RtspParser_Spec RtspParser_Frame RtspWire_Spec.

Notation feed := (feed_seq record).

Ltac fields := unfold push, count, pull, p_m, p_buf, p_state, p_last, p_remaining, p_data, p_quoted;
  cbn [fst d_m d_buf d_buflen d_state d_last d_remaining d_size d_channel d_quoted].

(** ** Feeding text *)
Section Text.
Context (om : option message) (rem sz ch ck : N) (w : list message).
Definition hp b x q := mkParser om b (lenN b) SHeader x rem sz ch q.
Definition qp b x q := mkParser om b (lenN b) SQuote x rem sz ch q.
Lemma lenN_snoc (b : list byte) c : lenN b + 1 = lenN (b ++ [c]).
Proof. rewrite lenN_app. reflexivity. Qed.

Lemma feed_plain b x q c t : 32 <= c -> c <> 34 -> x <> 13 -> x <> 10 ->
  feed (hp b x q, ck, w) (c :: t) = feed (hp (b ++ [c]) c q, ck, w) t.
Proof.
  intros H1 H2 X1 X2. cbn [feed_seq]. unfold feed_char, hp. fields.
  unfold feed_header. cbn [d_last].
  destruct (N.eqb_spec x 13); [lia|]. destruct (N.eqb_spec x 10); [lia|]. cbn [orb].
  destruct (N.eqb_spec c 13); [lia|]. destruct (N.eqb_spec c 10); [lia|]. destruct (N.eqb_spec c 9); [lia|]. cbn [orb].
  destruct (N.eqb_spec c 32); cbn [bind]; [|destruct (N.eqb_spec c 34); [lia|]];
    fields; rewrite (lenN_snoc b c); reflexivity.
Qed.
Lemma feed_open b x q t : x <> 13 -> x <> 10 -> feed (hp b x q, ck, w) (34 :: t) = feed (qp (b ++ [34]) 34 false, ck, w) t.
Proof.
  intros X1 X2. cbn [feed_seq]. unfold feed_char, hp. fields.
  unfold feed_header. cbn [d_last].
  destruct (N.eqb_spec x 13); [lia|]. destruct (N.eqb_spec x 10); [lia|]. cbn [orb].
  change (34 =? 13) with false. change (34 =? 10) with false. change (34 =? 9) with false. change (34 =? 32) with false. cbn [orb bind].
  change (34 =? 34) with true. cbn iota.
  fields.
  rewrite (lenN_snoc b 34). reflexivity.
Qed.
Lemma feed_in b x q c t : x <> 92 \/ q = true -> c <> 34 -> feed (qp b x q, ck, w) (c :: t) = feed (qp (b ++ [c]) c false, ck, w) t.
Proof.
  intros Hx Hc. cbn [feed_seq]. unfold feed_char, qp. fields.
  unfold feed_quote. cbn [d_last d_quoted].
  replace ((x =? 92) && negb q) with false by (destruct Hx as [Hx| ->]; [destruct (N.eqb_spec x 92); [congruence|reflexivity]|now destruct (x =? 92)]).
  destruct (N.eqb_spec c 34); [lia|]. cbn [bind].
  fields.
  rewrite (lenN_snoc b c). reflexivity.
Qed.
Lemma feed_escaped b c t : feed (qp b 92 false, ck, w) (c :: t) = feed (qp (b ++ [c]) c true, ck, w) t.
Proof.
  cbn [feed_seq]. unfold feed_char, qp. fields.
  unfold feed_quote. cbn [d_last d_quoted]. change (92 =? 92) with true. cbn [negb andb bind].
  fields.
  rewrite (lenN_snoc b c). reflexivity.
Qed.
Lemma feed_close b x q t : x <> 92 \/ q = true -> feed (qp b x q, ck, w) (34 :: t) = feed (hp (b ++ [34]) 34 false, ck, w) t.
Proof.
  intros Hx. cbn [feed_seq]. unfold feed_char, qp. fields.
  unfold feed_quote. cbn [d_last d_quoted].
  replace ((x =? 92) && negb q) with false by (destruct Hx as [Hx| ->]; [destruct (N.eqb_spec x 92); [congruence|reflexivity]|now destruct (x =? 92)]).
  change (34 =? 34) with true. cbn [bind].
  fields.
  rewrite (lenN_snoc b 34). reflexivity.
Qed.
Lemma feed_body_of_quote s : plain s -> forall b x q t, x <> 92 \/ q = true ->
  exists x' q', (x' <> 92 \/ q' = true) /\ feed (qp b x q, ck, w) (encode_body s ++ t) = feed (qp (b ++ encode_body s) x' q', ck, w) t.
Proof.
  induction 1 as [|c s (H1 & H2) F IH]; intros b x q t Hx; cbn [encode_body app].
  - exists x, q. rewrite app_nil_r. auto.
  - destruct (N.eqb_spec c 92) as [->|N92]; cbn [orb].
    + cbn [app]. rewrite feed_in by (auto; lia). rewrite feed_escaped.
      destruct (IH ((b ++ [92]) ++ [92]) 92 true t) as (x' & q' & H & E); [auto|]. exists x', q'. split; [assumption|]. rewrite E, <- !app_assoc. reflexivity.
    + destruct (N.eqb_spec c 34); [lia|]. cbn [app]. rewrite feed_in by auto.
      destruct (IH (b ++ [c]) c false t) as (x' & q' & H & E); [auto|]. exists x', q'. split; [assumption|]. rewrite E, <- !app_assoc. reflexivity.
Qed.
Definition off (x : byte) : Prop := x <> 13 /\ x <> 10.
Lemma feed_wtext s : wtext s -> forall b x q t, off x ->
  exists x' q', off x' /\ feed (hp b x q, ck, w) (s ++ t) = feed (hp (b ++ s) x' q', ck, w) t.
Proof.
  induction 1 as [|c s H1 H2 H IH|s0 s Hq H IH]; intros b x q t (X1 & X2); cbn [app].
  - exists x, q. rewrite app_nil_r. unfold off. auto.
  - rewrite feed_plain by (auto; lia). destruct (IH (b ++ [c]) c q t) as (x' & q' & O & E); [split; lia|].
    exists x', q'. split; [assumption|]. rewrite E, <- app_assoc. reflexivity.
  - rewrite <- app_assoc. cbn [app]. rewrite feed_open by assumption.
    destruct (feed_body_of_quote s0 Hq (b ++ [34]) 34 false (34 :: s ++ t)) as (x1 & q1 & O1 & E1); [left; lia|]. rewrite E1.
    rewrite feed_close by assumption. destruct (IH (((b ++ [34]) ++ encode_body s0) ++ [34]) 34 false t) as (x' & q' & O & E); [split; lia|].
    exists x', q'. split; [assumption|]. rewrite E. rewrite <- !app_assoc. reflexivity.
Qed.
Lemma feed_neat l : neat l -> forall b x q t, off x ->
  exists x' q', off x' /\ feed (hp b x q, ck, w) (l ++ t) = feed (hp (b ++ l) x' q', ck, w) t.
Proof.
  induction 1 as [s N H|s r N H Hr IH]; intros b x q t O.
  - now apply feed_wtext.
  - rewrite <- app_assoc. cbn [app]. destruct (feed_wtext s H b x q (32 :: r ++ t) O) as (x1 & q1 & (O1 & O2) & E1). rewrite E1.
    rewrite feed_plain by (auto; lia). destruct (IH ((b ++ s) ++ [32]) 32 q1 t) as (x' & q' & O' & E); [split; lia|].
    exists x', q'. split; [assumption|]. rewrite E, <- !app_assoc. reflexivity.
Qed.
Lemma feed_cr b x q t : off x -> feed (hp b x q, ck, w) (13 :: t) = feed (hp (b ++ [13]) 13 q, ck, w) t.
Proof.
  intros (X1 & X2). cbn [feed_seq]. unfold feed_char, hp. fields. unfold feed_header. cbn [d_last].
  destruct (N.eqb_spec x 13); [lia|]. destruct (N.eqb_spec x 10); [lia|]. cbn [orb]. change (13 =? 13) with true. cbn iota. cbn [bind].
  fields. rewrite (lenN_snoc b 13). reflexivity.
Qed.
Lemma feed_lf b q t : feed (hp b 13 q, ck, w) (10 :: t) = feed (hp (b ++ [10]) 10 q, ck, w) t.
Proof.
  cbn [feed_seq]. unfold feed_char, hp. fields. unfold feed_header. cbn [d_last].
  change (10 =? 13) with false. change (10 =? 10) with true. change (13 =? 10) with false. cbn iota. cbn [bind].
  fields. rewrite (lenN_snoc b 10). reflexivity.
Qed.
Lemma feed_crlf b x q t : off x -> feed (hp b x q, ck, w) (13 :: 10 :: t) = feed (hp (b ++ [13; 10]) 10 q, ck, w) t.
Proof. intros O. rewrite feed_cr, feed_lf, <- app_assoc by assumption. reflexivity. Qed.
End Text.

(** ** Header lines *)
(** The message assembled so far. *)
Record taken (f : first_line) (fs : list field) (c : N) (m : message) : Prop := {
  tk_closed : closed m; tk_start : m_start m = start_of f; tk_major : m_major m = 1; tk_minor : m_minor m = 0;
  tk_cookie : m_cookie m = c; tk_headers : a_used (m_headers m) = map header_of fs;
  tk_lines : m_body_headers m = no_arr; tk_body : m_body m = None }.
(** What a header does to the expected body length and the cookie. *)
Inductive effect : field -> N -> N -> N -> N -> Prop :=
| EffOther x r c : case_eq (fst x) (text "Content-Length") = false -> case_eq (fst x) (text "CSeq") = false -> effect x r c r c
| EffLength n r c : n < 2 ^ 64 -> effect (text "Content-Length", [dec n]) r c n c
| EffSeq n r c : n < 2 ^ 63 -> effect (text "CSeq", [dec n]) r c r (with_flag n).
Inductive effects : list field -> N -> N -> N -> N -> Prop :=
| EffsNil r c : effects [] r c r c
| EffsCons x xs r c r1 c1 r2 c2 : effect x r c r1 c1 -> effects xs r1 c1 r2 c2 -> effects (x :: xs) r c r2 c2.

Lemma pointed_below name p l moves i : pointed name p l moves -> lenN l <= i -> forall b v, ptr_eqb (mkPtr b v i) p = false.
Proof.
  intros P L b v. destruct p as [p|]; [|reflexivity]. destruct P as (_ & _ & x & h & y & E & Ei & _). cbn [ptr_eqb p_body p_moves p_idx].
  replace (i =? p_idx p) with false; [apply andb_false_r|]. symmetry. apply N.eqb_neq. rewrite E in L. revert L. len. lia.
Qed.
Lemma ptr_eqb_refl p : ptr_eqb p (Some p) = true.
Proof. cbn. rewrite !N.eqb_refl, eqb_reflx. reflexivity. Qed.
Lemma whole_dec n : n < 2 ^ 64 -> whole_number (dec n) = (inl n, true).
Proof.
  intros H. unfold whole_number. destruct (atoi_zn_dec n H) as (E1 & E2 & E3). rewrite E1, E2, E3, N.eqb_refl. reflexivity.
Qed.
Lemma parser_set d m n : p_remaining (p_m d m) n = mkParser m (d_buf d) (d_buflen d) (d_state d) (d_last d) n (d_size d) (d_channel d) (d_quoted d).
Proof. reflexivity. Qed.
Lemma p_m_same d m : p_m d m = p_remaining (p_m d m) (d_remaining d).
Proof. reflexivity. Qed.

Lemma append_parsed d f fs c m x r' c' : taken f fs c m -> lenN fs <= 64 -> good_field x -> effect x (d_remaining d) c r' c' ->
  exists m', parser_append_header d m (line_of x) = Ok (p_remaining (p_m d (Some m')) r', None) /\ taken f (fs ++ [x]) c' m'.
Proof.
  intros [[Wm D S I B] T1 T2 T3 T4 T5 T6 T7] L G Ef. unfold parser_append_header.
  destruct (append_header_line_ok m (line_of x)) as (m1 & p & E & A & I1 & W1); auto.
  { red. rewrite B. red. cbn [array]. rewrite T5, lenN_map, p62. lia. }
  rewrite E. cbn [bind]. rewrite (added_deref _ _ _ _ A). cbn [bind]. rewrite (line_header_field x G) in *.
  destruct A as [Ap Au Ao Ab At Ak (Q1 & Q2 & Q3) Aw]. rewrite B in *. cbn [negb andb array] in *.
  destruct (kept_data _ _ Ak) as (D1 & S1 & _). destruct Ak as (K1 & K2 & K3 & K4 & K5 & K6 & K7 & K8).
  assert (Hk : h_key (header_of x) = fst x) by reflexivity. rewrite Hk in *.
  assert (Tk : taken f (fs ++ [x]) c m1).
  { constructor; try congruence; [constructor; congruence|]. rewrite Au, T5, map_app. reflexivity. }
  assert (Pc : ptr_eqb p (m_clen m1) = case_eq (fst x) (text "Content-Length")).
  { rewrite Q1. destruct (case_eq (fst x) (text "Content-Length")); [apply ptr_eqb_refl|]. rewrite Ap. eapply pointed_below; [apply (wf_clen m Wm)|apply N.le_refl]. }
  assert (Ps : ptr_eqb p (m_cseq m1) = case_eq (fst x) (text "CSeq")).
  { rewrite Q3. destruct (case_eq (fst x) (text "CSeq")); [apply ptr_eqb_refl|]. rewrite Ap. eapply pointed_below; [apply (wf_cseq m Wm)|apply N.le_refl]. }
  rewrite Pc, Ps. remember (d_remaining d) as r0 eqn:Er. destruct Ef as [x r c E1 E2|n r c Hn|n r c Hn].
  - rewrite E1, E2. exists m1. rewrite Er. auto.
  - change (case_eq (fst (text "Content-Length", [dec n])) (text "Content-Length")) with true. cbn iota.
    cbn [header_of h_tokens snd]. rewrite whole_dec by assumption. exists m1. auto.
  - change (case_eq (fst (text "CSeq", [dec n])) (text "Content-Length")) with false. change (case_eq (fst (text "CSeq", [dec n])) (text "CSeq")) with true. cbn iota.
    cbn [header_of h_tokens snd]. assert (E63 : 2 ^ 63 = 9223372036854775808) by reflexivity. assert (E64 : 2 ^ 64 = 18446744073709551616) by reflexivity.
    rewrite whole_dec by lia. replace (has_flag n) with false by (unfold has_flag, remote_flag; symmetry; apply N.leb_gt; assumption).
    eexists. rewrite Er. split; [reflexivity|]. destruct Tk as [C1 U1 U2 U3 U4 U5 U6 U7]. constructor; auto. apply with_cookie_closed, C1.
Qed.

(** [L] is the last line in the buffer; taking it in gives [m] and the body length [r]. *)
Definition pending (om : option message) (L : list byte) (rem : N) (m : message) (r : N) : Prop :=
  neat L /\ forall d ck (w : list message) tail, d_m d = om -> d_remaining d = rem -> d_buf d = (L ++ [13; 10]) ++ tail -> d_buflen d = lenN (L ++ [13; 10]) ->
    finish_line (d, ck, w) = Ok (p_remaining (p_m d (Some m)) r, ck, w, None).
Lemma copy_front d (L t : list byte) : d_buf d = L ++ t -> copy d (lenN L) = Ok L.
Proof.
  intros E. unfold copy. rewrite E. len. destruct (N.leb_spec (lenN L) (lenN L + lenN t)); [|lia].
  rewrite takeN_app, takeN_all, N.sub_diag, takeN_0, app_nil_r by lia. reflexivity.
Qed.
Lemma pending_first f : good_first f -> pending None (line_of_status f) 0 (msg_new (start_of f)) 0.
Proof.
  intros G. pose proof (status_neat f G) as N. split; [assumption|]. intros d ck w tail E1 E2 E3 E4.
  unfold finish_line. rewrite E4, (copy_front d _ tail E3). cbn [bind]. rewrite sanitize_crlf by assumption. rewrite E1, from_head_status by assumption.
  rewrite p_m_same, E2. reflexivity.
Qed.
Lemma append_message d d0 m l : match parser_append_header d m l with Ok (d, _) => d_m d | UB => None end
  = match parser_append_header d0 m l with Ok (d, _) => d_m d | UB => None end.
Proof.
  unfold parser_append_header. destruct (append_header_line m l) as [[a [b|b]]|]; cbn [bind]; try reflexivity.
  destruct (deref a b) as [h|]; cbn [bind]; [|reflexivity].
  destruct (ptr_eqb b (m_clen a)). { destruct (h_tokens h) as [|t ?]; [reflexivity|]. destruct (whole_number t) as [[?|?] []]; reflexivity. }
  destruct (ptr_eqb b (m_cseq a)); [|reflexivity].
  destruct (h_tokens h) as [|t ?]; [reflexivity|]. destruct (whole_number t) as [[?|?] []]; reflexivity.
Qed.
Lemma pending_field f fs c m x r r' c' : taken f fs c m -> lenN fs <= 64 -> good_field x -> effect x r c r' c' ->
  exists m', pending (Some m) (line_of x) r m' r' /\ taken f (fs ++ [x]) c' m'.
Proof.
  intros T L G Ef. set (d0 := mkParser None [] 0 SNew 0 r 0 0 false).
  destruct (append_parsed d0 f fs c m x r' c' T L G Ef) as (m' & E & T'). exists m'. split; [|assumption].
  split; [now apply line_of_neat|]. intros d ck w tail E1 E2 E3 E4.
  unfold finish_line. rewrite E4, (copy_front d _ tail E3). cbn [bind]. rewrite sanitize_crlf by (now apply line_of_neat). rewrite E1.
  destruct (append_parsed d f fs c m x r' c' T L G) as (m2 & Ed & _); [now rewrite E2|].
  assert (Em : Some m2 = Some m').
  { pose proof (append_message d d0 m (line_of x)) as M. rewrite E, Ed in M. exact M. }
  injection Em as <-. rewrite Ed. reflexivity.
Qed.

Lemma feed_tail om rem sz ch ck w c l q t : neat (c :: l) -> c <> 34 ->
  exists x' q', off x' /\ feed (hp om rem sz ch [c] c q, ck, w) (l ++ t) = feed (hp om rem sz ch (c :: l) x' q', ck, w) t.
Proof.
  intros N H34. change (c :: l) with ([c] ++ l). inversion N as [s Hn Hw Es|s r0 Hn Hw Hr Es].
  - subst s. inversion Hw as [|? ? ? ? Hw'|]; subst; [|congruence]. apply feed_wtext; [assumption|split; lia].
  - destruct s as [|y s]; [congruence|]. injection Es as -> <-. inversion Hw as [|? ? ? ? Hw'|]; subst; [|congruence].
    destruct s as [|z s].
    + cbn [app]. rewrite feed_plain by lia. destruct (feed_neat om rem sz ch ck w r0 Hr ([c] ++ [32]) 32 q t) as (x' & q' & O & E); [split; lia|].
      exists x', q'. split; [assumption|]. exact E.
    + apply (feed_neat om rem sz ch ck w ((z :: s) ++ 32 :: r0)); [apply NMore; [discriminate|assumption|assumption]|split; lia].
Qed.

(** The first byte of the next line. *)
Lemma feed_next om L rem m r sz ch ck w q c t : pending om L rem m r -> 33 <= c -> c <> 34 ->
  feed (hp om rem sz ch (L ++ [13; 10]) 10 q, ck, w) (c :: t) = feed (hp (Some m) r sz ch [c] c q, ck, w) t.
Proof.
  intros (N & P) H1 H2. cbn [feed_seq]. unfold feed_char, hp. fields.
  unfold feed_header. cbn [d_last]. change (10 =? 13) with false. change (10 =? 10) with true. cbn [orb].
  destruct (N.eqb_spec c 13); [lia|]. destruct (N.eqb_spec c 10); [lia|]. destruct (N.eqb_spec c 9); [lia|]. destruct (N.eqb_spec c 32); [lia|]. cbn [orb].
  rewrite (P _ ck w [c]) by reflexivity. cbn [bind]. destruct (N.eqb_spec c 34); [lia|].
  fields.
  rewrite dropN_app, dropN_all, N.sub_diag, dropN_0 by lia. reflexivity.
Qed.
Lemma feed_field f fs c m x r r' c' om L rem sz ch ck w q t : pending om L rem m r -> taken f fs c m -> lenN fs <= 64 -> good_field x -> effect x r c r' c' ->
  exists m' q', feed (hp om rem sz ch (L ++ [13; 10]) 10 q, ck, w) (field_line x ++ t) = feed (hp (Some m) r sz ch (line_of x ++ [13; 10]) 10 q', ck, w) t
    /\ pending (Some m) (line_of x) r m' r' /\ taken f (fs ++ [x]) c' m'.
Proof.
  intros P T Ln G Ef. destruct (pending_field f fs c m x r r' c' T Ln G Ef) as (m' & P' & T'). exists m'.
  rewrite field_line_of. destruct (neat_first _ (line_of_neat x G)) as (c0 & l & El & Hc).
  assert (H34 : c0 <> 34).
  { destruct G as ((N1 & F) & _). unfold line_of in El. destruct (fst x) as [|y k]; [congruence|]. injection El as <- _. inversion F; tauto. }
  rewrite El. cbn [app]. rewrite (feed_next om L rem m r) by assumption.
  pose proof (line_of_neat x G) as N. rewrite El in N.
  destruct (feed_tail (Some m) r sz ch ck w c0 l q (13 :: 10 :: t) N H34) as (x' & q' & O & E).
  rewrite <- app_assoc. cbn [app]. rewrite E, feed_crlf by assumption. exists q'. split; [reflexivity|]. rewrite <- El. auto.
Qed.

Lemma feed_fields f xs : forall fs c m r r' c' om L rem sz ch ck w q t, pending om L rem m r -> taken f fs c m -> lenN fs + lenN xs <= 64 ->
  Forall good_field xs -> effects xs r c r' c' ->
  exists om' L' rem' m' q', feed (hp om rem sz ch (L ++ [13; 10]) 10 q, ck, w) (flat_map field_line xs ++ t) = feed (hp om' rem' sz ch (L' ++ [13; 10]) 10 q', ck, w) t
    /\ pending om' L' rem' m' r' /\ taken f (fs ++ xs) c' m'.
Proof.
  induction xs as [|x xs IH]; intros fs c m r r' c' om L rem sz ch ck w q t P T Ln G Ef.
  - inversion Ef; subst. exists om, L, rem, m, q. rewrite app_nil_r. auto.
  - inversion G as [|? ? G1 G2]; subst. inversion Ef as [|? ? ? ? r1 c1 ? ? Ef1 Ef2]; subst. rewrite lenN_cons in Ln.
    cbn [flat_map]. rewrite <- app_assoc. edestruct (feed_field f fs c m x r r1 c1 om L rem sz ch ck w q) as (m1 & q1 & E & P1 & T1); [eassumption|eassumption|lia|eassumption|eassumption|].
    rewrite E. destruct (IH (fs ++ [x]) c1 m1 r1 r' c' (Some m) (line_of x) r sz ch ck w q1 t P1 T1) as (om' & L' & rem' & m' & q' & E' & P' & T'); auto.
    { rewrite lenN_app, lenN_cons, lenN_nil. lia. }
    exists om', L', rem', m', q'. rewrite <- app_assoc in T'. auto.
Qed.

(** ** Start and end *)
Lemma feed_start f d ck w t : ready d -> good_first f ->
  exists q, feed (d, ck, w) (status f ++ t) = feed (hp None 0 (d_size d) (d_channel d) (line_of_status f ++ [13; 10]) 10 q, ck, w) t.
Proof.
  intros (R1 & R2 & R3 & R4) G. rewrite status_line. pose proof (status_neat f G) as N. destruct (neat_first _ N) as (c & l & El & Hc).
  assert (H : c <> 34 /\ c <> 36).
  { destruct f as [method uri|code phrase]; cbn [line_of_status] in El.
    - destruct G as ((N1 & F) & _ & G & _). destruct method as [|y k]; [congruence|]. injection El as <- _. inversion F; subst. split; [tauto|]. intros ->. now apply (G k).
    - injection El as <- _. split; discriminate. }
  rewrite El in *. cbn [app feed_seq]. unfold feed_char. cbn [fst]. change (d_state (push d c)) with (d_state d). rewrite R4.
  unfold feed_new. destruct (N.eqb_spec c 13); [lia|]. destruct (N.eqb_spec c 10); [lia|]. destruct (N.eqb_spec c 9); [lia|]. destruct (N.eqb_spec c 32); [lia|]. cbn [orb].
  destruct (N.eqb_spec c 36); [tauto|]. cbn [bind]. fields. rewrite R1, R2, R3. cbn [app]. rewrite dropN_0.
  destruct (feed_tail None 0 (d_size d) (d_channel d) ck w c l (d_quoted d) (13 :: 10 :: t) N) as (x' & q' & O & E); [tauto|].
  unfold hp in E at 1. change (lenN [c]) with 1 in E. rewrite <- app_assoc. cbn [app]. rewrite E, feed_crlf by assumption. eauto.
Qed.

(** The blank line; without a body the message is dispatched. *)
Lemma feed_end_empty om L rem m sz ch ck w q t ck' m' : pending om L rem m 0 -> seal ck m = Ok (ck', m', None) ->
  exists d, ready d /\ feed (hp om rem sz ch (L ++ [13; 10]) 10 q, ck, w) (13 :: 10 :: t) = feed (d, ck', w ++ [set_used m']) t.
Proof.
  intros (N & P) E. eexists. split; [|cbn [feed_seq]; unfold feed_char at 1, hp; fields; unfold feed_header; cbn [d_last];
    change (10 =? 13) with false; change (10 =? 10) with true; cbn [orb]; change (13 =? 13) with true; cbn iota].
  2: { rewrite (P _ ck w [13]) by reflexivity. cbn [bind]. fields. change (0 =? 0) with true. cbn iota. unfold submit. cbn [d_m].
       unfold dispatch. rewrite E. cbn [bind record]. unfold feed_char. fields. unfold feed_header_nl. change (10 =? 10) with true. cbn iota. fields.
       change (0 =? 0) with true. cbn iota. cbn [bind]. rewrite dropN_all by (len; cbn; lia). cbn [app]. reflexivity. }
  repeat split.
Qed.
Lemma feed_end_body om L rem m r sz ch ck w q t : pending om L rem m r -> r <> 0 ->
  exists q', feed (hp om rem sz ch (L ++ [13; 10]) 10 q, ck, w) (13 :: 10 :: t) = feed (mkParser (Some m) [] 0 SBody 10 r sz ch q', ck, w) t.
Proof.
  intros (N & P) Hr. exists q. cbn [feed_seq]; unfold feed_char at 1, hp; fields; unfold feed_header; cbn [d_last];
    change (10 =? 13) with false; change (10 =? 10) with true; cbn [orb]; change (13 =? 13) with true; cbn iota.
  rewrite (P _ ck w [13]) by reflexivity. cbn [bind]. fields. destruct (N.eqb_spec r 0); [congruence|]. cbn [bind].
  unfold feed_char. fields. unfold feed_header_nl. change (10 =? 10) with true. cbn iota. fields.
  destruct (N.eqb_spec r 0); [congruence|]. cbn [bind]. rewrite dropN_all by (len; cbn; lia). reflexivity.
Qed.
Lemma feed_body_bytes l : forall m b x sz ch q ck w t m1 ck' m', l <> [] -> append_body m (b ++ l) (Some 0) = Ok (m1, None) -> seal ck m1 = Ok (ck', m', None) ->
  exists d, ready d /\ feed (mkParser (Some m) b (lenN b) SBody x (lenN l) sz ch q, ck, w) (l ++ t) = feed (d, ck', w ++ [set_used m']) t.
Proof.
  induction l as [|c l IH]; intros m b x sz ch q ck w t m1 ck' m' Hl Ea Es; [congruence|].
  cbn [app feed_seq]. unfold feed_char. fields. unfold feed_body. fields. rewrite lenN_cons.
  destruct (N.eqb_spec (1 + lenN l) 0); [lia|]. replace (1 + lenN l - 1) with (lenN l) by lia.
  destruct l as [|c' l].
  - change (lenN []) with 0. change (0 =? 0) with true. cbn iota. cbn [d_m d_buf d_buflen].
    replace (lenN b + 1) with (lenN (b ++ [c])) by (now rewrite lenN_app). rewrite (copy_front _ (b ++ [c]) []) by (cbn; now rewrite app_nil_r).
    cbn [bind]. rewrite Ea. cbn [bind]. unfold submit. cbn [d_m]. unfold dispatch. rewrite Es. cbn [bind record app].
    eexists. split; [|reflexivity]. fields. rewrite dropN_all by (rewrite lenN_app; cbn; lia). repeat split.
  - destruct (N.eqb_spec (lenN (c' :: l)) 0) as [Z|_]; [rewrite lenN_cons in Z; lia|]. cbn [bind]. fields.
    replace (lenN b + 1) with (lenN (b ++ [c])) by (now rewrite lenN_app).
    destruct (IH m (b ++ [c]) c sz ch q ck w t m1 ck' m') as (d & R & E); [discriminate|rewrite <- app_assoc; exact Ea|exact Es|].
    exists d. split; [exact R|]. exact E.
Qed.

(** ** The body's lines *)
Lemma cut_line_ok l r : Forall (fun c => c <> 13 /\ c <> 10) l -> cut_line (l ++ 13 :: r) = (l, 13 :: r).
Proof.
  induction 1 as [|c l (H1 & H2) F IH]; [reflexivity|]. cbn [app cut_line].
  destruct (N.eqb_spec c 13); [lia|]. destruct (N.eqb_spec c 10); [lia|]. cbn [orb]. now rewrite IH.
Qed.
Lemma encode_body_printing s : plain s -> Forall (fun c => 32 <= c) (encode_body s).
Proof.
  induction 1 as [|c s (H1 & H2) F IH]; [constructor|]. cbn [encode_body]. destruct ((c =? 92) || (c =? 34)).
  - constructor; [lia|]. constructor; [lia|assumption].
  - constructor; [lia|assumption].
Qed.
Lemma wtext_printing s : wtext s -> Forall (fun c => 32 <= c) s.
Proof.
  induction 1 as [|c t H1 H2 H IH|q t Hq H IH]; [constructor|constructor; [lia|assumption]|].
  constructor; [lia|]. apply Forall_app. split; [now apply encode_body_printing|]. constructor; [lia|assumption].
Qed.
Lemma neat_printing s : neat s -> Forall (fun c => 32 <= c) s.
Proof.
  induction 1 as [s N H|s r N H Hr IH]; [now apply wtext_printing|]. apply Forall_app. split; [now apply wtext_printing|]. constructor; [lia|assumption].
Qed.
Lemma neat_inline s : neat s -> Forall (fun c => c <> 13 /\ c <> 10) s.
Proof. intros H. eapply Forall_impl; [|exact (neat_printing s H)]. cbn. intros; lia. Qed.

Lemma body_lines bs : forall fuel m after, (Datatypes.length (body_bytes bs) <= fuel)%nat -> Forall good_field bs -> wf m -> is_data m = false -> m_sealed m = false ->
  m_iter_header m = None -> m_iter_body m = true -> lenN (a_used (m_body_headers m)) + lenN bs < 2 ^ 62 ->
  exists m', body_loop fuel m (body_bytes bs) (Some after) = Ok (m', None) /\ wf m' /\ kept m m' /\ m_iter_header m' = None /\ m_iter_body m' = true
    /\ m_headers m' = m_headers m /\ m_clen m' = m_clen m /\ m_ctype m' = m_ctype m /\ m_cseq m' = m_cseq m
    /\ a_used (m_body_headers m') = a_used (m_body_headers m) ++ map header_of bs.
Proof.
  induction bs as [|b bs IH]; intros fuel m after Hf G Wm D S I B L.
  - exists m. rewrite app_nil_r. destruct fuel; cbn; auto 12 using kept_refl.
  - inversion G as [|? ? G1 G2]; subst. unfold body_bytes in Hf |- *. cbn [flat_map] in Hf |- *. fold (body_bytes bs) in Hf |- *.
    pose proof (line_of_neat b G1) as Nb. pose proof (neat_nonnil _ Nb) as Nn. rewrite field_line_of in *.
    rewrite !app_length in Hf. cbn [Datatypes.length] in Hf. rewrite lenN_cons in L.
    assert (Hl : (1 <= Datatypes.length (line_of b))%nat) by (destruct (line_of b); [congruence|cbn; lia]).
    destruct fuel as [|[|fuel]]; [lia|lia|]. rewrite <- app_assoc. cbn [app].
    remember (Datatypes.S fuel) as fuel1 eqn:Ef. cbn [body_loop].
    destruct (line_of b ++ 13 :: 10 :: body_bytes bs) as [|z zs] eqn:Ez; [now destruct (line_of b)|]. rewrite <- Ez. clear z zs Ez.
    rewrite cut_line_ok by (now apply neat_inline). cbn [bind].
    destruct (append_header_line_ok m (line_of b)) as (m1 & p & E & A & I1 & W1); auto.
    { red. rewrite B. red. cbn [array]. lia. }
    destruct (line_of b) as [|y ys] eqn:Ey; [congruence|]. rewrite sanitize_line by assumption. rewrite E. cbn [bind].
    rewrite <- Ey in *. rewrite (line_header_field b G1) in A. destruct A as [_ U O B1 _ K (Q1 & Q2 & Q3) _].
    rewrite B in *. cbn [negb andb array] in *. destruct (kept_data _ _ K) as (D1 & S1 & _).
    subst fuel1. cbn [body_loop cut_line]. change ((10 =? 13) || (10 =? 10)) with true. cbn iota.
    assert (Er : match body_bytes bs with [] => Ok [] | _ :: _ => Ok (body_bytes bs) end = Ok (body_bytes bs)) by (now destruct (body_bytes bs)).
    destruct (IH fuel m1 after) as (m2 & E2 & W2 & K2 & I2 & B2 & H2 & C1 & C2 & C3 & U2); auto; try congruence; [lia|rewrite U, lenN_app, lenN_cons, lenN_nil; lia|].
    exists m2. split.
    { destruct (body_bytes bs) as [|z zs]; exact E2. }
    split; [assumption|]. split; [eapply kept_trans; eassumption|]. split; [assumption|]. split; [assumption|].
    split; [congruence|]. split; [congruence|]. split; [congruence|]. split; [congruence|]. rewrite U2, U, <- app_assoc. reflexivity.
Qed.

(** ** Sealing what was received *)
Lemma known_deref m name p h : pointed name p (a_used (m_headers m)) (a_moves (m_headers m)) -> last_of name (a_used (m_headers m)) h ->
  lenN (a_used (m_headers m)) <= 64 -> exists q, p = Some q /\ deref m q = Ok h /\ store m q h = m.
Proof.
  intros P Hl L. destruct p as [q|]; [|exfalso; eapply none_of_last; eassumption].
  destruct P as (Pb & Pm & a & h' & b & E & Ei & Ek & Nb). exists q. split; [reflexivity|].
  assert (h' = h). { eapply last_of_fun; [|exact Hl]. exists a, b. auto. } subst h'.
  split.
  - apply (deref_mid m q a h b); rewrite ?Pb; cbn [array]; auto.
  - unfold store. rewrite Pb. cbn [array set_array]. rewrite Ei, E, replace_mid, <- E. unfold set_headers. destruct m as [? ? ? ? ? ? ? [? ? ?] ? ? ? ? ? ? ? ?]. reflexivity.
Qed.
Lemma simple_good_token s : s <> [] -> simple s -> good_token s.
Proof.
  intros N F. split; [assumption|]. unfold simple in F. split.
  - eapply Forall_impl; [|exact F]. cbn. intros; lia.
  - intros _ H. rewrite Forall_forall in F. apply F in H. lia.
Qed.
Lemma set_known_same m name p v add : pointed name p (a_used (m_headers m)) (a_moves (m_headers m)) ->
  last_of name (a_used (m_headers m)) (header_of (name, [v])) -> lenN (a_used (m_headers m)) <= 64 -> v <> [] -> simple v ->
  p <> None /\ set_known_header m p add name v = Ok (m, None).
Proof.
  intros P Hl L Nv Sv. destruct (known_deref m name p _ P Hl L) as (q & -> & E & St). split; [discriminate|]. unfold set_known_header. rewrite E. cbn [bind].
  unfold set_value. destruct (N.eqb_spec (lenN v) 0) as [Z|_]; [apply lenN_0_nil in Z; congruence|]. destruct v as [|c v]; [congruence|]. cbn [orb negb andb].
  assert (Es : header_serialize (mkHeader name (Some (takeN (lenN (c :: v)) (c :: v))) (tokenize (c :: v)) None) = header_of (name, [c :: v])).
  { rewrite takeN_all by lia. unfold header_serialize, header_of, field_line. cbn [h_line h_value h_key h_tokens fst snd].
    rewrite join_one by assumption.
    assert (T : tokenize (c :: v) = [c :: v]). { rewrite <- (join_one (c :: v)) at 1 by assumption. apply tokenize_join. constructor; [now apply simple_good_token|constructor]. }
    rewrite T. reflexivity. }
  cbn [header_of h_key fst] in *. rewrite Es. unfold header_of in *. cbn [fst] in *. rewrite St. reflexivity.
Qed.

Lemma seal_recv f cookie hs bs m ck : good_message f cookie hs bs -> closed m -> m_start m = start_of f -> m_major m = 1 -> m_minor m = 0 ->
  m_cookie m = with_flag cookie -> a_used (m_headers m) = map header_of (full_headers cookie hs bs) ->
  a_used (m_body_headers m) = map header_of bs -> m_body m = None ->
  exists m', seal ck m = Ok (ck, m', None) /\ contents m' f cookie hs bs /\ m_cookie m' = with_flag cookie.
Proof.
  intros (Gf & Gc & Gh & Gn & Gb & Gl & Gs) [Wm D S I B] Es Ema Emi Ec Eh Eb Ebo.
  assert (Nz : with_flag cookie <> 0) by (unfold with_flag, remote_flag; change (2 ^ 63) with 9223372036854775808; lia).
  assert (Eck : cooked ck m = m).
  { unfold cooked, sealed_cookie. rewrite Ec. destruct (N.eqb_spec (with_flag cookie) 0); [congruence|]. destruct (is_reply m); rewrite ?with_with, <- Ec; apply set_cookie_same. }
  rewrite (seal_eq ck m S B I), Eck. unfold next_ck. rewrite Ec. destruct (N.eqb_spec (with_flag cookie) 0); [congruence|].
  assert (L : lenN (a_used (m_headers m)) <= 64).
  { rewrite Eh, lenN_map. unfold full_headers. rewrite !lenN_app. assert (lenN (match bs with [] => [] | _ => [(text "Content-Length", [dec (lenN (body_bytes bs))]); (text "Content-Type", [text "text/parameters"])] end) <= 2) by (destruct bs; rewrite ?lenN_cons, lenN_nil; lia).
    change (lenN [(text "CSeq", [dec cookie])]) with 1. unfold field in *. lia. }
  assert (Lines : Forall lined (a_used (m_headers m)) /\ Forall lined (a_used (m_body_headers m))).
  { destruct Wm as [_ _ _ _ _ Op]. red in Op. now rewrite I in Op. }
  assert (Hcseq : last_of (text "CSeq") (a_used (m_headers m)) (header_of (text "CSeq", [dec cookie]))).
  { rewrite Eh. unfold full_headers. rewrite app_assoc, map_app. apply last_of_new. reflexivity. }
  assert (Wc : without_flag (m_cookie m) = cookie) by (rewrite Ec; now apply without_with).
  destruct (set_known_same m _ (m_cseq m) (dec cookie) true (wf_cseq m Wm) Hcseq L (dec_nonnil cookie) (dec_simple cookie)) as (_ & Kc).
  assert (Ser : serialize_common m = Ok (set_raw (set_body m (Some (body_bytes bs))) (wire f cookie hs bs), None)).
  { unfold serialize_common. rewrite Ebo, lines_ok by apply Lines. cbn [bind]. rewrite Eb, text_of_map. fold (body_bytes bs).
    assert (Rest : (do hs' <- lines (a_used (m_headers m)); Ok (set_raw (set_body m (Some (body_bytes bs))) (start_line m ++ hs' ++ [13; 10] ++ body_bytes bs), @None err))
      = Ok (set_raw (set_body m (Some (body_bytes bs))) (wire f cookie hs bs), None)).
    { rewrite lines_ok by apply Lines. cbn [bind]. rewrite Eh, text_of_map. rewrite start_line_status; [|split; [assumption|split; [assumption|rewrite Es; now destruct f]]|assumption].
      rewrite Es. unfold wire. f_equal. f_equal. f_equal. f_equal. destruct f as [method uri|code phrase]; [reflexivity|]. cbn [start_of status_of]. unfold status. now rewrite <- !app_assoc. }
    destruct bs as [|b bs].
    - assert (Nc : m_clen m = None).
      { destruct (m_clen m) as [q|] eqn:Eq; [|reflexivity]. exfalso. pose proof (wf_clen m Wm) as P. rewrite Eq in P.
        destruct P as (_ & _ & a & h & b & E & _ & Ek & Nb). apply (none_of_last (text "Content-Length") (a_used (m_headers m)) h); [|exists a, b; auto].
        rewrite Eh. unfold full_headers. cbn [app]. rewrite map_app. apply none_of_app; [|reflexivity]. apply not_known_none; [assumption|cbn; tauto]. }
      rewrite Nc. cbn [map body_bytes flat_map]. change (lenN [] =? 0) with true. cbn [negb set_known_header bind]. rewrite Eb. cbn [map bind]. rewrite Wc, Kc. cbn [bind]. exact Rest.
    - assert (Hcl : last_of (text "Content-Length") (a_used (m_headers m)) (header_of (text "Content-Length", [dec (lenN (body_bytes (b :: bs)))]))).
      { rewrite Eh. unfold full_headers. rewrite map_app. exists (map header_of hs). eexists. split; [reflexivity|]. split; [reflexivity|]. repeat (constructor; [reflexivity|]). constructor. }
      assert (Hct : last_of (text "Content-Type") (a_used (m_headers m)) (header_of (text "Content-Type", [text "text/parameters"]))).
      { rewrite Eh. unfold full_headers. rewrite map_app. exists (map header_of hs ++ [header_of (text "Content-Length", [dec (lenN (body_bytes (b :: bs)))])]). eexists.
        split; [rewrite <- app_assoc; reflexivity|]. split; [reflexivity|]. repeat (constructor; [reflexivity|]). constructor. }
      destruct (set_known_same m _ (m_clen m) _ true (wf_clen m Wm) Hcl L (dec_nonnil _) (dec_simple _)) as (Pl & Kl).
      destruct (set_known_same m _ (m_ctype m) _ true (wf_ctype m Wm) Hct L) as (Pt & Kt); [discriminate|apply simpleb; reflexivity|].
      rewrite Kl. destruct (m_clen m) as [q|]; [|congruence]. cbn [bind]. rewrite Eb. cbn [map]. rewrite Kt. cbn [bind]. rewrite Wc, Kc. cbn [bind]. exact Rest. }
  assert (Em : match m_start m with Data c p => Ok (serialize_data m c p, None) | _ => serialize_common m end = serialize_common m).
  { rewrite Es. now destruct f. }
  rewrite Em, Ser. cbn [bind]. eexists. split; [reflexivity|]. split; [|exact Ec].
  unfold contents. cbn. auto 12.
Qed.
