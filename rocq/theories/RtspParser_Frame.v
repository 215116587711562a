(** The parser looks only at bytes it has already been fed. *)
From Verif Require Import Base Text RtspMsg_Model RtspParser_Model RtspParser_Spec.

Section F.
Context {W : Type} (inc : W -> N -> message -> W * N * option err).
Notation st := (@st W).

(** Unread bytes behind the buffer. *)
Definition more (r : list byte) (d : parser) : parser := p_buf d (d_buf d ++ r) (d_buflen d).
Definition mored (r : list byte) (x : @out W) : @out W :=
  match x with
  | Ok (d, ck, w, e) => Ok (more r d, ck, w, e)
  | UB => UB
  end.

Lemma copy_more r d n : n <= lenN (d_buf d) -> copy (more r d) n = copy d n.
Proof.
  intros H. unfold copy, more; cbn. len. destruct (N.leb_spec n (lenN (d_buf d) + lenN r)); [|lia].
  destruct (N.leb_spec n (lenN (d_buf d))); [|lia]. f_equal. rewrite takeN_app.
  replace (n - lenN (d_buf d)) with 0 by lia. rewrite takeN_0. apply app_nil_r.
Qed.
Lemma pull_more r d n : n <= lenN (d_buf d) -> pull (more r d) n = more r (pull d n).
Proof.
  intros H. unfold pull, more; cbn. rewrite dropN_app.
  replace (n - lenN (d_buf d)) with 0 by lia. now rewrite dropN_0.
Qed.

Lemma append_header_frame r d m l :
  parser_append_header (more r d) m l
  = match parser_append_header d m l with Ok (d', e) => Ok (more r d', e) | UB => UB end.
Proof.
  unfold parser_append_header. destruct (append_header_line m l) as [[m' [p|e]]|]; cbn [bind]; [|reflexivity..].
  destruct (deref m' p) as [h|]; cbn [bind]; [|reflexivity].
  destruct (ptr_eqb p (m_clen m')). { destruct (h_tokens h) as [|t ts]; [reflexivity|]. destruct (whole_number t) as [[?|?] []]; reflexivity. }
  destruct (ptr_eqb p (m_cseq m')); [|reflexivity].
  destruct (h_tokens h) as [|t ts]; [reflexivity|]. destruct (whole_number t) as [[?|?] []]; reflexivity.
Qed.

Lemma finish_line_frame r d ck (w : W) : d_buflen d <= lenN (d_buf d) ->
  finish_line (more r d, ck, w) = mored r (finish_line (d, ck, w)).
Proof.
  intros H. unfold finish_line. change (d_buflen (more r d)) with (d_buflen d). rewrite copy_more by assumption.
  destruct (copy d (d_buflen d)) as [a|]; cbn [bind]; [|reflexivity].
  change (d_m (more r d)) with (d_m d). destruct (d_m d) as [m|].
  - rewrite append_header_frame. destruct (parser_append_header d m (sanitize a)) as [[? ?]|]; reflexivity.
  - destruct (from_head (sanitize a)); reflexivity.
Qed.
Lemma dispatch_frame r d ck (w : W) m : dispatch inc (more r d) ck w m = mored r (dispatch inc d ck w m).
Proof.
  unfold dispatch. destruct (seal ck m) as [[[? ?] [?|]]|]; cbn; try reflexivity.
  destruct (inc w n (set_used m0)) as [[? ?] ?]. reflexivity.
Qed.
Lemma submit_frame r d ck (w : W) : submit inc (more r d, ck, w) = mored r (submit inc (d, ck, w)).
Proof.
  unfold submit. change (d_m (more r d)) with (d_m d). destruct (d_m d); [|reflexivity].
  change (p_m (more r d) None) with (more r (p_m d None)). apply dispatch_frame.
Qed.

(** What the helpers keep. *)
Lemma append_header_keeps d m l d' e : parser_append_header d m l = Ok (d', e) ->
  d_buf d' = d_buf d /\ d_buflen d' = d_buflen d.
Proof.
  unfold parser_append_header. destruct (append_header_line m l) as [[m' [p|e']]|]; cbn [bind]; [|now intros [= <- <-]|discriminate].
  destruct (deref m' p) as [h|]; cbn [bind]; [|discriminate].
  destruct (ptr_eqb p (m_clen m')). { destruct (h_tokens h) as [|t ts]; [now intros [= <- <-]|]. destruct (whole_number t) as [[?|?] []]; now intros [= <- <-]. }
  destruct (ptr_eqb p (m_cseq m')); [|now intros [= <- <-]].
  destruct (h_tokens h) as [|t ts]; [now intros [= <- <-]|]. destruct (whole_number t) as [[?|?] []]; now intros [= <- <-].
Qed.
Lemma finish_line_keeps d ck (w : W) d' ck' w' e : finish_line (d, ck, w) = Ok (d', ck', w', e) ->
  d_buf d' = d_buf d /\ d_buflen d' = d_buflen d.
Proof.
  unfold finish_line. destruct (copy d (d_buflen d)) as [a|]; cbn [bind]; [|discriminate]. destruct (d_m d) as [m|].
  - destruct (parser_append_header d m (sanitize a)) as [[? ?]|] eqn:E; cbn; [|discriminate].
    apply append_header_keeps in E. intros [= <- <- <- <-]. exact E.
  - destruct (from_head (sanitize a)); now intros [= <- <- <- <-].
Qed.
Lemma dispatch_keeps d ck (w : W) m d' ck' w' e : dispatch inc d ck w m = Ok (d', ck', w', e) -> d' = d.
Proof.
  unfold dispatch. destruct (seal ck m) as [[[? ?] [?|]]|]; cbn; try discriminate; [now intros [= <- <- <- <-]|].
  destruct (inc w n (set_used m0)) as [[? ?] ?]. now intros [= <- <- <- <-].
Qed.
Lemma submit_keeps d ck (w : W) d' ck' w' e : submit inc (d, ck, w) = Ok (d', ck', w', e) -> d' = p_m d None.
Proof.
  unfold submit. destruct (d_m d) eqn:Em; [apply dispatch_keeps|]. intros [= <- <- <- <-].
  destruct d; cbn in *. now subst.
Qed.
Lemma submit_data_keeps d ck (w : W) p d' ck' w' e : submit_data inc (d, ck, w) p = Ok (d', ck', w', e) -> d' = d.
Proof.
  unfold submit_data. destruct (new_data (d_channel d) p); [apply dispatch_keeps|now intros [= <- <- <- <-]].
Qed.

(** [d] with the current byte pushed: one more byte buffered than counted. *)
Definition one_more (d : parser) : Prop := lenN (d_buf d) = d_buflen d + 1.
Definition level (x : @out W) : Prop :=
  match x with Ok (d, _, _, None) => lenN (d_buf d) = d_buflen d | _ => True end.

Ltac fields := unfold more, pull, count, p_m, p_buf, p_state, p_last, p_remaining, p_data, p_quoted, one_more in *; cbn [d_m d_buf d_buflen d_state d_last d_remaining d_size d_channel d_quoted] in *.

Lemma feed_new_frame r d ck (w : W) c : one_more d ->
  feed_new (more r d, ck, w) c = mored r (feed_new (d, ck, w) c) /\ level (feed_new (d, ck, w) c).
Proof.
  intros H. unfold feed_new.
  destruct ((c =? 13) || (c =? 10) || (c =? 9) || (c =? 32)). { split; [reflexivity|]. cbn. exact H. }
  destruct (c =? 36).
  - change (p_data (p_state (more r d) SDataHead) 0 0) with (more r (p_data (p_state d SDataHead) 0 0)).
    rewrite pull_more by (fields; lia). split; [reflexivity|]. cbn. len. red in H. lia.
  - change (p_remaining (p_state (more r d) SHeader) 0) with (more r (p_remaining (p_state d SHeader) 0)).
    rewrite pull_more by (fields; lia). split; [reflexivity|]. cbn. len. red in H. lia.
Qed.
Lemma feed_quote_frame r d ck (w : W) c : one_more d ->
  feed_quote (more r d, ck, w) c = mored r (feed_quote (d, ck, w) c) /\ level (feed_quote (d, ck, w) c).
Proof.
  intros H. unfold feed_quote. change (d_last (more r d)) with (d_last d). change (d_quoted (more r d)) with (d_quoted d).
  destruct ((d_last d =? 92) && negb (d_quoted d)); [split; [reflexivity|exact H]|].
  destruct (c =? 34); (split; [reflexivity|exact H]).
Qed.
Lemma feed_header_frame r d ck (w : W) c : one_more d ->
  feed_header inc (more r d, ck, w) c = mored r (feed_header inc (d, ck, w) c) /\ level (feed_header inc (d, ck, w) c).
Proof.
  intros H. red in H. unfold feed_header. change (d_last (more r d)) with (d_last d).
  assert (Hc : count (more r d) = more r (count d)) by reflexivity.
  destruct (c =? 13).
  { destruct ((d_last d =? 13) || (d_last d =? 10)); [|split; [reflexivity|exact H]].
    change (p_state (more r d) SHeaderNl) with (more r (p_state d SHeaderNl)).
    rewrite finish_line_frame by (cbn; lia).
    destruct (finish_line (p_state d SHeaderNl, ck, w)) as [[[[d1 ck1] w1] [e|]]|] eqn:E; cbn [bind mored]; try (split; [reflexivity|exact I]).
    apply finish_line_keeps in E as (E1 & E2). cbn in E1, E2.
    change (d_buflen (more r d1)) with (d_buflen d1). rewrite pull_more by (rewrite E1, E2; lia).
    change (d_remaining (more r (pull d1 (d_buflen d1 + 1)))) with (d_remaining d1).
    change (d_remaining (pull d1 (d_buflen d1 + 1))) with (d_remaining d1).
    destruct (d_remaining d1 =? 0).
    - rewrite submit_frame. split; [reflexivity|].
      destruct (submit inc (pull d1 (d_buflen d1 + 1), ck1, w1)) as [[[[d2 ck2] w2] [e|]]|] eqn:E3; cbn; try exact I.
      apply submit_keeps in E3. subst d2. cbn. rewrite lenN_dropN, E1, E2. lia.
    - split; [reflexivity|]. cbn. rewrite lenN_dropN, E1, E2. lia. }
  destruct (c =? 10).
  { destruct (d_last d =? 10); [|split; [reflexivity|exact H]].
    rewrite finish_line_frame by lia.
    destruct (finish_line (d, ck, w)) as [[[[d1 ck1] w1] [e|]]|] eqn:E; cbn [bind mored]; try (split; [reflexivity|exact I]).
    apply finish_line_keeps in E as (E1 & E2).
    change (d_buflen (more r d1)) with (d_buflen d1). rewrite pull_more by (rewrite E1, E2; lia).
    change (d_remaining (more r (pull d1 (d_buflen d1 + 1)))) with (d_remaining d1).
    change (d_remaining (pull d1 (d_buflen d1 + 1))) with (d_remaining d1).
    destruct (d_remaining d1 =? 0).
    - change (p_state (more r (pull d1 (d_buflen d1 + 1))) SNew) with (more r (p_state (pull d1 (d_buflen d1 + 1)) SNew)).
      rewrite submit_frame. split; [reflexivity|].
      destruct (submit inc (p_state (pull d1 (d_buflen d1 + 1)) SNew, ck1, w1)) as [[[[d2 ck2] w2] [e|]]|] eqn:E3; cbn; try exact I.
      apply submit_keeps in E3. subst d2. cbn. rewrite lenN_dropN, E1, E2. lia.
    - split; [reflexivity|]. cbn. rewrite lenN_dropN, E1, E2. lia. }
  destruct ((c =? 9) || (c =? 32)); [split; [reflexivity|exact H]|].
  destruct ((d_last d =? 13) || (d_last d =? 10)).
  - rewrite finish_line_frame by lia.
    destruct (finish_line (d, ck, w)) as [[[[d1 ck1] w1] [e|]]|] eqn:E; cbn [bind mored]; try (split; [reflexivity|exact I]).
    apply finish_line_keeps in E as (E1 & E2).
    change (d_buflen (more r d1)) with (d_buflen d1). rewrite pull_more by (rewrite E1, E2; lia).
    destruct (c =? 34); (split; [reflexivity|]); cbn; rewrite lenN_dropN, E1, E2; lia.
  - cbn. destruct (c =? 34); (split; [reflexivity|]); exact H.
Qed.
Lemma feed_body_frame r d ck (w : W) c : one_more d ->
  feed_body inc (more r d, ck, w) c = mored r (feed_body inc (d, ck, w) c) /\ level (feed_body inc (d, ck, w) c).
Proof.
  intros H. unfold feed_body. change (d_remaining (more r d)) with (d_remaining d).
  destruct (d_remaining d =? 0).
  { change (p_state (more r d) SNew) with (more r (p_state d SNew)). apply feed_new_frame. exact H. }
  change (count (more r d)) with (more r (count d)).
  change (p_remaining (more r (count d)) (d_remaining d - 1)) with (more r (p_remaining (count d) (d_remaining d - 1))).
  set (d1 := p_remaining (count d) (d_remaining d - 1)).
  assert (H1 : lenN (d_buf d1) = d_buflen d1) by exact H. clearbody d1. clear H.
  change (d_remaining (more r d1)) with (d_remaining d1). destruct (d_remaining d1 =? 0); [|split; [reflexivity|exact H1]].
  change (d_m (more r d1)) with (d_m d1). destruct (d_m d1) as [m|] eqn:Em.
  - change (d_buflen (more r d1)) with (d_buflen d1). rewrite copy_more by lia.
    destruct (copy d1 (d_buflen d1)) as [l|]; cbn [bind]; [|split; [reflexivity|exact I]].
    destruct (append_body m l (Some 0)) as [[m' [e|]]|]; cbn [bind]; [| |split; [reflexivity|exact I]].
    + split; [|exact I]. change (p_state (p_m (more r d1) (Some m')) SNew) with (more r (p_state (p_m d1 (Some m')) SNew)).
      cbn [mored]. rewrite pull_more by (cbn; lia). reflexivity.
    + change (p_m (more r d1) (Some m')) with (more r (p_m d1 (Some m'))). rewrite submit_frame.
      destruct (submit inc (p_m d1 (Some m'), ck, w)) as [[[[d2 ck2] w2] e]|] eqn:E3; cbn [bind mored]; [|split; [reflexivity|exact I]].
      apply submit_keeps in E3. subst d2.
      change (p_state (more r (p_m (p_m d1 (Some m')) None)) SNew) with (more r (p_state (p_m (p_m d1 (Some m')) None) SNew)).
      rewrite pull_more by (cbn; lia). split; [reflexivity|]. destruct e; [exact I|]. cbn. len. lia.
  - cbn [bind mored]. change (p_state (more r d1) SNew) with (more r (p_state d1 SNew)).
    change (d_buflen (more r d1)) with (d_buflen d1). rewrite pull_more by (cbn; lia). split; [reflexivity|]. cbn. len. lia.
Qed.
Lemma feed_header_nl_frame r d ck (w : W) c : one_more d ->
  feed_header_nl inc (more r d, ck, w) c = mored r (feed_header_nl inc (d, ck, w) c) /\ level (feed_header_nl inc (d, ck, w) c).
Proof.
  intros H. red in H. unfold feed_header_nl. change (d_buflen (more r d)) with (d_buflen d). destruct (c =? 10).
  - rewrite pull_more by lia. split; [reflexivity|]. cbn. len. lia.
  - rewrite pull_more by lia. change (p_state (more r (pull d (d_buflen d))) SBody) with (more r (p_state (pull d (d_buflen d)) SBody)).
    apply feed_body_frame. red. cbn. len. lia.
Qed.
Lemma feed_data_head_frame r d ck (w : W) c : one_more d ->
  feed_data_head (more r d, ck, w) c = mored r (feed_data_head (d, ck, w) c) /\ level (feed_data_head (d, ck, w) c).
Proof.
  intros H. red in H. unfold feed_data_head. change (count (more r d)) with (more r (count d)).
  change (d_buflen (more r (count d))) with (d_buflen d + 1). change (d_buflen (count d)) with (d_buflen d + 1).
  destruct (N.leb_spec 3 (d_buflen d + 1)); [|split; [reflexivity|exact H]].
  rewrite copy_more by (cbn; lia). destruct (copy (count d) 3) as [[|a [|b [|e [|]]]]|]; cbn [bind]; try (split; [reflexivity|exact I]).
  rewrite pull_more by (cbn; lia). split; [reflexivity|]. cbn. len. lia.
Qed.
Lemma feed_data_body_frame r d ck (w : W) c : one_more d ->
  feed_data_body inc (more r d, ck, w) c = mored r (feed_data_body inc (d, ck, w) c) /\ level (feed_data_body inc (d, ck, w) c).
Proof.
  intros H. red in H. unfold feed_data_body. change (count (more r d)) with (more r (count d)).
  change (d_buflen (more r (count d))) with (d_buflen d + 1). change (d_buflen (count d)) with (d_buflen d + 1).
  change (d_size (more r (count d))) with (d_size d). change (d_size (count d)) with (d_size d).
  destruct (N.leb_spec (d_size d) (d_buflen d + 1)); [|split; [reflexivity|exact H]].
  rewrite copy_more by (cbn; lia). destruct (copy (count d) (d_size d)) as [l|]; cbn [bind]; [|split; [reflexivity|exact I]].
  assert (E : submit_data inc (more r (count d), ck, w) l = mored r (submit_data inc (count d, ck, w) l)).
  { unfold submit_data. change (d_channel (more r (count d))) with (d_channel (count d)).
    destruct (new_data (d_channel (count d)) l); [apply dispatch_frame|reflexivity]. }
  rewrite E. clear E.
  destruct (submit_data inc (count d, ck, w) l) as [[[[d2 ck2] w2] e]|] eqn:E; cbn [bind mored]; [|split; [reflexivity|exact I]].
  apply submit_data_keeps in E. subst d2.
  change (p_state (more r (count d)) SNew) with (more r (p_state (count d) SNew)).
  change (d_buflen (more r (count d))) with (d_buflen (count d)).
  rewrite pull_more by (cbn; lia). split; [reflexivity|]. destruct e; [exact I|]. cbn. len. lia.
Qed.

Lemma feed_char_frame r d ck (w : W) c : one_more d ->
  feed_char inc (more r d, ck, w) c = mored r (feed_char inc (d, ck, w) c) /\ level (feed_char inc (d, ck, w) c).
Proof.
  intros H. unfold feed_char. cbn [fst]. change (d_state (more r d)) with (d_state d).
  destruct (d_state d); [now apply feed_new_frame|now apply feed_header_frame|now apply feed_quote_frame|
    now apply feed_header_nl_frame|now apply feed_body_frame|now apply feed_data_head_frame|now apply feed_data_body_frame].
Qed.

(** Feeding byte by byte. *)
Definition push (d : parser) (c : byte) : parser := p_buf d (d_buf d ++ [c]) (d_buflen d).
Fixpoint feed_seq (s : st) (l : list byte) : @out W :=
  match l with
  | [] => Ok (s, None)
  | c :: l =>
      let '(d, ck, w) := s in
      do r <- feed_char inc (push d c, ck, w) c;
      match r with
      | (s, Some e) => Ok (s, Some e)
      | ((d, ck, w), None) => feed_seq (p_last d c, ck, w) l
      end
  end.

Lemma feed_seq_app l1 : forall s l2, feed_seq s (l1 ++ l2) =
  do r <- feed_seq s l1; match r with (s, Some e) => Ok (s, Some e) | (s, None) => feed_seq s l2 end.
Proof.
  induction l1 as [|c l1 IH]; intros [[d ck] w] l2; [reflexivity|].
  cbn [app feed_seq]. destruct (feed_char inc (push d c, ck, w) c) as [[[[d' ck'] w'] [e|]]|]; cbn [bind]; [reflexivity| |reflexivity].
  apply IH.
Qed.

Lemma feed_seq_level l : forall d ck (w : W), lenN (d_buf d) = d_buflen d -> level (feed_seq (d, ck, w) l).
Proof.
  induction l as [|c l IH]; intros d ck w H; [exact H|]. cbn [feed_seq].
  assert (H1 : one_more (push d c)) by (red; cbn; len; cbn; lia).
  destruct (feed_char_frame [] (push d c) ck w c H1) as (_ & L).
  destruct (feed_char inc (push d c, ck, w) c) as [[[[d' ck'] w'] [e|]]|]; cbn [bind]; try exact I.
  apply IH. exact L.
Qed.

Lemma feed_all_seq l : forall d ck (w : W), lenN (d_buf d) = d_buflen d ->
  same (feed_all inc (more l d, ck, w) l) (feed_seq (d, ck, w) l).
Proof.
  induction l as [|c l IH]; intros d ck w H.
  - cbn. unfold more. rewrite app_nil_r. now destruct d.
  - cbn [feed_all feed_seq].
    assert (H1 : one_more (push d c)) by (red; cbn; len; cbn; lia).
    destruct (feed_char_frame l (push d c) ck w c H1) as (E & L).
    replace (more (c :: l) d) with (more l (push d c)).
    2:{ unfold more, push; cbn. now rewrite <- app_assoc. }
    rewrite E.
    destruct (feed_char inc (push d c, ck, w) c) as [[[[d' ck'] w'] [e|]]|]; cbn [bind mored]; [cbn; auto| |exact I].
    change (p_last (more l d') c) with (more l (p_last d' c)). apply IH. exact L.
Qed.

Lemma feed_all_level l : forall d ck (w : W), lenN (d_buf d) = d_buflen d -> level (feed_all inc (more l d, ck, w) l).
Proof.
  intros d ck w H. pose proof (feed_all_seq l d ck w H) as S. pose proof (feed_seq_level l d ck w H) as L.
  destruct (feed_all inc (more l d, ck, w) l) as [[[[d' ck'] w'] [e|]]|]; cbn; auto.
  destruct (feed_seq (d, ck, w) l) as [[[[d2 ck2] w2] [e|]]|]; cbn in S; try contradiction. injection S as -> -> ->. exact L.
Qed.

(** A parser at rest, its count as recomputed at the next read. *)
Definition rest (d : parser) : parser := p_buf d (d_buf d) (lenN (d_buf d)).

Lemma parse_data_seq d ck (w : W) l : l <> [] -> same (parse_data inc (d, ck, w) l) (feed_seq (rest d, ck, w) l).
Proof.
  intros Hl. unfold parse_data. destruct l as [|c l]; [congruence|].
  change (p_buf d (d_buf d ++ c :: l) (lenN (d_buf d))) with (more (c :: l) (rest d)).
  assert (H : lenN (d_buf (rest d)) = d_buflen (rest d)) by reflexivity.
  pose proof (feed_all_seq (c :: l) (rest d) ck w H) as S. pose proof (feed_all_level (c :: l) (rest d) ck w H) as L.
  destruct (feed_all inc (more (c :: l) (rest d), ck, w) (c :: l)) as [[[[d' ck'] w'] [e|]]|]; cbn [bind]; [exact S| |exact S].
  cbn in L. rewrite <- L, N.eqb_refl. exact S.
Qed.

Lemma same_refl x : @same W x x.
Proof. destruct x as [[[[d ck] w] [e|]]|]; cbn; auto. Qed.
Lemma same_sym x y : @same W x y -> same y x.
Proof.
  destruct x as [[[[d ck] w] [e|]]|], y as [[[[d' ck'] w'] [e'|]]|]; cbn; auto.
  intros (-> & -> & ->). auto.
Qed.
Lemma same_trans x y z : @same W x y -> same y z -> same x z.
Proof.
  destruct x as [[[[d ck] w] [e|]]|], y as [[[[d' ck'] w'] [e'|]]|], z as [[[[d2 ck2] w2] [e2|]]|]; cbn; auto; try contradiction.
  - intros (-> & -> & ->). auto.
  - congruence.
Qed.

Lemma rest_level d : lenN (d_buf d) = d_buflen d -> rest d = d.
Proof. intros H. unfold rest. rewrite H. now destruct d. Qed.

Lemma parse_chunks_seq ls : forall d ck (w : W), lenN (d_buf d) = d_buflen d -> Forall (fun l => l <> []) ls ->
  same (parse_chunks inc (d, ck, w) ls) (feed_seq (d, ck, w) (concat ls)).
Proof.
  induction ls as [|l ls IH]; intros d ck w H F; [reflexivity|]. inversion F as [|? ? Hl F']; subst.
  cbn [parse_chunks concat]. rewrite feed_seq_app.
  pose proof (parse_data_seq d ck w l Hl) as S. rewrite rest_level in S by assumption.
  pose proof (feed_seq_level l d ck w H) as L.
  destruct (parse_data inc (d, ck, w) l) as [[[[d1 ck1] w1] [e|]]|],
    (feed_seq (d, ck, w) l) as [[[[d2 ck2] w2] [e'|]]|]; cbn in S; try contradiction; cbn [bind].
  - exact S.
  - injection S as -> -> ->. apply IH; auto.
  - exact I.
Qed.

Lemma chunk_independent d ck (w : W) ls : ls <> [] -> Forall (fun l => l <> []) ls ->
  same (parse_chunks inc (d, ck, w) ls) (parse_data inc (d, ck, w) (concat ls)).
Proof.
  intros Hn F. destruct ls as [|l ls]; [congruence|]. inversion F as [|? ? Hl F']; subst.
  assert (Hc : concat (l :: ls) <> []) by (cbn; destruct l; [congruence|discriminate]).
  apply same_trans with (feed_seq (rest d, ck, w) (concat (l :: ls))); [|apply same_sym, parse_data_seq; exact Hc].
  cbn [parse_chunks concat]. rewrite feed_seq_app.
  pose proof (parse_data_seq d ck w l Hl) as S.
  pose proof (feed_seq_level l (rest d) ck w eq_refl) as L.
  destruct (parse_data inc (d, ck, w) l) as [[[[d1 ck1] w1] [e|]]|],
    (feed_seq (rest d, ck, w) l) as [[[[d2 ck2] w2] [e'|]]|]; cbn in S; try contradiction; cbn [bind].
  - exact S.
  - injection S as -> -> ->. apply parse_chunks_seq; auto.
  - exact I.
Qed.
End F.
