From Verif Require Import Base Align_Model Align_Proofs Alloc_Model Qstr_Model.

(** Strings that survive: non-empty, no NUL, and quoted if they contain an
    apostrophe. *)
Definition clean (s : list byte) : Prop :=
  s <> [] /\ ~ In 0 s /\ (need_quote s = false -> ~ In 39 s).

Ltac nb := repeat match goal with
  | |- context [?a =? ?b] => destruct (N.eqb_spec a b); subst; cbn [negb andb orb]
  end.

Lemma tok_body_quoted s : forall t cur,
  tok_loop (encode_body s ++ t) false 34 cur = tok_loop t false 34 (cur ++ encode_body s).
Proof.
  induction s as [|c s IH]; intros t cur; cbn [encode_body].
  - now rewrite app_nil_r.
  - destruct ((c =? 92) || (c =? 34)) eqn:E; cbn [app].
    + cbn [tok_loop]. rewrite N.eqb_refl. rewrite IH. rewrite <- !app_assoc. reflexivity.
    + apply orb_false_iff in E as [E1 E2]. cbn [tok_loop]. rewrite E1. cbn [N.eqb Pos.eqb negb].
      change (34 =? 0) with false. cbn [negb]. rewrite E2. cbn [andb].
      change (34 =? 39) with false. rewrite andb_false_r.
      rewrite IH. rewrite <- app_assoc. reflexivity.
Qed.

Lemma tok_body_plain s : forall t cur,
  need_quote s = false -> ~ In 39 s ->
  tok_loop (encode_body s ++ t) false 0 cur = tok_loop t false 0 (cur ++ encode_body s).
Proof.
  induction s as [|c s IH]; intros t cur Hq Ha; cbn [encode_body].
  - now rewrite app_nil_r.
  - unfold need_quote in Hq. cbn [existsb] in Hq. apply orb_false_iff in Hq as [Hc Hq].
    assert (Ha' : ~ In 39 s) by (intros H; apply Ha; now right).
    assert (H39 : (c =? 39) = false) by (apply N.eqb_neq; intros ->; apply Ha; now left).
    destruct ((c =? 92) || (c =? 34)) eqn:E; cbn [app].
    + cbn [tok_loop]. rewrite N.eqb_refl. rewrite IH by assumption.
      rewrite <- !app_assoc. reflexivity.
    + apply orb_false_iff in E as [E1 E2]. cbn [tok_loop].
      rewrite E1, E2, H39. change (0 =? 0) with true. cbn [negb].
      destruct (c =? 32) eqn:E3; [discriminate|].
      rewrite IH by assumption. rewrite <- app_assoc. reflexivity.
Qed.

Lemma tok_encode s t cur :
  (need_quote s = false -> ~ In 39 s) ->
  tok_loop (encode s (need_quote s) ++ t) false 0 cur
  = tok_loop t false 0 (cur ++ encode s (need_quote s)).
Proof.
  intros H. unfold encode. destruct (need_quote s) eqn:E.
  - cbn [app tok_loop]. change (34 =? 92) with false. change (0 =? 0) with true.
    change (34 =? 34) with true. cbn [negb].
    rewrite <- app_assoc, tok_body_quoted. cbn [app tok_loop].
    change (34 =? 92) with false. change (34 =? 0) with false. change (34 =? 34) with true.
    cbn [negb andb]. f_equal. rewrite <- !app_assoc. reflexivity.
  - apply tok_body_plain; auto.
Qed.

Lemma decode_body q s : forall t,
  ~ In 0 s -> (q = 34 \/ (q = 0 /\ ~ In 39 s)) ->
  decode false q (encode_body s ++ t) = s ++ decode false q t.
Proof.
  induction s as [|c s IH]; intros t Hz Hq; cbn [encode_body]; [reflexivity|].
  assert (Hz' : ~ In 0 s) by (intros H; apply Hz; now right).
  assert (Hq' : q = 34 \/ (q = 0 /\ ~ In 39 s)).
  { destruct Hq as [|[-> H]]; [now left|right; split; auto]. intros H2; apply H; now right. }
  assert (Hc0 : (c =? 0) = false) by (apply N.eqb_neq; intros ->; apply Hz; now left).
  destruct ((c =? 92) || (c =? 34)) eqn:E; cbn [app].
  - cbn [decode]. unfold dec_char at 1.
    assert (Hd : (if negb (q =? 0)
        then if 92 =? 92 then (true, q, [])
             else if (92 =? 34) && (q =? 34) then (false, 0, [])
             else if (92 =? 39) && (q =? 39) then (false, 0, [])
             else if 92 =? 0 then (false, q, []) else (false, q, [92])
        else if 92 =? 92 then (true, q, [])
             else if (92 =? 34) || (92 =? 39) then (false, 92, [])
             else if 92 =? 0 then (false, q, []) else (false, q, [92]))
        = (true, q, @nil N)) by (destruct (negb (q =? 0)); reflexivity).
    rewrite Hd. cbn [app decode]. unfold dec_char.
    assert (Hu : unescape_char c = c).
    { apply orb_true_iff in E as [E|E]; apply N.eqb_eq in E; subst; reflexivity. }
    rewrite Hu, Hc0. cbn [negb app]. rewrite IH; auto.
  - apply orb_false_iff in E as [E1 E2]. cbn [decode]. unfold dec_char at 1.
    rewrite E1, E2, Hc0. cbn [andb orb].
    destruct Hq as [->|[-> Ha]].
    + change (34 =? 0) with false. change (34 =? 39) with false. cbn [negb].
      rewrite andb_false_r. cbn [app]. rewrite IH; auto.
    + change (0 =? 0) with true. cbn [negb].
      assert (H39 : (c =? 39) = false) by (apply N.eqb_neq; intros ->; apply Ha; now left).
      rewrite H39. cbn [app]. rewrite IH; auto.
Qed.

Lemma decode_encode s :
  ~ In 0 s -> (need_quote s = false -> ~ In 39 s) ->
  decode false 0 (encode s (need_quote s)) = s.
Proof.
  intros Hz Hq. unfold encode. destruct (need_quote s).
  - cbn [app decode]. unfold dec_char. cbn [negb N.eqb Pos.eqb orb].
    change (0 =? 0) with true. change (34 =? 92) with false. change (34 =? 34) with true.
    cbn [negb orb app].
    rewrite decode_body by (auto; now left).
    cbn. now rewrite app_nil_r.
  - rewrite <- (app_nil_r (encode_body s)).
    rewrite decode_body by (auto; right; auto). cbn. now rewrite app_nil_r.
Qed.

Lemma encode_nil s : s <> [] -> encode s (need_quote s) <> [].
Proof.
  destruct s as [|c s]; [congruence|]. intros _. unfold encode. cbn [encode_body].
  destruct (need_quote _); [discriminate|]. destruct (_ || _); discriminate.
Qed.

(** The line as a whole. *)
Definition tail_line (ss : list (list byte)) : list byte :=
  concat (map (fun s => 32 :: encode s (need_quote s)) ss).
Lemma join_loop_tail ss : forall line,
  line <> [] -> join_loop line ss = line ++ tail_line ss.
Proof.
  induction ss as [|s ss IH]; intros line Hl; cbn [join_loop].
  - unfold tail_line; cbn. now rewrite app_nil_r.
  - rewrite IH.
    + destruct line; [congruence|]. unfold tail_line. cbn [map concat].
      rewrite <- !app_assoc. reflexivity.
    + destruct line; [congruence|discriminate].
Qed.

Lemma tok_tail ss : forall cur,
  Forall clean ss -> cur <> [] ->
  tok_loop (tail_line ss) false 0 cur = decode false 0 cur :: ss.
Proof.
  induction ss as [|s ss IH]; intros cur Hc Hn.
  - cbn. destruct cur; [congruence|reflexivity].
  - inversion Hc as [|? ? [Hs [Hz Ha]] Hr]; subst.
    unfold tail_line. cbn [map concat app tok_loop].
    change (32 =? 92) with false. change (0 =? 0) with true. change (32 =? 34) with false.
    change (32 =? 39) with false. change (32 =? 32) with true. cbn [negb].
    destruct cur as [|x cur]; [congruence|]. f_equal.
    rewrite tok_encode by assumption. cbn [app].
    fold (tail_line ss). rewrite IH; auto using encode_nil.
    rewrite decode_encode by assumption. reflexivity.
Qed.

Lemma qstr_roundtrip ss : Forall clean ss -> tokenize (join ss) = ss.
Proof.
  intros Hc. unfold tokenize, join. destruct ss as [|s ss]; [reflexivity|].
  inversion Hc as [|? ? [Hs [Hz Ha]] Hr]; subst.
  cbn [join_loop app]. rewrite join_loop_tail by (apply encode_nil; exact Hs).
  rewrite tok_encode by assumption. cbn [app].
  rewrite tok_tail by (auto using encode_nil).
  rewrite decode_encode by assumption. reflexivity.
Qed.

(** ** The converse: exactly the clean lists survive. *)
Definition apo (s : list byte) : nat := count_occ N.eq_dec s 39.

Lemma apo_app a b : apo (a ++ b) = (apo a + apo b)%nat.
Proof. apply count_occ_app. Qed.

Lemma apo_dec_char esc q c esc' q' o :
  dec_char esc q c = (esc', q', o) -> (apo o <= apo [c])%nat.
Proof.
  unfold dec_char. destruct esc.
  - intros [= <- <- <-]. destruct (N.eq_dec c 39) as [->|Hn]; [apply Nat.leb_le; vm_compute; reflexivity|].
    assert (Hu : unescape_char c <> 39).
    { unfold unescape_char. repeat match goal with |- context [c =? ?k] => destruct (N.eqb_spec c k); [lia|] end. lia. }
    destruct (negb (unescape_char c =? 0)); [|destruct (c =? 0)]; unfold apo; cbn [count_occ];
      repeat (destruct (N.eq_dec _ _); try lia; try congruence).
  - repeat match goal with |- context [if ?b then _ else _] => destruct b end;
      intros [= <- <- <-]; cbn; lia.
Qed.

Lemma apo_decode s : forall esc q, (apo (decode esc q s) <= apo s)%nat.
Proof.
  induction s as [|c s IH]; intros esc q; cbn [decode].
  - destruct esc; cbn; lia.
  - destruct (dec_char esc q c) as [[esc' q'] o] eqn:E.
    rewrite apo_app. change (c :: s) with ([c] ++ s). rewrite apo_app.
    pose proof (apo_dec_char _ _ _ _ _ _ E). specialize (IH esc' q'). lia.
Qed.

Definition apos (ss : list (list byte)) : nat := apo (concat ss).

Lemma apos_cons s ss : apos (s :: ss) = (apo s + apos ss)%nat.
Proof. unfold apos. cbn [concat]. apply apo_app. Qed.

Lemma apo_tok s : forall esc q cur,
  (apos (tok_loop s esc q cur) <= apo cur + apo s)%nat.
Proof.
  induction s as [|c s IH]; intros esc q cur; cbn [tok_loop].
  - destruct cur as [|x cur]; [cbn; lia|].
    rewrite apos_cons. pose proof (apo_decode (x :: cur) false 0).
    change (apos []) with 0%nat. lia.
  - change (c :: s) with ([c] ++ s) at 1. rewrite (apo_app [c] s).
    assert (IH' : forall esc q, (apos (tok_loop s esc q (cur ++ [c])) <= apo cur + (apo [c] + apo s))%nat).
    { intros e q0. specialize (IH e q0 (cur ++ [c])). rewrite apo_app in IH. lia. }
    repeat match goal with
           | |- context [if ?b then _ else _] => match type of b with bool => destruct b end
           end; try apply IH'.
    destruct cur as [|x cur].
    + specialize (IH false 0 []). cbn in *. lia.
    + rewrite apos_cons. pose proof (apo_decode (x :: cur) false 0).
      specialize (IH false 0 []). change (apo []) with 0%nat in IH. lia.
Qed.

(** Once an apostrophe opened a quote inside [cur], one apostrophe is lost. *)
Definition loses (esc : bool) (q : N) (cur : list byte) : Prop :=
  forall t, (apo (decode false 0 (cur ++ t)) < apo (cur ++ t))%nat.

Lemma apo_tok_lost s : forall esc q cur,
  loses esc q cur -> q <> 0 \/ cur <> [] ->
  (apos (tok_loop s esc q cur) < apo cur + apo s)%nat.
Proof.
  induction s as [|c s IH]; intros esc q cur Hl Hn; cbn [tok_loop].
  - specialize (Hl []). rewrite app_nil_r in Hl.
    destruct cur as [|x cur].
    + cbn in Hl. lia.
    + rewrite apos_cons. change (apos []) with 0%nat. lia.
  - change (c :: s) with ([c] ++ s) at 1. rewrite (apo_app [c] s).
    assert (Hl' : forall e q, loses e q (cur ++ [c])).
    { intros e q0 t. rewrite <- app_assoc. apply Hl. }
    assert (IH' : forall esc q, (apos (tok_loop s esc q (cur ++ [c])) < apo cur + (apo [c] + apo s))%nat).
    { intros e q0. specialize (IH e q0 (cur ++ [c]) (Hl' e q0)). rewrite apo_app in IH.
      rewrite Nat.add_assoc. apply IH. right. destruct cur; discriminate. }
    repeat match goal with
           | |- context [if ?b then _ else _] => match type of b with bool => destruct b end
           end; try apply IH'.
    destruct cur as [|x cur].
    + specialize (Hl []). cbn in Hl. lia.
    + rewrite apos_cons. specialize (Hl []). rewrite app_nil_r in Hl.
      pose proof (apo_tok s false 0 []) as H2. change (apo []) with 0%nat in H2. lia.
Qed.

Lemma apo_encode_body s : apo (encode_body s) = apo s.
Proof.
  induction s as [|c s IH]; [reflexivity|]. cbn [encode_body].
  destruct ((c =? 92) || (c =? 34)) eqn:E.
  - change (92 :: c :: encode_body s) with ([92] ++ [c] ++ encode_body s).
    change (c :: s) with ([c] ++ s). rewrite !apo_app, IH. reflexivity.
  - change (c :: encode_body s) with ([c] ++ encode_body s).
    change (c :: s) with ([c] ++ s). rewrite !apo_app, IH. reflexivity.
Qed.
Lemma apo_encode s b : apo (encode s b) = apo s.
Proof. unfold encode. destruct b; rewrite ?apo_app, apo_encode_body; cbn; lia. Qed.
Lemma apo_join_loop ss : forall line, apo (join_loop line ss) = (apo line + apos ss)%nat.
Proof.
  induction ss as [|s ss IH]; intros line; cbn [join_loop].
  - change (apos []) with 0%nat. lia.
  - rewrite IH, !apo_app, apo_encode, apos_cons.
    destruct line; [change (apo []) with 0%nat; lia|]. change (apo [32]) with 0%nat. lia.
Qed.

Lemma decode_unquoted_prefix s : forall t,
  ~ In 39%N s ->
  (apo (decode false 0 (encode_body s ++ 39%N :: t)) <= apo t)%nat.
Proof.
  induction s as [|c s IH]; intros t Ha; cbn [encode_body app].
  - cbn [decode]. unfold dec_char. cbn. apply apo_decode.
  - assert (Ha' : ~ In 39 s) by (intros H; apply Ha; now right).
    assert (H39 : (c =? 39) = false) by (apply N.eqb_neq; intros ->; apply Ha; now left).
    destruct ((c =? 92) || (c =? 34)) eqn:E; cbn [app decode].
    + unfold dec_char at 1. change (0 =? 0) with true. cbn [negb]. change (92 =? 92) with true.
      cbn iota. cbn [app decode]. unfold dec_char at 1.
      assert (Hu : unescape_char c = c).
      { apply orb_true_iff in E as [E|E]; apply N.eqb_eq in E; subst; reflexivity. }
      rewrite Hu.
      assert (Hc : (c =? 0) = false).
      { apply orb_true_iff in E as [E|E]; apply N.eqb_eq in E; subst; reflexivity. }
      rewrite Hc. cbn [negb]. rewrite apo_app.
      assert (Hc0 : apo [c] = 0%nat).
      { unfold apo. cbn [count_occ]. destruct (N.eq_dec c 39); [|reflexivity].
        apply N.eqb_neq in H39. congruence. }
      rewrite Hc0. apply IH; assumption.
    + apply orb_false_iff in E as [E1 E2]. unfold dec_char at 1.
      change (0 =? 0) with true. cbn [negb]. rewrite E1, E2, H39. cbn [orb].
      assert (Hc0 : apo [c] = 0%nat).
      { unfold apo. cbn [count_occ]. destruct (N.eq_dec c 39); [|reflexivity].
        apply N.eqb_neq in H39. congruence. }
      destruct (c =? 0); rewrite apo_app; rewrite ?Hc0; cbn [apo count_occ Nat.add];
        apply IH; assumption.
Qed.

Lemma first_apo s : In 39 s -> exists s1 s2, s = s1 ++ 39 :: s2 /\ ~ In 39 s1.
Proof.
  induction s as [|c s IH]; [intros []|]. intros H.
  destruct (N.eq_dec c 39) as [->|Hn].
  - exists [], s. auto.
  - destruct H as [H|H]; [congruence|]. destruct (IH H) as [s1 [s2 [-> Hs]]].
    exists (c :: s1), s2. split; [reflexivity|]. intros [?|?]; auto.
Qed.
Lemma encode_body_app a b : encode_body (a ++ b) = encode_body a ++ encode_body b.
Proof.
  induction a as [|c a IH]; [reflexivity|]. cbn [app encode_body].
  destruct (_ || _); cbn [app]; rewrite IH; reflexivity.
Qed.
Lemma need_quote_app a b : need_quote (a ++ b) = need_quote a || need_quote b.
Proof. apply existsb_app. Qed.

Lemma not_In_apo s : ~ In 39 s -> apo s = 0%nat.
Proof. intros H. unfold apo. now apply count_occ_not_In. Qed.

(** Reading an unquoted string with an apostrophe loses one. *)
Lemma tok_bad s t :
  need_quote s = false -> In 39 s ->
  (apos (tok_loop (encode s (need_quote s) ++ t) false 0 []) < apo s + apo t)%nat.
Proof.
  intros Hq Ha. destruct (first_apo s Ha) as [s1 [s2 [-> Hs1]]].
  rewrite need_quote_app in Hq. apply orb_false_iff in Hq as [Hq1 Hq2].
  unfold encode. rewrite need_quote_app, Hq1, Hq2. cbn [orb].
  rewrite encode_body_app, <- app_assoc, tok_body_plain by assumption.
  change (encode_body (39 :: s2)) with (39 :: encode_body s2). cbn [app tok_loop].
  change (39 =? 92) with false. change (0 =? 0) with true. change (39 =? 34) with false.
  change (39 =? 39) with true. cbn [negb].
  eapply Nat.lt_le_trans; [apply apo_tok_lost|].
  - intros t'. pose proof (decode_unquoted_prefix s1 t' Hs1) as H.
    rewrite <- app_assoc. cbn [app] in *.
    rewrite apo_app, apo_encode_body, (not_In_apo s1) by assumption.
    change (39 :: t') with ([39] ++ t'). rewrite apo_app. change (apo [39]) with 1%nat.
    cbn [app]. lia.
  - left; discriminate.
  - rewrite !apo_app, !apo_encode_body. change (39 :: s2) with ([39] ++ s2).
    rewrite apo_app. lia.
Qed.

Definition quote_ok (s : list byte) : Prop := need_quote s = false -> ~ In 39 s.

Lemma quote_ok_dec s : {quote_ok s} + {need_quote s = false /\ In 39 s}.
Proof.
  unfold quote_ok. destruct (need_quote s) eqn:E; [left; discriminate|].
  destruct (in_dec N.eq_dec 39 s); [right; auto|left; auto].
Qed.

(** join ignores empty strings at the front and turns later ones into extra
    separators; the tokenizer drops both. *)
Lemma join_loop_app ss : forall line, exists t, join_loop line ss = line ++ t.
Proof.
  induction ss as [|s ss IH]; intros line; cbn [join_loop].
  - exists []. now rewrite app_nil_r.
  - destruct (IH (line ++ match line with [] => [] | _ => [32] end ++ encode s (need_quote s)))
      as [t Ht].
    rewrite Ht. rewrite <- app_assoc. eexists; reflexivity.
Qed.

Definition flush (cur : list byte) : list (list byte) :=
  match cur with [] => [] | _ => [decode false 0 cur] end.

Lemma tok_sep t cur :
  tok_loop (32 :: t) false 0 cur = flush cur ++ tok_loop t false 0 [].
Proof. cbn [tok_loop]. change (32 =? 92) with false. change (0 =? 0) with true.
  change (32 =? 34) with false. change (32 =? 39) with false. change (32 =? 32) with true.
  cbn [negb]. destruct cur; reflexivity.
Qed.

Lemma tok_tail_ok ss : forall cur,
  Forall (fun s => ~ In 0 s /\ quote_ok s) ss ->
  tok_loop (tail_line ss) false 0 cur
  = flush cur ++ filter (fun s => negb (lenN s =? 0)) ss.
Proof.
  induction ss as [|s ss IH]; intros cur Hc.
  - cbn. now rewrite app_nil_r.
  - inversion Hc as [|? ? [Hz Ha] Hr]; subst.
    unfold tail_line. cbn [map concat]. fold (tail_line ss). cbn [app].
    rewrite tok_sep. f_equal.
    rewrite tok_encode by assumption. cbn [app]. rewrite IH by assumption.
    destruct s as [|c s].
    + cbn. reflexivity.
    + cbn [filter]. rewrite lenN_cons. destruct (1 + lenN s =? 0) eqn:E; [lia|]. cbn [negb].
      pose proof (encode_nil (c :: s) ltac:(discriminate)) as Hne.
      pose proof (decode_encode (c :: s) Hz Ha) as Hd. unfold flush.
      destruct (encode (c :: s) (need_quote (c :: s))); [congruence|].
      rewrite Hd. reflexivity.
Qed.

Lemma tok_tail_bad ss : forall cur,
  Exists (fun s => ~ quote_ok s) ss ->
  (apos (tok_loop (tail_line ss) false 0 cur) < apo cur + apos ss)%nat.
Proof.
  induction ss as [|s ss IH]; intros cur He; [inversion He|].
  unfold tail_line. cbn [map concat]. fold (tail_line ss). cbn [app].
  rewrite tok_sep, apos_cons.
  assert (Hf : (apos (flush cur) <= apo cur)%nat).
  { destruct cur; [cbn; lia|]. unfold flush. rewrite apos_cons. change (apos []) with 0%nat.
    pose proof (apo_decode (n :: cur) false 0). lia. }
  assert (Hap : forall a b, apos (a ++ b) = (apos a + apos b)%nat).
  { intros a b. unfold apos. rewrite concat_app. apply apo_app. }
  rewrite Hap.
  assert (Htl : apo (tail_line ss) = apos ss).
  { clear. induction ss as [|s ss IH]; [reflexivity|]. unfold tail_line. cbn [map concat].
    rewrite apo_app. fold (tail_line ss). rewrite IH, apos_cons.
    change (32 :: encode s (need_quote s)) with ([32] ++ encode s (need_quote s)).
    rewrite apo_app, apo_encode. reflexivity. }
  destruct (quote_ok_dec s) as [Hs|[Hq Hin]].
  - rewrite tok_encode by assumption. cbn [app].
    assert (He' : Exists (fun s => ~ quote_ok s) ss) by (inversion He; subst; [contradiction|assumption]).
    specialize (IH (encode s (need_quote s)) He'). rewrite apo_encode in IH. lia.
  - pose proof (tok_bad s (tail_line ss) Hq Hin). lia.
Qed.

Lemma join_head ss :
  exists pre ss', ss = pre ++ ss' /\ Forall (fun s => s = []) pre /\
    match ss' with
    | [] => join ss = []
    | s :: ss' => s <> [] /\ join ss = encode s (need_quote s) ++ tail_line ss'
    end.
Proof.
  induction ss as [|s ss [pre [ss' [-> [Hp Hj]]]]].
  - exists [], []. repeat split; constructor.
  - destruct s as [|c s].
    + exists ([] :: pre), ss'. split; [reflexivity|]. split; [constructor; auto|exact Hj].
    + exists [], ((c :: s) :: pre ++ ss'). split; [reflexivity|]. split; [constructor|].
      split; [discriminate|]. unfold join. cbn [join_loop app].
      apply join_loop_tail. apply encode_nil. discriminate.
Qed.

Lemma qstr_roundtrip_only ss :
  Forall (fun s => ~ In 0 s) ss -> tokenize (join ss) = ss -> Forall clean ss.
Proof.
  intros Hz Hr.
  assert (Hok : Forall quote_ok ss).
  { assert (Hcase : Forall quote_ok ss \/ Exists (fun s => ~ quote_ok s) ss).
    { clear. induction ss as [|x ss IH]; [left; constructor|].
      destruct (quote_ok_dec x) as [Hx|[Hx1 Hx2]].
      - destruct IH; [left; constructor; auto|right; now apply Exists_cons_tl].
      - right. constructor. intros H. exact (H Hx1 Hx2). }
    destruct Hcase as [|He]; [assumption|exfalso].
    assert (Hlt : (apos (tokenize (join ss)) < apos ss)%nat); [|rewrite Hr in Hlt; lia].
    destruct (join_head ss) as [pre [ss' [-> [Hp Hj]]]].
    assert (He' : Exists (fun s => ~ quote_ok s) ss').
    { apply Exists_app in He as [He|He]; [|exact He]. exfalso.
      rewrite Exists_exists in He. destruct He as [x [Hx Hb]].
      rewrite Forall_forall in Hp. rewrite (Hp x Hx) in Hb. apply Hb. intros _ []. }
    assert (Hpre : apos (pre ++ ss') = apos ss').
    { clear -Hp. induction Hp as [|x l Hx Hl IH]; [reflexivity|]. subst x.
      cbn [app]. rewrite apos_cons. exact IH. }
    rewrite Hpre. destruct ss' as [|s ss']; [inversion He'|].
    destruct Hj as [Hs Hj]. unfold tokenize. rewrite Hj.
    destruct (quote_ok_dec s) as [Hq|[Hq Hin]].
    - rewrite tok_encode by assumption. cbn [app].
      assert (He2 : Exists (fun s => ~ quote_ok s) ss')
        by (inversion He'; subst; [contradiction|assumption]).
      pose proof (tok_tail_bad ss' (encode s (need_quote s)) He2) as H.
      rewrite apo_encode in H. rewrite apos_cons. exact H.
    - pose proof (tok_bad s (tail_line ss') Hq Hin) as H. rewrite apos_cons.
      assert (Htl : apo (tail_line ss') = apos ss').
      { clear. induction ss' as [|x ss IH]; [reflexivity|]. unfold tail_line. cbn [map concat].
        rewrite apo_app. fold (tail_line ss). rewrite IH, apos_cons.
        change (32 :: encode x (need_quote x)) with ([32] ++ encode x (need_quote x)).
        rewrite apo_app, apo_encode. reflexivity. }
      lia. }
  (* no empty strings *)
  assert (Hall : Forall (fun s => ~ In 0 s /\ quote_ok s) ss).
  { rewrite Forall_forall in *. intros x Hx. auto. }
  assert (Hfil : tokenize (join ss) = filter (fun s => negb (lenN s =? 0)) ss).
  { destruct (join_head ss) as [pre [ss' [-> [Hp Hj]]]].
    rewrite filter_app.
    assert (Hpre : filter (fun s : list N => negb (lenN s =? 0)) pre = []).
    { clear -Hp. induction Hp as [|x l Hx Hl IH]; [reflexivity|]. subst x. exact IH. }
    rewrite Hpre. cbn [app]. apply Forall_app in Hall as [_ Hall].
    destruct ss' as [|s ss'].
    - rewrite Hj. reflexivity.
    - destruct Hj as [Hs Hj]. unfold tokenize. rewrite Hj.
      inversion Hall as [|? ? [Hz1 Hq1] Hr1]; subst.
      rewrite tok_encode by assumption. cbn [app]. rewrite tok_tail_ok by assumption.
      cbn [filter]. destruct s as [|c s]; [congruence|].
      rewrite lenN_cons. destruct (1 + lenN s =? 0) eqn:E; [lia|]. cbn [negb].
      pose proof (encode_nil (c :: s) Hs) as Hne.
      pose proof (decode_encode (c :: s) Hz1 Hq1) as Hd. unfold flush.
      destruct (encode (c :: s) (need_quote (c :: s))); [congruence|].
      rewrite Hd. reflexivity. }
  rewrite Hfil in Hr.
  rewrite Forall_forall in *. intros x Hx. split; [|split; [apply Hz; auto|apply Hok; auto]].
  intros ->. assert (Hin : In [] (filter (fun s : list N => negb (lenN s =? 0)) ss)) by (rewrite Hr; auto).
  apply filter_In in Hin as [_ Hb]. discriminate.
Qed.

Lemma need_quote_iff s : need_quote s = true <-> exists c, In c s /\ In c [32; 9; 10; 11].
Proof.
  unfold need_quote. rewrite existsb_exists. split; intros [c [H1 H2]]; exists c; split; auto.
  - rewrite !orb_true_iff, !N.eqb_eq in H2. cbn. intuition.
  - rewrite !orb_true_iff, !N.eqb_eq. cbn in H2. intuition.
Qed.

(** Boolean tests, used by examples only. *)
Lemma not_In_test x s : existsb (N.eqb x) s = false -> ~ In x s.
Proof.
  intros H Hin. assert (existsb (N.eqb x) s = true); [|congruence].
  apply existsb_exists. exists x. split; [exact Hin|apply N.eqb_refl].
Qed.
Lemma clean_test s :
  (negb (lenN s =? 0) && negb (existsb (N.eqb 0) s)
   && (need_quote s || negb (existsb (N.eqb 39) s))) = true -> clean s.
Proof.
  rewrite !andb_true_iff, orb_true_iff, !negb_true_iff. intros [[H1 H2] H3].
  repeat split.
  - intros ->. discriminate.
  - now apply not_In_test.
  - intros Hq. destruct H3 as [H3|H3]; [congruence|now apply not_In_test].
Qed.
Lemma no_nul_test ss :
  forallb (fun s => negb (existsb (N.eqb 0) s)) ss = true -> Forall (fun s => ~ In 0 s) ss.
Proof.
  intros H. rewrite forallb_forall in H. apply Forall_forall. intros s Hs.
  apply not_In_test. apply negb_true_iff. auto.
Qed.
Lemma clean_list_test ss :
  forallb (fun s => negb (lenN s =? 0) && negb (existsb (N.eqb 0) s)
   && (need_quote s || negb (existsb (N.eqb 39) s))) ss = true -> Forall clean ss.
Proof.
  intros H. rewrite forallb_forall in H. apply Forall_forall. intros s Hs.
  apply clean_test. auto.
Qed.
Lemma roundtrip_counterexample :
  exists ss, Forall (fun s => ~ In 0 s) ss /\ tokenize (join ss) <> ss.
Proof.
  exists [[97]; []; [98]]. split; [now apply no_nul_test|].
  intros H. vm_compute in H. discriminate.
Qed.
