(** The hash table is a bag. *)
From Coq Require Import Permutation.
From Verif Require Import Base Htable_Model Htable_Spec Htable_Bits.

Section Proofs.
Context (rehash : N -> N) (cmp : N -> N -> bool) (k : N) (Hk : 1 <= k <= 63).

Definition good (p : N) : Prop := 2 ^ k <= p < 2 ^ (k + 1).
Definition pok (t : ht) (p : N) : Prop := good p /\ N.land p (mask t) = cbits t.
Record params (t : ht) : Prop := mkPar {
  P_perf : forall i, tb (perf t) i = true -> tb (mask t) i = true;
  P_cb : forall i, tb (cbits t) i = true -> tb (mask t) i = true;
  P_64 : forall i, 64 <= i -> tb (mask t) i = false;
  P_k : tb (mask t) k = false }.

Definition enc (t : ht) (p : N) (o : bool) : N :=
  make_hval t p (N.lor (hash_bits t (rehash p)) (if o then perf t else 0)).

Lemma good_64 p i : good p -> 64 <= i -> tb p i = false.
Proof. intros [_ H] Hi. eapply tb_high; [exact H|lia]. Qed.
Lemma good_nz p : good p -> p <> 0.
Proof. intros [H _]. pose proof (pow2_pos k). lia. Qed.

Lemma tb_if (o : bool) a i : tb (if o then a else 0) i = o && tb a i.
Proof. destruct o; [reflexivity|apply N.bits_0]. Qed.

Lemma pok_bit t p i : pok t p -> tb (cbits t) i = tb p i && tb (mask t) i.
Proof. intros [_ <-]. apply N.land_spec. Qed.

Ltac bits :=
  unfold enc, make_hval, get_raw, get_extra, hash_bits;
  rewrite ?N.lor_spec, ?N.land_spec, ?N.lor_spec, ?tb_not64, ?tb_if, ?N.land_spec, ?tb_not64.

Lemma raw_enc t p o : params t -> pok t p -> get_raw t (enc t p o) = p.
Proof.
  intros HP Hp. apply N.bits_inj. intros i. bits.
  pose proof (P_perf t HP i) as H1. pose proof (P_64 t HP i) as H3.
  rewrite (pok_bit _ _ i Hp).
  destruct (N.ltb_spec i 64) as [Hi|Hi].
  - destruct (tb (mask t) i), (tb (perf t) i), (tb p i), o, (tb (N.lxor (rehash p) (N.shiftr (rehash p) (bits t))) i);
      cbn in *; try reflexivity; try (specialize (H1 eq_refl); discriminate).
  - rewrite (good_64 p i (proj1 Hp) Hi). rewrite (H3 Hi).
    cbn. rewrite ?andb_false_r. reflexivity.
Qed.

Lemma extra_enc t p o : params t ->
  get_extra t (enc t p o) = N.lor (hash_bits t (rehash p)) (if o then perf t else 0).
Proof.
  intros HP. apply N.bits_inj. intros i. bits.
  pose proof (P_perf t HP i) as H1. pose proof (P_64 t HP i) as H3.
  destruct (N.ltb_spec i 64) as [Hi|Hi].
  - destruct (tb (mask t) i), (tb (perf t) i), (tb p i), o, (tb (N.lxor (rehash p) (N.shiftr (rehash p) (bits t))) i);
      cbn in *; try reflexivity; try (specialize (H1 eq_refl); discriminate).
  - rewrite (H3 Hi) in *. destruct (tb (perf t) i); [specialize (H1 eq_refl); discriminate|].
    cbn. rewrite ?andb_false_r. reflexivity.
Qed.

Lemma bit_valid e : tb e k = true -> valid e = true.
Proof.
  intros H. apply tb_ge in H. unfold valid, DELETED.
  assert (2 ^ 1 <= 2 ^ k) by (apply N.pow_le_mono_r; lia). change (2 ^ 1) with 2 in *. lia.
Qed.
Lemma enc_bit t p o : params t -> pok t p -> tb (enc t p o) k = true.
Proof.
  intros HP Hp. bits. rewrite (P_k t HP), (tb_top p k (proj1 Hp)).
  replace (k <? 64) with true by lia. reflexivity.
Qed.
Lemma valid_enc t p o : params t -> pok t p -> valid (enc t p o) = true.
Proof. intros HP Hp. apply bit_valid. now apply enc_bit. Qed.

(** ** Well-formed tables *)
Definition placed (t : ht) (T : list N) (i : N) : Prop :=
  exists p d, pok t p /\ d < size t /\ i = (hash_bucket t (rehash p) + d) mod size t
    /\ g T i = enc t p (d =? 0)
    /\ forall j, j < d -> g T ((hash_bucket t (rehash p) + j) mod size t) <> 0.
Definition TOK (t : ht) (T : list N) : Prop :=
  lenN T = size t /\ forall i, i < size t -> valid (g T i) = true -> placed t T i.
Definition elts (t : ht) (T : list N) : list N := map (get_raw t) (filter valid T).

Lemma elts_app t A B : elts t (A ++ B) = elts t A ++ elts t B.
Proof. unfold elts. now rewrite filter_app, map_app. Qed.
Lemma elts_put_add t T i v : i < lenN T -> valid (g T i) = false -> valid v = true ->
  Permutation (elts t (put T i v)) (get_raw t v :: elts t T).
Proof.
  intros Hi Hg Hv. replace (elts t T) with (elts t (takeN i T ++ g T i :: dropN (i + 1) T))
    by (now rewrite <- split_at). unfold put. rewrite !elts_app.
  unfold elts at 2 4. cbn [filter]. rewrite Hg, Hv. cbn [map].
  symmetry. apply Permutation_middle.
Qed.
Lemma elts_put_del t T i v : i < lenN T -> valid (g T i) = true -> valid v = false ->
  Permutation (elts t T) (get_raw t (g T i) :: elts t (put T i v)).
Proof.
  intros Hi Hg Hv. replace (elts t T) with (elts t (takeN i T ++ g T i :: dropN (i + 1) T))
    by (now rewrite <- split_at). unfold put. rewrite !elts_app.
  unfold elts at 2 4. cbn [filter]. rewrite Hg, Hv. cbn [map].
  symmetry. apply Permutation_middle.
Qed.
Lemma lenN_elts t T : lenN (elts t T) = vc T.
Proof. unfold elts, vc. now len. Qed.

Lemma in_elts t T p : In p (elts t T) -> exists i, i < lenN T /\ valid (g T i) = true /\ get_raw t (g T i) = p.
Proof.
  unfold elts. intros H. apply in_map_iff in H as [e [He Hin]]. apply filter_In in Hin as [Hin Hv].
  apply (In_nth _ _ 0) in Hin as [n [Hn Hne]]. exists (N.of_nat n). unfold lenN, g.
  rewrite Nat2N.id, Hne. repeat split; auto. lia.
Qed.
Lemma elts_in t T i : i < lenN T -> valid (g T i) = true -> In (get_raw t (g T i)) (elts t T).
Proof.
  intros Hi Hv. unfold elts. apply in_map. apply filter_In. split; [|exact Hv].
  unfold g. apply nth_In. unfold lenN in Hi. lia.
Qed.

Lemma bucket_lt t h : hash_bucket t h < size t.
Proof. unfold hash_bucket. rewrite land_mask. apply N.mod_lt. pose proof (size_pos t). lia. Qed.

Lemma ht_add_ok t T p : params t -> TOK t T -> pok t p -> vc T < size t ->
  exists i v, ht_add t T p (rehash p) = Ret (put T i v) /\ i < size t
    /\ valid (g T i) = false /\ v = enc t p (i =? hash_bucket t (rehash p))
    /\ TOK t (put T i v) /\ Permutation (elts t (put T i v)) (p :: elts t T).
Proof.
  intros HP [Hl HT] Hp Hc. pose proof (size_pos t) as Hn.
  destruct (exists_invalid T) as [i0 [Hi0 Hv0]]; [lia|].
  destruct (ht_add_run t T p (rehash p) i0 Hl ltac:(lia) Hv0) as [d [Hd [Hinv [Hpath Hrun]]]].
  set (i := (hash_bucket t (rehash p) + d) mod size t) in *.
  assert (Hi : i < size t) by (apply N.mod_lt; lia).
  fold (enc t p (d =? 0)) in Hrun.
  assert (Hdi : (i =? hash_bucket t (rehash p)) = (d =? 0)).
  { pose proof (bucket_lt t (rehash p)) as Hb. unfold i. rewrite add_mod_case by assumption.
    destruct (N.ltb_spec (hash_bucket t (rehash p) + d) (size t)); lia. }
  exists i, (enc t p (d =? 0)). split; [exact Hrun|]. split; [exact Hi|]. split; [exact Hinv|].
  split; [now rewrite Hdi|]. split.
  - split; [rewrite lenN_put; lia|]. intros j Hj Hv. rewrite g_put in Hv by lia.
    destruct (N.eqb_spec j i) as [->|Hji].
    + exists p, d. split; [exact Hp|]. split; [exact Hd|]. split; [reflexivity|].
      rewrite g_put, N.eqb_refl by lia. split; [reflexivity|].
      intros j Hjd. rewrite g_put by lia. destruct (N.eqb_spec ((hash_bucket t (rehash p) + j) mod size t) i) as [_|_].
      * apply valid_nz. now apply valid_enc.
      * apply valid_nz. now apply Hpath.
    + destruct (HT j Hj Hv) as [q [e [Hq [He [Hje [Hg Hnz]]]]]].
      exists q, e. split; [exact Hq|]. split; [exact He|]. split; [exact Hje|].
      rewrite g_put by lia. apply N.eqb_neq in Hji. rewrite Hji. split; [exact Hg|].
      intros j' Hj'. rewrite g_put by lia.
      destruct (N.eqb_spec ((hash_bucket t (rehash q) + j') mod size t) i); [|now apply Hnz].
      apply valid_nz. now apply valid_enc.
  - rewrite elts_put_add by (auto; try lia; now apply valid_enc). rewrite raw_enc by assumption. reflexivity.
Qed.

(** ** Finding *)
Definition h2_at (t : ht) (h d : N) : N := N.lor (hash_bits t h) (if d =? 0 then perf t else 0).
Definition hit (t : ht) (h d : N) : bool :=
  let e := g (table t) ((hash_bucket t h + d) mod size t) in
  valid e && (get_extra t e =? h2_at t h d).

Lemma hash_bits_drop_perf t h d : params t ->
  N.land (h2_at t h d) (not64 (if d =? 0 then perf t else 0)) = hash_bits t h.
Proof.
  intros HP. apply N.bits_inj. intros i. unfold h2_at, hash_bits.
  rewrite ?N.land_spec, ?N.lor_spec, ?tb_not64, ?tb_if, ?N.land_spec, ?tb_not64.
  pose proof (P_64 t HP i) as H3. destruct (N.ltb_spec i 64) as [Hi|Hi].
  - destruct (tb (mask t) i), (tb (perf t) i), (d =? 0), (tb (N.lxor h (N.shiftr h (bits t))) i); reflexivity.
  - rewrite (H3 Hi). cbn. rewrite ?andb_false_r. reflexivity.
Qed.

Definition slot (t : ht) (h d : N) : N := (hash_bucket t h + d) mod size t.

Lemma slot_next t h d : N.land (slot t h d + 1) (size t - 1) = slot t h (d + 1).
Proof. rewrite land_mask. unfold slot. apply mod_step. pose proof (size_pos t). lia. Qed.

Lemma slot_0 t h : slot t h 0 = hash_bucket t h.
Proof. unfold slot. rewrite N.add_0_r. apply N.mod_small. apply bucket_lt. Qed.

Lemma ht_val_spec t h : params t -> lenN (table t) = size t -> forall fuel d z,
  d <= z -> (N.to_nat (z - d) < fuel)%nat -> z < size t ->
  g (table t) (slot t h z) = 0 ->
  (forall j, d <= j < z -> g (table t) (slot t h j) <> 0) ->
  (exists j, d <= j < z /\ hit t h j = true /\ (forall j', d <= j' < j -> hit t h j' = false)
     /\ ht_val fuel t (slot t h d) (h2_at t h d) (if d =? 0 then perf t else 0)
        = Ret (Some (get_raw t (g (table t) (slot t h j)), slot t h j)))
  \/ ((forall j, d <= j < z -> hit t h j = false)
      /\ ht_val fuel t (slot t h d) (h2_at t h d) (if d =? 0 then perf t else 0) = Ret None).
Proof.
  intros HP Hl. pose proof (size_pos t) as Hn.
  induction fuel as [|fuel IH]; intros d z Hd Hf Hz Hgz Hnz; [lia|].
  cbn [ht_val]. rewrite rd_ok by (rewrite Hl; apply N.mod_lt; lia). cbn [obind].
  destruct (N.eq_dec d z) as [->|Hdz].
  - right. split; [intros; lia|]. rewrite Hgz. reflexivity.
  - assert (Hg : g (table t) (slot t h d) <> 0) by (apply Hnz; lia).
    pose proof Hg as Hg0. apply N.eqb_neq in Hg. rewrite Hg.
    assert (Hhit : negb (g (table t) (slot t h d) =? DELETED) && (get_extra t (g (table t) (slot t h d)) =? h2_at t h d)
                   = hit t h d).
    { unfold hit. fold (slot t h d). f_equal. unfold valid, DELETED. lia. }
    rewrite Hhit. destruct (hit t h d) eqn:Eh.
    + left. exists d. split; [lia|]. split; [exact Eh|]. split; [intros; lia|reflexivity].
    + unfold next_slot. rewrite slot_next.
      rewrite hash_bits_drop_perf by exact HP.
      specialize (IH (d + 1) z ltac:(lia) ltac:(lia) Hz Hgz ltac:(intros; apply Hnz; lia)).
      assert (Hh2 : h2_at t h (d + 1) = hash_bits t h).
      { unfold h2_at. replace (d + 1 =? 0) with false by lia. apply N.lor_0_r. }
      assert (Heq : forall pf1 pf2, (forall i, tb (hash_bits t h) i = true -> tb pf1 i = false /\ tb pf2 i = false) ->
        forall f o, ht_val f t o (hash_bits t h) pf1 = ht_val f t o (hash_bits t h) pf2).
      { intros pf1 pf2 Hpf. assert (Hid : forall pf, (forall i, tb (hash_bits t h) i = true -> tb pf i = false) ->
          N.land (hash_bits t h) (not64 pf) = hash_bits t h).
        { intros pf Hi. apply N.bits_inj. intros i. rewrite N.land_spec, tb_not64.
          destruct (tb (hash_bits t h) i) eqn:E; [|reflexivity]. rewrite (Hi i E).
          destruct (N.ltb_spec i 64) as [|H64]; [reflexivity|].
          unfold hash_bits in E. rewrite !N.land_spec, (P_64 t HP i H64) in E.
          rewrite andb_false_r in E. discriminate. }
        induction f as [|f IHf]; intros o; [reflexivity|]. cbn [ht_val].
        rewrite !Hid by (intros i Hi; apply Hpf; exact Hi). rewrite IHf. reflexivity. }
      assert (Hpf : forall i, tb (hash_bits t h) i = true ->
                 tb (if d =? 0 then perf t else 0) i = false /\ tb (if d + 1 =? 0 then perf t else 0) i = false).
      { intros i Hi. unfold hash_bits in Hi. rewrite !N.land_spec, tb_not64 in Hi.
        rewrite !tb_if. destruct (tb (perf t) i); [|now rewrite !andb_false_r].
        cbn in Hi. rewrite !andb_false_r in Hi. discriminate. }
      rewrite (Heq _ (if d + 1 =? 0 then perf t else 0) Hpf).
      rewrite Hh2 in IH.
      destruct IH as [[j [Hj [Hh [Hb He]]]]|[Hb He]].
      * left. exists j. split; [lia|]. split; [exact Hh|]. split; [|exact He].
        intros j' Hj'. destruct (N.eq_dec j' d) as [->|]; [exact Eh|apply Hb; lia].
      * right. split; [|exact He]. intros j Hj. destruct (N.eq_dec j d) as [->|]; [exact Eh|apply Hb; lia].
Qed.

Definition match_at (t : ht) (obj h d : N) : bool :=
  hit t h d && cmp obj (get_raw t (g (table t) (slot t h d))).

Lemma find_from_spec t obj h z : params t -> lenN (table t) = size t -> z < size t ->
  g (table t) (slot t h z) = 0 ->
  (forall j, j < z -> g (table t) (slot t h j) <> 0) ->
  forall fuel d, d <= z -> (N.to_nat (z - d) < fuel)%nat ->
  (exists j, d <= j < z /\ match_at t obj h j = true
     /\ find_from fuel cmp t obj h
          (ht_val (rounds t) t (slot t h d) (h2_at t h d) (if d =? 0 then perf t else 0))
        = Ret (Some (get_raw t (g (table t) (slot t h j)), slot t h j)))
  \/ ((forall j, d <= j < z -> match_at t obj h j = false)
     /\ find_from fuel cmp t obj h
          (ht_val (rounds t) t (slot t h d) (h2_at t h d) (if d =? 0 then perf t else 0))
        = Ret None).
Proof.
  intros HP Hl Hz Hgz Hnz. pose proof (size_pos t) as Hn.
  induction fuel as [|fuel IH]; intros d Hd Hf; [lia|]. cbn [find_from].
  assert (Hr : (N.to_nat (z - d) < rounds t)%nat).
  { unfold rounds. unfold lenN in Hl. lia. }
  destruct (ht_val_spec t h HP Hl (rounds t) d z Hd Hr Hz Hgz ltac:(intros; apply Hnz; lia))
    as [[j [Hj [Hh [Hb He]]]]|[Hb He]]; rewrite He; cbn [obind].
  - destruct (cmp obj (get_raw t (g (table t) (slot t h j)))) eqn:Ec.
    + left. exists j. split; [exact Hj|]. unfold match_at. now rewrite Hh, Ec.
    + unfold ht_nextval, next_slot. rewrite slot_next.
      specialize (IH (j + 1) ltac:(lia) ltac:(lia)).
      replace (j + 1 =? 0) with false in IH by lia.
      replace (h2_at t h (j + 1)) with (N.lor (hash_bits t h) 0) in IH
        by (unfold h2_at; replace (j + 1 =? 0) with false by lia; reflexivity).
      destruct IH as [[j' [Hj' [Hm He']]]|[Hm He']].
      * left. exists j'. split; [lia|]. split; [exact Hm|exact He'].
      * right. split; [|exact He']. intros i Hi. destruct (N.lt_trichotomy i j) as [Hlt|[->|Hgt]].
        -- unfold match_at. now rewrite Hb by lia.
        -- unfold match_at. now rewrite Ec, andb_false_r.
        -- apply Hm. lia.
  - right. split; [|reflexivity]. intros j Hj. unfold match_at. now rewrite Hb by lia.
Qed.

(** Lookup: finds a stored element that compares equal, or there is none with
    this hash. *)
Lemma find_ok t T obj h : own t = Some T -> params t -> TOK t T -> nz T < size t ->
  (exists i, i < size t /\ valid (g T i) = true
     /\ cmp obj (get_raw t (g T i)) = true
     /\ ht_find cmp t obj h = Ret (Some (get_raw t (g T i), i)))
  \/ ((forall p, In p (elts t T) -> rehash p = h -> cmp obj p = false)
      /\ ht_find cmp t obj h = Ret None).
Proof.
  intros Ho HP [Hl HT] Hnz. pose proof (size_pos t) as Hn.
  assert (HtT : table t = T) by (unfold table; now rewrite Ho).
  destruct (exists_zero T) as [i0 [Hi0 Hg0]]; [lia|].
  pose proof (bucket_lt t h) as Hb.
  destruct (mod_surj _ _ i0 Hb ltac:(lia)) as [d0 [Hd0 Hd0']].
  destruct (least_between (fun d => g T (slot t h d) =? 0) 0 d0) as [z [Hz [Hgz Hj]]].
  { lia. } { cbv beta. unfold slot. rewrite Hd0', Hg0. reflexivity. }
  apply N.eqb_eq in Hgz.
  assert (Hnzz : forall j, j < z -> g (table t) (slot t h j) <> 0).
  { intros j Hjz. rewrite HtT. apply N.eqb_neq. apply Hj. lia. }
  assert (Hlt : lenN (table t) = size t) by now rewrite HtT.
  assert (Hgzt : g (table t) (slot t h z) = 0) by now rewrite HtT.
  assert (Hfu : (N.to_nat (z - 0) < rounds t)%nat).
  { unfold rounds. unfold lenN in Hlt. lia. }
  destruct (find_from_spec t obj h z HP Hlt ltac:(lia) Hgzt Hnzz (rounds t) 0 ltac:(lia) Hfu) as [[j [Hjz [Hm He]]]|[Hm He]];
    rewrite HtT in *; rewrite slot_0 in He;
    unfold h2_at in He; rewrite N.eqb_refl in He; fold (ht_firstval t h) in He; fold (ht_find cmp t obj h) in He.
  - left. exists (slot t h j). unfold match_at, hit in Hm. rewrite HtT in Hm. fold (slot t h j) in Hm.
    apply andb_true_iff in Hm as [Hm1 Hm2]. apply andb_true_iff in Hm1 as [Hm1 _].
    split; [apply N.mod_lt; lia|]. auto.
  - right. split; [|exact He]. intros p Hp Hh. apply in_elts in Hp as [i [Hi [Hv Hr]]].
    destruct (HT i ltac:(lia) Hv) as [q [d [Hq [Hd [Hid [Hg Hpath]]]]]].
    assert (q = p) by (rewrite <- Hr, Hg; symmetry; now apply raw_enc). subst q. rewrite Hh in *.
    assert (Hdz : d < z).
    { destruct (N.lt_trichotomy d z) as [|[->|Hgt]]; [assumption| |].
      - fold (slot t h z) in Hid. rewrite <- Hid in Hgz. rewrite Hgz in Hv. discriminate.
      - exfalso. apply (Hpath z Hgt). exact Hgz. }
    specialize (Hm d ltac:(lia)). unfold match_at, hit in Hm. rewrite HtT in Hm.
    unfold slot in Hm. rewrite <- Hid, Hv, Hr in Hm. rewrite Hg, extra_enc in Hm by exact HP.
    rewrite Hh in Hm. unfold h2_at in Hm. rewrite N.eqb_refl in Hm. exact Hm.
Qed.

(** ** Growing *)
Lemma g_repeat n i : g (repeat 0 n) i = 0.
Proof.
  unfold g. destruct (Nat.lt_ge_cases (N.to_nat i) n) as [H|H].
  - apply nth_repeat.
  - apply nth_overflow. rewrite repeat_length. lia.
Qed.
Lemma filter_repeat (f : N -> bool) n : f 0 = false -> filter f (repeat 0 n) = [].
Proof. intros H. induction n; cbn; [reflexivity|]. now rewrite H. Qed.

Lemma add_all_ok t old ps : params t ->
  Forall2 (fun e p => valid e = true -> get_raw t e = p) old ps ->
  forall T, TOK t T -> nz T = vc T ->
  (forall p, In p (map (get_raw t) (filter valid old)) -> pok t p) ->
  vc T + vc old < size t ->
  exists T', add_all rehash t T old = Ret T' /\ TOK t T' /\ nz T' = vc T'
    /\ Permutation (elts t T') (map (get_raw t) (filter valid old) ++ elts t T).
Proof.
  intros HP HF. induction HF as [|e p old ps He HF IH]; intros T HT Hnz Hpok Hc; cbn [add_all].
  - exists T. cbn. auto.
  - unfold vc in Hc. cbn [filter] in *. destruct (valid e) eqn:Ev.
    + cbn [map] in *. len.
      destruct (ht_add_ok t T (get_raw t e) HP HT) as [i [v [Hadd [Hi [Hinv [Hv [HT' Hperm]]]]]]].
      { apply Hpok. now left. } { unfold vc. lia. }
      rewrite Hadd. cbn [obind].
      assert (Hl : lenN T = size t) by apply HT.
      assert (Hvv : valid v = true) by (rewrite Hv; apply valid_enc; [exact HP|apply Hpok; now left]).
      pose proof (vc_put T i v ltac:(lia)) as Hvc. pose proof (nz_put T i v ltac:(lia)) as Hnzp.
      rewrite Hinv, Hvv in Hvc. cbn [b2n] in Hvc.
      assert (Hvnz : (v =? 0) = false) by (apply N.eqb_neq; now apply valid_nz).
      rewrite Hvnz in Hnzp. cbn [negb b2n] in Hnzp.
      assert (Hg0 : nz (put T i v) = vc (put T i v)).
      { pose proof (vc_le_nz (put T i v)). lia. }
      destruct (IH (put T i v) HT' Hg0) as [T' [Ha [HT2 [Hn2 Hp2]]]].
      { intros q Hq. apply Hpok. now right. } { unfold vc in *. lia. }
      exists T'. split; [exact Ha|]. split; [exact HT2|]. split; [exact Hn2|].
      rewrite Hp2, Hperm. cbn [app]. symmetry. apply Permutation_middle.
    + apply IH; auto.
Qed.

Definition same_mask (t t' : ht) : Prop := mask t' = mask t /\ cbits t' = cbits t.

Lemma TOK_pok t T p : params t -> TOK t T -> In p (elts t T) -> pok t p.
Proof.
  intros HP [Hl HT] Hin. apply in_elts in Hin as [i [Hi [Hv Hr]]].
  destruct (HT i ltac:(lia) Hv) as [q [d [Hq [_ [_ [Hg _]]]]]].
  rewrite Hg, raw_enc in Hr by assumption. now subst.
Qed.

Lemma elts_mask t t' T : same_mask t t' -> elts t' T = elts t T.
Proof. intros [H1 H2]. unfold elts. apply map_ext. intros e. unfold get_raw. now rewrite H1, H2. Qed.

Record WFT (t : ht) (T L : list N) : Prop := mkWFT {
  W_own : own t = Some T;
  W_bits : 1 <= bits t <= 30;
  W_maxe : maxe t = 3 * 2 ^ bits t / 4;
  W_maxd : maxd t = 9 * 2 ^ bits t / 10;
  W_par : params t;
  W_tok : TOK t T;
  W_perm : Permutation L (elts t T);
  W_el : elems t = lenN L;
  W_max : elems t <= maxe t;
  W_nz : nz T <= elems t + deleted t;
  W_del : elems t + deleted t <= maxd t }.
Definition WF (t : ht) (L : list N) : Prop := (t = ht_init /\ L = []) \/ exists T, WFT t T L.

Lemma two_le b : 1 <= b -> 2 <= 2 ^ b.
Proof. intros H. change 2 with (2 ^ 1) at 1. apply N.pow_le_mono_r; lia. Qed.
Lemma limits_lt x : 2 <= x -> 3 * x / 4 <= 9 * x / 10 /\ 9 * x / 10 < x.
Proof. intros. lia. Qed.

Lemma WFT_nz t T L : WFT t T L -> nz T < size t /\ vc T < size t.
Proof.
  intros W. destruct (limits_lt (2 ^ bits t)) as [H1 H2].
  { apply two_le. apply (W_bits _ _ _ W). }
  pose proof (W_nz _ _ _ W). pose proof (W_del _ _ _ W). pose proof (W_maxd _ _ _ W).
  pose proof (vc_le_nz T). unfold size. lia.
Qed.

Lemma double_ok t T L : WFT t T L -> elems t = maxe t -> elems t + 1 <= 3 * 2 ^ 28 ->
  exists t' T', double_table rehash true t = Ret (Some t') /\ WFT t' T' L
    /\ elems t' + 1 <= maxe t' /\ deleted t' = 0 /\ elems t' = elems t.
Proof.
  intros W He Hb.
  pose proof (W_bits _ _ _ W) as Hbits. pose proof (W_maxe _ _ _ W) as Hme.
  assert (Hb30 : bits t + 1 <= 30).
  { destruct (N.eq_dec (bits t) 30) as [E|]; [|lia]. exfalso. rewrite He, Hme, E in Hb.
    vm_compute in Hb. congruence. }
  unfold double_table. replace (31 <=? bits t + 1) with false by lia. cbn [negb].
  set (pf := if (perf t =? 0) && negb (mask t =? 0) then _ else _).
  set (b := bits t + 1) in *.
  set (t1 := mkHt b (elems t) 0 (3 * 2 ^ b / 4) (9 * 2 ^ b / 10) (mask t) (cbits t) pf None).
  assert (Hpf : forall i, tb pf i = true -> tb (mask t) i = true).
  { intros i. unfold pf. destruct ((perf t =? 0) && negb (mask t =? 0)).
    - destruct (low_bit 64 0 (mask t)) eqn:E.
      + destruct (low_bit_spec _ _ _ _ E) as [j [-> [Hj _]]]. rewrite tb_pow2.
        destruct (N.eqb_spec i j) as [->|]; congruence.
      + apply (P_perf _ (W_par _ _ _ W)).
    - apply (P_perf _ (W_par _ _ _ W)). }
  assert (HP : params t1).
  { destruct (W_par _ _ _ W) as [A B C D]. constructor; auto. }
  assert (Hraw : forall e, get_raw t1 e = get_raw t e) by reflexivity.
  assert (H2 : 2 <= 2 ^ bits t) by (apply two_le; lia).
  assert (Hsz : 2 ^ b = 2 * 2 ^ bits t) by (unfold b; rewrite N.add_1_r, N.pow_succ_r'; reflexivity).
  rewrite (W_own _ _ _ W).
  destruct (add_all_ok t1 T (map (get_raw t1) T) HP) with (T := repeat 0 (N.to_nat (2 ^ b)))
    as [T' [Ha [HT' [Hn' Hp']]]].
  - clear. induction T; cbn; constructor; auto.
  - split; [unfold lenN; rewrite repeat_length; unfold size; cbn [bits t1]; lia|].
    intros i Hi Hv. rewrite g_repeat in Hv. discriminate.
  - unfold nz, vc. now rewrite !filter_repeat.
  - intros p Hp. destruct (TOK_pok t T p (W_par _ _ _ W) (W_tok _ _ _ W) Hp) as [A B]. split; auto.
  - destruct (WFT_nz _ _ _ W) as [_ Hv]. unfold vc at 1. rewrite filter_repeat by reflexivity. len.
    unfold size in *. cbn [bits t1]. lia.
  - rewrite Ha. cbn [obind].
    assert (Hp2 : Permutation (elts t1 T') (elts t T)).
    { rewrite Hp'. unfold elts at 1. rewrite filter_repeat by reflexivity. cbn [map].
      rewrite app_nil_r. reflexivity. }
    assert (Hvc : vc T' = lenN L).
    { rewrite <- (lenN_elts t1). unfold lenN. f_equal. apply Permutation_length.
      rewrite Hp2. symmetry. apply (W_perm _ _ _ W). }
    pose proof (limits_lt (2 ^ b)) as Hlim.
    eexists _, T'. split; [reflexivity|].
    pose proof (W_el _ _ _ W) as Hel.
    split; [constructor; cbn [own bits maxe maxd elems deleted]; auto|].
    + lia.
    + destruct HP as [A B C D]. constructor; auto.
    + rewrite (W_perm _ _ _ W), <- Hp2. reflexivity.
    + lia.
    + lia.
    + lia.
    + cbn [elems maxe deleted]. split; [lia|auto].
Qed.

(** ** Rehashing in place *)
Lemma find_empty_ok T : forall i, nz T < lenN T ->
  exists j, find_empty T i = Ret (i + j) /\ j < lenN T /\ g T j = 0.
Proof.
  induction T as [|x T IH]; intros i H; [unfold nz in H; cbn [filter] in H; len; lia|]. cbn [find_empty].
  destruct (N.eqb_spec x 0) as [->|Hx].
  - exists 0. rewrite N.add_0_r. len. repeat split; auto. lia.
  - destruct (IH (i + 1)) as [j [Hf [Hj Hg]]].
    { unfold nz in *. cbn [filter] in H. apply N.eqb_neq in Hx. rewrite Hx in H. cbn [negb] in H. len. lia. }
    exists (j + 1). rewrite Hf. split; [f_equal; lia|]. len. split; [lia|].
    unfold g in *. replace (N.to_nat (j + 1)) with (S (N.to_nat j)) by lia. exact Hg.
Qed.

Section Rehash.
  Context (t : ht) (start : N) (Hs : start < size t) (HP : params t).
  Let n := size t.
  Let pos (j : N) := (start + j) mod n.

  Record RInv (T L : list N) (i : N) : Prop := mkR {
    R_len : lenN T = n;
    R_done : forall j, j < i -> j < n -> g T (pos j) = 0 \/ valid (g T (pos j)) = true;
    R_ent : forall j, j < n -> valid (g T (pos j)) = true ->
      exists p jb, pok t p /\ jb <= j /\ hash_bucket t (rehash p) = pos jb
        /\ g T (pos j) = enc t p (jb =? j)
        /\ (j < i -> forall j', jb <= j' < j -> g T (pos j') <> 0);
    R_perm : Permutation (elts t T) L }.

  Lemma pos_lt j : pos j < n.
  Proof. apply N.mod_lt. pose proof (size_pos t). unfold n. lia. Qed.
  Lemma pos_inj a b : a < n -> b < n -> pos a = pos b -> a = b.
  Proof. apply mod_inj. exact Hs. Qed.
  Lemma pos_eqb a b : a < n -> b < n -> (pos a =? pos b) = (a =? b).
  Proof.
    intros Ha Hb. destruct (N.eqb_spec a b) as [->|H]; [apply N.eqb_refl|].
    apply N.eqb_neq. intros E. apply H. now apply pos_inj.
  Qed.

  Lemma rehash_init T : TOK t T -> g T start = 0 -> RInv T (elts t T) 0.
  Proof.
    intros [Hl HT] Hg0. assert (Hsm : start mod n = start) by (apply N.mod_small; exact Hs).
    constructor; auto.
    - intros; lia.
    - intros j Hj Hv. destruct (HT (pos j) (pos_lt j) Hv) as [p [d [Hp [Hd [Hpos [Hg Hpath]]]]]].
      destruct (mod_surj n start (hash_bucket t (rehash p)) Hs (bucket_lt _ _)) as [jb [Hjb Hjb']].
      fold (pos jb) in Hjb'.
      assert (Hnn : n <> 0) by (unfold n; pose proof (size_pos t); lia).
      assert (Hpj : pos j = pos (jb + d)).
      { rewrite Hpos, <- Hjb'. unfold pos. fold n. apply mod_shift. exact Hnn. }
      assert (Hcase : jb + d = j \/ (jb + d = j + n /\ jb + d >= n)).
      { destruct (N.lt_ge_cases (jb + d) n) as [H|H].
        - left. symmetry. now apply pos_inj.
        - right. split; [|lia]. assert (Hx : pos (jb + d) = pos (jb + d - n)).
          { unfold pos. replace (start + (jb + d)) with (start + (jb + d - n) + 1 * n) by lia.
            apply N.mod_add. exact Hnn. }
          rewrite Hx in Hpj. apply pos_inj in Hpj; [lia|exact Hj|lia]. }
      destruct Hcase as [Hc|[Hc _]].
      + exists p, jb. split; [exact Hp|]. split; [lia|]. split; [symmetry; exact Hjb'|].
        split; [rewrite Hg; f_equal; lia|]. intros; lia.
      + exfalso. destruct (N.eq_dec j 0) as [->|Hj0].
        * unfold pos in Hv. rewrite N.add_0_r, Hsm, Hg0 in Hv. discriminate.
        * apply (Hpath (n - jb)); [lia|]. rewrite <- Hjb'. unfold pos. fold n.
          rewrite mod_shift by exact Hnn. replace (start + (jb + (n - jb))) with (start + 1 * n) by lia.
          rewrite N.mod_add, Hsm by exact Hnn. exact Hg0.
  Qed.

  Lemma rehash_step T L i : i < n -> RInv T L i ->
    exists T', rehash_one rehash t T (pos i) = Ret T' /\ RInv T' L (i + 1).
  Proof.
    intros Hi HR. pose proof (pos_lt i) as Hpi. pose proof (R_len _ _ _ HR) as Hl.
    unfold rehash_one. rewrite rd_ok by lia. cbn [obind].
    destruct (valid_or (g T (pos i))) as [E|[E|E]].
    - rewrite E. cbn. exists T. split; [reflexivity|]. destruct HR as [_ Hd He Hp]. constructor; auto.
      + intros j Hj Hjn. destruct (N.eq_dec j i) as [->|]; [now left|apply Hd; lia].
      + intros j Hj Hv. destruct (N.eq_dec j i) as [->|Hji]; [rewrite E in Hv; discriminate|].
        destruct (He j Hj Hv) as [p [jb [A [B [C [D F]]]]]]. exists p, jb. do 4 (split; [assumption|]).
        intros Hji1. apply F. lia.
    - rewrite E. cbn. rewrite wr_ok by lia. eexists. split; [reflexivity|].
      assert (Hgp : forall j, j < n -> g (put T (pos i) 0) (pos j) = if j =? i then 0 else g T (pos j)).
      { intros j Hj. rewrite g_put by lia. now rewrite pos_eqb. }
      destruct HR as [_ Hd He Hp]. constructor.
      + rewrite lenN_put; lia.
      + intros j Hj Hjn. rewrite Hgp by exact Hjn. destruct (N.eqb_spec j i); [now left|]. apply Hd; lia.
      + intros j Hj. rewrite Hgp by exact Hj. destruct (N.eqb_spec j i) as [->|Hji]; [discriminate|].
        intros Hv. destruct (He j Hj Hv) as [p [jb [A [B [C [D F]]]]]]. exists p, jb. do 4 (split; [assumption|]).
        intros Hji1 j' Hj'. rewrite Hgp by lia. replace (j' =? i) with false by lia. apply F; lia.
      + rewrite <- Hp. unfold elts. replace (filter valid (put T (pos i) 0)) with (filter valid T); [reflexivity|].
        rewrite (split_at T (pos i)) at 1 by lia. unfold put. rewrite !filter_app. cbn [filter].
        rewrite E. reflexivity.
    - pose proof (valid_nz _ E) as En. apply N.eqb_neq in En. rewrite En.
      assert (Ed : (g T (pos i) =? DELETED) = false) by (unfold valid, DELETED in *; lia). rewrite Ed.
      destruct (R_ent _ _ _ HR i Hi E) as [p [jb [Hp [Hjb [Hbk [Hg _]]]]]].
      destruct (N.eqb_spec (N.land (g T (pos i)) (perf t)) 0) as [Enp|Ep].
      + (* not perfect: moved *)
        rewrite Hg, raw_enc by assumption. rewrite wr_ok by lia. cbn [obind].
        set (T1 := put T (pos i) 0).
        assert (Hl1 : lenN T1 = size t) by (unfold T1; rewrite lenN_put; unfold n in *; lia).
        assert (Hgp : forall j, j < n -> g T1 (pos j) = if j =? i then 0 else g T (pos j)).
        { intros j Hj. unfold T1. rewrite g_put by lia. now rewrite pos_eqb. }
        assert (Hv1 : valid (g T1 (pos i)) = false) by (rewrite Hgp, N.eqb_refl by lia; reflexivity).
        assert (Hnn : n <> 0) by (unfold n; pose proof (size_pos t); lia).
        assert (Hsl : forall z, jb + z < n -> (hash_bucket t (rehash p) + z) mod size t = pos (jb + z)).
        { intros z Hz. rewrite Hbk. unfold pos. fold n. now apply mod_shift. }
        destruct (ht_add_run t T1 p (rehash p) (pos i) Hl1 Hpi Hv1) as [z [Hz [Hiv [Hpa Hrun]]]].
        assert (Hzi : z <= i - jb).
        { destruct (N.le_gt_cases z (i - jb)) as [|Hgt]; [assumption|]. exfalso.
          specialize (Hpa (i - jb) Hgt). rewrite Hsl in Hpa by lia.
          replace (jb + (i - jb)) with i in Hpa by lia. congruence. }
        rewrite Hsl in Hiv, Hrun by lia. rewrite Hrun. fold (enc t p (z =? 0)).
        eexists. split; [reflexivity|]. set (j1 := jb + z) in *.
        assert (Hj1 : j1 < n) by (unfold j1; lia).
        assert (Hge : forall j, j < n -> g (put T1 (pos j1) (enc t p (z =? 0))) (pos j)
                     = if j =? j1 then enc t p (z =? 0) else if j =? i then 0 else g T (pos j)).
        { intros j Hj. rewrite g_put by (pose proof (pos_lt j1); unfold n in *; lia).
          rewrite pos_eqb, Hgp by assumption. reflexivity. }
        pose proof (valid_enc t p (z =? 0) HP Hp) as Hve.
        destruct HR as [_ Hd He HL]. constructor.
        * rewrite lenN_put by (pose proof (pos_lt j1); unfold n in *; lia). exact Hl1.
        * intros j Hj Hjn. rewrite Hge by exact Hjn. destruct (N.eqb_spec j j1); [now right|].
          destruct (N.eqb_spec j i); [now left|]. apply Hd; lia.
        * intros j Hj. rewrite Hge by exact Hj. destruct (N.eqb_spec j j1) as [->|Hjj1].
          -- intros _. exists p, jb. split; [exact Hp|]. split; [unfold j1; lia|]. split; [exact Hbk|].
             split; [f_equal; unfold j1; lia|]. intros _ j' Hj'. rewrite Hge by lia.
             replace (j' =? j1) with false by lia.
             assert (Hv' : valid (g T1 (pos j')) = true).
             { specialize (Hpa (j' - jb) ltac:(unfold j1 in *; lia)). rewrite Hsl in Hpa by lia.
               replace (jb + (j' - jb)) with j' in Hpa by lia. exact Hpa. }
             rewrite Hgp in Hv' by lia. destruct (N.eqb_spec j' i); [discriminate|]. now apply valid_nz.
          -- destruct (N.eqb_spec j i) as [->|Hji]; [discriminate|]. intros Hv.
             destruct (He j Hj Hv) as [q [qb [A [B [C [D F]]]]]]. exists q, qb. do 4 (split; [assumption|]).
             intros Hji1 j' Hj'. rewrite Hge by lia.
             destruct (N.eqb_spec j' j1); [now apply valid_nz|].
             replace (j' =? i) with false by lia. apply F; lia.
        * assert (Hrem : Permutation (elts t T) (p :: elts t T1)).
          { unfold T1. rewrite (elts_put_del t T (pos i) 0) at 1 by (auto; lia).
            rewrite Hg, raw_enc by assumption. reflexivity. }
          rewrite elts_put_add by (auto; pose proof (pos_lt j1); unfold n in *; lia).
          rewrite raw_enc by assumption. rewrite <- Hrem. exact HL.
      + (* perfect: stays *)
        assert (Hown : jb = i).
        { destruct (N.eqb_spec jb i) as [|Hne]; [assumption|]. exfalso. apply Ep.
          rewrite Hg. apply N.bits_inj. intros x. rewrite N.bits_0. bits.
          pose proof (P_perf t HP x) as H1. destruct (tb (perf t) x); [|now rewrite andb_false_r].
          rewrite (H1 eq_refl). cbn. rewrite !andb_false_r. reflexivity. }
        exists T. split; [reflexivity|]. subst jb. destruct HR as [_ Hd He HL]. constructor; auto.
        * intros j Hj Hjn. destruct (N.eq_dec j i) as [->|]; [now right|apply Hd; lia].
        * intros j Hj Hv. destruct (N.eq_dec j i) as [->|Hji].
          -- exists p, i. split; [exact Hp|]. split; [lia|]. split; [exact Hbk|]. split; [exact Hg|]. intros; lia.
          -- destruct (He j Hj Hv) as [q [qb [A [B [C [D F]]]]]]. exists q, qb. do 4 (split; [assumption|]).
             intros Hji1. apply F. lia.
  Qed.

  Lemma rehash_steps L : forall m i T, N.of_nat m + i = n -> RInv T L i ->
    exists T', rehash_loop rehash t T start i m = Ret T' /\ RInv T' L n.
  Proof.
    induction m as [|m IH]; intros i T Hm HR; cbn [rehash_loop].
    - exists T. split; [reflexivity|]. replace n with i by lia. exact HR.
    - rewrite land_mask. fold n. replace (i + start) with (start + i) by lia. fold (pos i).
      destruct (rehash_step T L i ltac:(lia) HR) as [T1 [Hr HR1]]. rewrite Hr. cbn [obind].
      apply IH; [lia|exact HR1].
  Qed.

  Lemma RInv_TOK T L : RInv T L n -> TOK t T.
  Proof.
    intros HR. split; [apply (R_len _ _ _ HR)|]. intros i Hi Hv.
    destruct (mod_surj n start i Hs Hi) as [j [Hj Hji]]. fold (pos j) in Hji. subst i.
    destruct (R_ent _ _ _ HR j Hj Hv) as [p [jb [Hp [Hjb [Hbk [Hg Hpath]]]]]].
    assert (Hnn : n <> 0) by (unfold n; pose proof (size_pos t); lia).
    exists p, (j - jb). split; [exact Hp|]. split; [unfold n in *; lia|]. rewrite Hbk. split.
    - unfold pos. fold n. rewrite mod_shift by exact Hnn. do 2 f_equal. lia.
    - split; [rewrite Hg; f_equal; lia|]. intros d Hd.
      replace ((pos jb + d) mod size t) with (pos (jb + d)) by (unfold pos; fold n; symmetry; now apply mod_shift).
      apply Hpath; lia.
  Qed.

  Lemma RInv_nz T L : RInv T L n -> nz T = lenN L.
  Proof.
    intros HR. assert (Hnv : nz T = vc T).
    { unfold nz, vc. f_equal. apply filter_ext_in. intros x Hx.
      apply (In_nth _ _ 0) in Hx as [m [Hm Hmx]].
      pose proof (R_len _ _ _ HR) as Hl. unfold lenN in Hl.
      destruct (mod_surj n start (N.of_nat m) Hs ltac:(lia)) as [j [Hj Hjm]]. fold (pos j) in Hjm.
      pose proof (R_done _ _ _ HR j Hj Hj) as Hd. rewrite Hjm in Hd. unfold g in Hd.
      rewrite Nat2N.id, Hmx in Hd. destruct Hd as [->|Hv]; [reflexivity|].
      rewrite Hv. apply valid_nz in Hv. apply N.eqb_neq in Hv. now rewrite Hv. }
    rewrite Hnv, <- (lenN_elts t). unfold lenN. f_equal. apply Permutation_length. apply (R_perm _ _ _ HR).
  Qed.
End Rehash.

Lemma rehash_ok t T L : WFT t T L -> elems t + 1 <= maxe t ->
  exists t' T', rehash_table rehash t = Ret t' /\ WFT t' T' L
    /\ elems t' + 1 <= maxe t' /\ deleted t' = 0 /\ elems t' = elems t.
Proof.
  intros W Hmax. destruct (WFT_nz _ _ _ W) as [Hnz _].
  pose proof (W_tok _ _ _ W) as HT. pose proof (proj1 HT) as Hl.
  unfold rehash_table. assert (HtT : table t = T) by (unfold table; now rewrite (W_own _ _ _ W)).
  rewrite HtT. destruct (find_empty_ok T 0) as [s [Hf [Hs Hg]]]; [lia|].
  rewrite Hf, N.add_0_l. cbn [obind]. rewrite Hl in Hs.
  pose proof (rehash_init t s Hs T HT Hg) as HR.
  destruct (rehash_steps t s Hs (W_par _ _ _ W) (elts t T) (N.to_nat (size t)) 0 T) as [T' [Hr HR']]; [lia|exact HR|].
  rewrite Hr. cbn [obind]. eexists _, T'. split; [reflexivity|].
  pose proof (RInv_TOK t s Hs T' _ HR') as HT'.
  pose proof (RInv_nz t s Hs T' _ HR') as Hn'.
  rewrite lenN_elts in Hn'.
  assert (Hvc : vc T = lenN L).
  { rewrite <- (lenN_elts t). unfold lenN. f_equal. apply Permutation_length. symmetry. apply (W_perm _ _ _ W). }
  destruct (limits_lt (2 ^ bits t)) as [H1 H2].
  { apply two_le. apply (W_bits _ _ _ W). }
  pose proof (W_maxd _ _ _ W). pose proof (W_maxe _ _ _ W). pose proof (W_el _ _ _ W).
  split; [|cbn [elems maxe deleted]; auto].
  destruct W as [w1 w2 w3 w4 w5 w6 w7 w8 w9 w10 w11].
  constructor; cbn [own bits maxe maxd elems deleted]; auto.
  - destruct w5; constructor; auto.
  - rewrite w7. symmetry. apply (R_perm _ _ _ _ _ HR').
  - lia.
  - lia.
Qed.

(** ** Changing the common bits *)
Lemma tb_eq_and a b i : a = b -> tb a i = tb b i.
Proof. now intros ->. Qed.

Lemma update_ok t T L p : WFT t T L -> good p -> N.land p (mask t) <> cbits t ->
  elems t + 1 <= maxe t -> elems t + 1 + deleted t <= maxd t ->
  exists T', WFT (update_common t p) T' L /\ pok (update_common t p) p
    /\ elems (update_common t p) = elems t /\ deleted (update_common t p) = deleted t.
Proof.
  intros W Hp Hne Hm1 Hm2. unfold update_common.
  destruct (N.eqb_spec (elems t) 0) as [E0|E0].
  - (* empty: start over *)
    rewrite (top_bit_spec p k Hp 63) by (change (N.of_nat 63) with 63; lia).
    set (t1 := mkHt _ _ _ _ _ _ _ _ _).
    assert (HP1 : params t1).
    { constructor; cbn [t1 perf mask cbits].
      - intros i. change 1 with (2 ^ 0). rewrite tb_pow2, tb_not64, tb_pow2. intros H.
        apply N.eqb_eq in H. subst i. replace (0 =? k) with false by lia. reflexivity.
      - intros i. rewrite N.land_spec. intros H. now apply andb_true_iff in H.
      - intros i Hi. rewrite tb_not64. replace (i <? 64) with false by lia. reflexivity.
      - rewrite tb_not64, tb_pow2, N.eqb_refl. now rewrite andb_false_r. }
    assert (HLn : L = []). { apply lenN_0_nil. rewrite <- (W_el _ _ _ W). exact E0. }
    assert (Hvc : vc T = 0).
    { rewrite <- (lenN_elts t). pose proof (W_perm _ _ _ W) as Hpm. rewrite HLn in Hpm.
      apply Permutation_nil in Hpm. rewrite Hpm. reflexivity. }
    assert (Hfil : filter valid T = []) by (apply lenN_0_nil; exact Hvc).
    exists T. split; [|split; [split; [exact Hp|reflexivity]|auto]].
    destruct W as [w1 w2 w3 w4 w5 [w6 w6'] w7 w8 w9 w10 w11].
    constructor; auto.
    + split; [exact w6|]. intros i Hi Hv. exfalso.
      assert (Hin : In (g T i) (filter valid T)).
      { apply filter_In. split; [|exact Hv]. unfold g. apply nth_In. unfold lenN in w6. unfold size in *. cbn [bits t1] in Hi. lia. }
      rewrite Hfil in Hin. exact Hin.
    + rewrite HLn. unfold elts. rewrite Hfil. constructor.
  - assert (HtT : table t = T) by (unfold table; now rewrite (W_own _ _ _ W)). rewrite HtT.
    set (md := N.lxor (cbits t) (N.land p (mask t))).
    set (bd := N.land (cbits t) md).
    set (f := fun e => if valid e then N.lor (N.land e (not64 md)) bd else e).
    set (t1 := mkHt _ _ _ _ _ _ _ _ _).
    pose proof (W_par _ _ _ W) as HP.
    assert (Hmd : forall i, tb md i = xorb (tb (cbits t) i) (tb p i && tb (mask t) i)).
    { intros i. unfold md. now rewrite N.lxor_spec, N.land_spec. }
    assert (Hbd : forall i, tb bd i = tb (cbits t) i && tb md i).
    { intros i. unfold bd. apply N.land_spec. }
    assert (HP1 : params t1).
    { constructor; cbn [t1 perf mask cbits].
      - intros i. rewrite !N.land_spec. intros H. apply andb_true_iff in H as [H1 H2].
        rewrite (P_perf t HP i H1), H2. reflexivity.
      - intros i. rewrite !N.land_spec. intros H. apply andb_true_iff in H as [H1 H2].
        rewrite (P_cb t HP i H1), H2. reflexivity.
      - intros i Hi. rewrite N.land_spec, (P_64 t HP i Hi). reflexivity.
      - rewrite N.land_spec, (P_k t HP). reflexivity. }
    assert (Hpk1 : forall q, pok t q -> pok t1 q).
    { intros q Hq. split; [apply Hq|]. apply N.bits_inj. intros i. cbn [t1 mask cbits].
      rewrite !N.land_spec. pose proof (pok_bit t q i Hq) as Hb. rewrite Hb.
      destruct (tb q i), (tb (mask t) i), (tb (not64 md) i); reflexivity. }
    assert (Henc : forall q o, pok t q -> f (enc t q o) = enc t1 q o).
    { intros q o Hq. unfold f. rewrite valid_enc by assumption. apply N.bits_inj. intros i.
      rewrite N.lor_spec, N.land_spec, Hbd. unfold enc, make_hval, hash_bits. cbn [t1 bits mask perf].
      rewrite ?N.lor_spec, ?N.land_spec, ?tb_not64, ?tb_if, ?N.land_spec, ?tb_not64.
      pose proof (pok_bit t q i Hq) as Hb. pose proof (P_perf t HP i) as H1. pose proof (P_64 t HP i) as H3.
      pose proof (P_cb t HP i) as H4.
      destruct (N.ltb_spec i 64) as [Hi|Hi].
      - rewrite Hmd, Hb.
        destruct (tb (mask t) i), (tb (perf t) i), (tb q i), (tb p i), o, (tb (N.lxor (rehash q) (N.shiftr (rehash q) (bits t))) i);
        cbn in *; try reflexivity; try (specialize (H1 eq_refl); discriminate); try congruence.
      - rewrite (good_64 q i (proj1 Hq) Hi) in *. rewrite (H3 Hi) in *. rewrite Hb. cbn.
        rewrite ?andb_false_r. reflexivity. }
    assert (Hgm : forall i, g (map f T) i = f (g T i)).
    { intros i. unfold g. change 0 with (f 0) at 1. apply map_nth. }
    assert (Hplaced : forall i, i < size t -> valid (g T i) = true ->
        exists q o, pok t q /\ g T i = enc t q o).
    { intros i Hi Hv. destruct (proj2 (W_tok _ _ _ W) i Hi Hv) as [q [d [A [_ [_ [B _]]]]]]. eauto. }
    assert (Hl : lenN T = size t) by apply (W_tok _ _ _ W).
    assert (Hvalid : forall i, i < size t -> valid (f (g T i)) = valid (g T i)).
    { intros i Hi. destruct (valid (g T i)) eqn:Ev; [|unfold f; now rewrite Ev, Ev].
      destruct (Hplaced i Hi Ev) as [q [o [Hq He]]]. rewrite He, Henc by exact Hq. apply valid_enc; auto. }
    assert (Hnzf : forall i, i < size t -> (f (g T i) =? 0) = (g T i =? 0)).
    { intros i Hi. pose proof (Hvalid i Hi) as Hv. destruct (valid (g T i)) eqn:Ev.
      - apply valid_nz in Hv. apply valid_nz in Ev. apply N.eqb_neq in Hv, Ev. now rewrite Hv, Ev.
      - unfold f. now rewrite Ev. }
    assert (HTin : forall x, In x T -> exists i, i < size t /\ g T i = x).
    { intros x Hx. apply (In_nth _ _ 0) in Hx as [m [Hm Hmx]]. exists (N.of_nat m).
      unfold lenN in Hl. unfold g. rewrite Nat2N.id. split; [lia|exact Hmx]. }
    assert (Helts : elts t1 (map f T) = elts t T).
    { assert (HTv : forall x, In x T -> valid x = true -> exists q o, pok t q /\ x = enc t q o).
      { intros x Hx Hv. destruct (HTin x Hx) as [i [Hi Hgi]]. subst x. now apply Hplaced. }
      assert (Hgen : forall U, (forall x, In x U -> valid x = true -> exists q o, pok t q /\ x = enc t q o) ->
        elts t1 (map f U) = elts t U).
      { induction U as [|x U IH]; intros HU; [reflexivity|].
        unfold elts in *. cbn [map filter]. destruct (valid x) eqn:Ev.
        - destruct (HU x (or_introl eq_refl) Ev) as [q [o [Hq ->]]]. rewrite Henc by exact Hq.
          rewrite valid_enc by auto. cbn [map]. rewrite !raw_enc by auto. f_equal. apply IH.
          intros y Hy. apply HU. now right.
        - unfold f at 1. rewrite Ev, Ev. apply IH. intros y Hy. apply HU. now right. }
      now apply Hgen. }
    assert (Hnz : nz (map f T) = nz T).
    { unfold nz. assert (Hn0 : forall x, In x T -> (f x =? 0) = (x =? 0)).
      { intros x Hx. destruct (HTin x Hx) as [i [Hi Hgi]]. subst x. now apply Hnzf. }
      revert Hn0. generalize T as U. clear. induction U as [|x U IH]; intros Hn0; [reflexivity|]. cbn [map filter].
      rewrite Hn0 by now left. destruct (x =? 0); cbn [negb]; len; rewrite ?IH; auto; intros; apply Hn0; now right. }
    exists (map f T). split; [|split; [|auto]].
    + destruct W as [w1 w2 w3 w4 w5 [w6 w6'] w7 w8 w9 w10 w11]. constructor; auto.
      * split; [len; exact w6|]. intros i Hi Hv. rewrite Hgm, Hvalid in Hv by exact Hi.
        destruct (w6' i Hi Hv) as [q [d [A [B [C [D F]]]]]]. exists q, d.
        split; [now apply Hpk1|]. split; [exact B|]. split; [exact C|].
        split; [rewrite Hgm, D; now apply Henc|]. intros j Hj. rewrite Hgm.
        apply N.eqb_neq. rewrite Hnzf; [apply N.eqb_neq, F, Hj|]. apply N.mod_lt. pose proof (size_pos t). unfold size in *. cbn [bits t1]. lia.
      * rewrite Helts. exact w7.
      * rewrite Hnz. exact w10.
    + split; [exact Hp|]. apply N.bits_inj. intros i. cbn [t1 mask cbits].
      rewrite !N.land_spec, tb_not64, Hmd. pose proof (P_cb t HP i) as H4. pose proof (P_64 t HP i) as H3.
      destruct (N.ltb_spec i 64) as [Hi|Hi].
      * destruct (tb (cbits t) i), (tb p i), (tb (mask t) i); cbn in *; try reflexivity; specialize (H4 eq_refl); discriminate.
      * rewrite (H3 Hi) in *. destruct (tb (cbits t) i); [specialize (H4 eq_refl); discriminate|].
        cbn. rewrite ?andb_false_r. reflexivity.
Qed.

(** ** Operations *)
Lemma finish_add t T L p : WFT t T L -> pok t p -> elems t + 1 <= maxe t ->
  elems t + 1 + deleted t <= maxd t ->
  exists T', ht_add t (table t) p (rehash p) = Ret T'
    /\ WFT (mkHt (bits t) (elems t + 1) (deleted t) (maxe t) (maxd t) (mask t) (cbits t) (perf t) (Some T'))
           T' (p :: L).
Proof.
  intros W Hp H1 H2. assert (HtT : table t = T) by (unfold table; now rewrite (W_own _ _ _ W)).
  rewrite HtT. destruct (WFT_nz _ _ _ W) as [_ Hv].
  destruct (ht_add_ok t T p (W_par _ _ _ W) (W_tok _ _ _ W) Hp Hv) as [i [v [Hadd [Hi [Hinv [Hve [HT' Hperm]]]]]]].
  exists (put T i v). split; [exact Hadd|].
  pose proof (proj1 (W_tok _ _ _ W)) as Hl.
  pose proof (nz_put T i v ltac:(lia)) as Hnz.
  assert (Hb : b2n (negb (v =? 0)) <= 1) by (destruct (v =? 0); cbn; lia).
  destruct W as [w1 w2 w3 w4 w5 w6 w7 w8 w9 w10 w11]. constructor; cbn [own bits maxe maxd elems deleted]; auto.
  - destruct w5; constructor; auto.
  - rewrite w7. symmetry. exact Hperm.
  - len. lia.
  - lia.
Qed.

Lemma insert_ok t L p ok : WF t L -> good p -> lenN L + 1 <= 3 * 2 ^ 28 ->
  (exists t', ht_insert rehash ok t p (rehash p) = Ret (true, t') /\ WF t' (p :: L))
  \/ (ok = false /\ ht_insert rehash ok t p (rehash p) = Ret (false, t)).
Proof.
  intros HW Hp Hmax. pose proof (good_nz p Hp) as Hp0. apply N.eqb_neq in Hp0.
  assert (Hfin : forall t1 T1, WFT t1 T1 L -> elems t1 + 1 <= maxe t1 -> elems t1 + 1 + deleted t1 <= maxd t1 ->
    exists t', (let t2 := if N.land p (mask t1) =? cbits t1 then t1 else update_common t1 p in
      let* T := ht_add t2 (table t2) p (rehash p) in
      Ret (true, mkHt (bits t2) (elems t2 + 1) (deleted t2) (maxe t2) (maxd t2)
                        (mask t2) (cbits t2) (perf t2) (Some T))) = Ret (true, t') /\ WF t' (p :: L)).
  { intros t1 T1 W H1 H2. destruct (N.eqb_spec (N.land p (mask t1)) (cbits t1)) as [E|E].
    - destruct (finish_add t1 T1 L p W (conj Hp E) H1 H2) as [T' [Ha W']]. cbv zeta. rewrite Ha. cbn [obind].
      eexists. split; [reflexivity|]. right. eauto.
    - destruct (update_ok t1 T1 L p W Hp E H1 H2) as [T2 [W2 [Hp2 [He2 Hd2]]]].
      assert (Hmx : maxe (update_common t1 p) = maxe t1 /\ maxd (update_common t1 p) = maxd t1)
        by (unfold update_common; destruct (elems t1 =? 0); split; reflexivity).
      destruct (finish_add _ T2 L p W2 Hp2) as [T' [Ha W']]; [lia|lia|].
      cbv zeta. rewrite Ha. cbn [obind]. eexists. split; [reflexivity|]. right. eauto. }
  unfold ht_insert, htable_add. destruct HW as [[-> ->]|[T W]].
  - (* first insertion *)
    destruct ok; [|right; split; reflexivity]. left.
    change (maxe ht_init <? elems ht_init + 1) with true. cbv iota.
    replace (double_table rehash true ht_init)
      with (Ret (Some (mkHt 1 0 0 1 1 ones64 0 1 (Some [0; 0])))) by (vm_compute; reflexivity).
    cbn [obind]. change (maxd _ <? _) with false. cbv iota. cbn [obind]. rewrite Hp0.
    cbn [mask cbits].
    assert (Hpm : (N.land p ones64 =? 0) = false).
    { apply N.eqb_neq. intros E. apply (tb_eq_and _ _ k) in E.
      rewrite N.land_spec, N.bits_0, tb_ones64, (tb_top p k Hp) in E.
      replace (k <? 64) with true in E by lia. discriminate. }
    rewrite Hpm. unfold update_common. cbn [elems]. change (0 =? 0) with true. cbv iota.
    rewrite (top_bit_spec p k Hp 63) by (change (N.of_nat 63) with 63; lia).
    cbn [bits elems deleted maxe maxd own].
    set (t1 := mkHt 1 0 0 1 1 (not64 (2 ^ k)) (N.land p (not64 (2 ^ k))) 1 (Some [0; 0])).
    assert (W1 : WFT t1 [0; 0] []).
    { constructor; cbn [t1 own bits maxe maxd elems deleted]; try reflexivity; try lia.
      - constructor; cbn [t1 perf mask cbits].
        + intros i. change 1 with (2 ^ 0). rewrite tb_pow2, tb_not64, tb_pow2. intros H.
          apply N.eqb_eq in H. subst i. replace (0 =? k) with false by lia. reflexivity.
        + intros i. rewrite N.land_spec. intros H. now apply andb_true_iff in H.
        + intros i Hi. rewrite tb_not64. replace (i <? 64) with false by lia. reflexivity.
        + rewrite tb_not64, tb_pow2, N.eqb_refl. now rewrite andb_false_r.
      - split; [reflexivity|]. intros i Hi Hv. change [0; 0] with (repeat 0 2) in Hv.
        rewrite g_repeat in Hv. discriminate.
      }
    destruct (finish_add t1 [0; 0] [] p W1) as [T' [Ha W']].
    { split; [exact Hp|reflexivity]. } { cbn. lia. } { cbn. lia. }
    rewrite Ha. cbn [obind]. eexists. split; [reflexivity|]. right. eauto.
  - pose proof (W_el _ _ _ W) as Hel. pose proof (W_max _ _ _ W) as Hme.
    destruct (N.ltb_spec (maxe t) (elems t + 1)) as [Hd|Hd].
    + destruct ok.
      * left. destruct (double_ok t T L W ltac:(lia) ltac:(lia)) as [t1 [T1 [Hdb [W1 [H1 [H2 H3]]]]]].
        rewrite Hdb. cbn [obind].
        pose proof (W_maxe _ _ _ W1). pose proof (W_maxd _ _ _ W1).
        destruct (limits_lt (2 ^ bits t1)) as [H4 H5]; [apply two_le; apply (W_bits _ _ _ W1)|].
        replace (maxd t1 <? elems t1 + 1 + deleted t1) with false by lia. cbn [obind]. rewrite Hp0.
        apply (Hfin t1 T1 W1); lia.
      * right. split; [reflexivity|]. unfold double_table.
        pose proof (W_bits _ _ _ W) as Hbits.
        assert (Hb30 : bits t + 1 <= 30).
        { destruct (N.eq_dec (bits t) 30) as [E|]; [|lia]. exfalso.
          assert (Hmm : maxe t = 3 * 2 ^ 28) by (rewrite (W_maxe _ _ _ W), E; vm_compute; reflexivity). lia. }
        replace (31 <=? bits t + 1) with false by lia. reflexivity.
    + left. cbn [obind]. destruct (N.ltb_spec (maxd t) (elems t + 1 + deleted t)) as [Hr|Hr].
      * destruct (rehash_ok t T L W Hd) as [t1 [T1 [Hrh [W1 [H1 [H2 H3]]]]]]. rewrite Hrh. cbn [obind]. rewrite Hp0.
        pose proof (W_maxe _ _ _ W1). pose proof (W_maxd _ _ _ W1).
        destruct (limits_lt (2 ^ bits t1)) as [H4 H5]; [apply two_le; apply (W_bits _ _ _ W1)|].
        apply (Hfin t1 T1 W1); lia.
      * cbn [obind]. rewrite Hp0. apply (Hfin t T W); lia.
Qed.

Lemma find_init obj h : ht_find cmp ht_init obj h = Ret None.
Proof.
  unfold ht_find, ht_firstval, hash_bucket. change (size ht_init - 1) with 0. rewrite N.land_0_r. reflexivity.
Qed.

Lemma lookup_ok t L obj h : WF t L ->
  (exists p, ht_lookup cmp t obj h = Ret (Some p) /\ In p L /\ cmp obj p = true)
  \/ (ht_lookup cmp t obj h = Ret None /\ forall p, In p L -> rehash p = h -> cmp obj p = false).
Proof.
  intros [[-> ->]|[T W]]; unfold ht_lookup.
  - rewrite find_init. right. split; [reflexivity|]. intros p [].
  - destruct (WFT_nz _ _ _ W) as [Hnz _].
    destruct (find_ok t T obj h (W_own _ _ _ W) (W_par _ _ _ W) (W_tok _ _ _ W) Hnz) as [[i [Hi [Hv [Hc He]]]]|[Hn He]];
      rewrite He; cbn [obind option_map fst].
    + left. eexists. split; [reflexivity|]. split; [|exact Hc].
      eapply Permutation_in; [symmetry; apply (W_perm _ _ _ W)|]. apply elts_in; [|exact Hv].
      rewrite (proj1 (W_tok _ _ _ W)). exact Hi.
    + right. split; [reflexivity|]. intros p Hp. apply Hn. eapply Permutation_in; [apply (W_perm _ _ _ W)|exact Hp].
Qed.

Lemma remove_ok t L obj h : WF t L ->
  (exists p t' L', ht_remove cmp t obj h = Ret (Some p, t') /\ WF t' L' /\ Permutation L (p :: L') /\ cmp obj p = true)
  \/ (ht_remove cmp t obj h = Ret (None, t) /\ forall p, In p L -> rehash p = h -> cmp obj p = false).
Proof.
  intros [[-> ->]|[T W]]; unfold ht_remove.
  - rewrite find_init. right. split; [reflexivity|]. intros p [].
  - destruct (WFT_nz _ _ _ W) as [Hnz _]. pose proof (proj1 (W_tok _ _ _ W)) as Hl.
    destruct (find_ok t T obj h (W_own _ _ _ W) (W_par _ _ _ W) (W_tok _ _ _ W) Hnz) as [[i [Hi [Hv [Hc He]]]]|[Hn He]];
      rewrite He; cbn [obind].
    + left. unfold htable_delval. replace (i <? size t) with true by lia.
      assert (HtT : table t = T) by (unfold table; now rewrite (W_own _ _ _ W)). rewrite HtT.
      rewrite rd_ok by lia. cbn [obind]. rewrite Hv, wr_ok by lia. cbn [obind].
      pose proof (elts_put_del t T i DELETED ltac:(lia) Hv eq_refl) as Hperm.
      pose proof (nz_put T i DELETED ltac:(lia)) as Hnzp.
      pose proof (valid_nz _ Hv) as Hg0. apply N.eqb_neq in Hg0. rewrite Hg0 in Hnzp. cbn [negb b2n DELETED] in Hnzp.
      exists (get_raw t (g T i)). eexists. exists (elts t (put T i DELETED)). split; [reflexivity|].
      assert (HpL : Permutation L (get_raw t (g T i) :: elts t (put T i DELETED))).
      { rewrite (W_perm _ _ _ W). exact Hperm. }
      split; [|split; [exact HpL|exact Hc]]. right. exists (put T i DELETED).
      assert (HlL : lenN L = 1 + lenN (elts t (put T i DELETED))).
      { apply Permutation_length in HpL. unfold lenN. cbn [length] in HpL. lia. }
      destruct W as [w1 w2 w3 w4 w5 [w6 w6'] w7 w8 w9 w10 w11].
      constructor; cbn [own bits maxe maxd elems deleted]; auto.
      * destruct w5; constructor; auto.
      * split; [rewrite lenN_put by lia; exact Hl|]. intros j Hj Hvj. rewrite g_put in Hvj by lia.
        destruct (N.eqb_spec j i) as [->|Hji]; [discriminate|].
        destruct (w6' j Hj Hvj) as [q [d [A [B [C [D F]]]]]]. exists q, d.
        split; [exact A|]. split; [exact B|]. split; [exact C|]. rewrite g_put by lia.
        apply N.eqb_neq in Hji. rewrite Hji. split; [exact D|]. intros j' Hj'. rewrite g_put by lia.
        match goal with |- (if ?b then _ else _) <> 0 => destruct b end; [discriminate|]. now apply F.
      * lia.
      * lia.
      * change (DELETED =? 0) with false in Hnzp. cbn [negb b2n] in Hnzp. lia.
      * lia.
    + right. split; [reflexivity|]. intros p Hp. apply Hn. eapply Permutation_in; [apply (W_perm _ _ _ W)|exact Hp].
Qed.

Lemma visit_ok t L : WF t L -> Permutation L (ht_visit t).
Proof.
  intros [[-> ->]|[T W]]; [constructor|]. unfold ht_visit. rewrite (W_own _ _ _ W). apply (W_perm _ _ _ W).
Qed.

(** Iteration. *)
Lemma next_valid_spec T : forall n i, i + N.of_nat n = lenN T ->
  (exists j, i <= j < lenN T /\ next_valid n T i = Ret (Some j) /\ valid (g T j) = true
     /\ filter valid (dropN i T) = g T j :: filter valid (dropN (j + 1) T))
  \/ (next_valid n T i = Ret None /\ filter valid (dropN i T) = []).
Proof.
  induction n as [|n IH]; intros i Hi; cbn [next_valid].
  - right. split; [reflexivity|]. rewrite dropN_all by lia. reflexivity.
  - rewrite rd_ok by lia. cbn [obind].
    assert (Hdrop : dropN i T = g T i :: dropN (i + 1) T).
    { rewrite (split_at T i) at 1 by lia. rewrite dropN_app, dropN_all by (len; lia).
      replace (i - lenN (takeN i T)) with 0 by (len; lia). reflexivity. }
    rewrite Hdrop. cbn [filter]. destruct (valid (g T i)) eqn:Ev.
    + left. exists i. repeat split; auto; lia.
    + destruct (IH (i + 1) ltac:(lia)) as [[j [Hj [He [Hv Hf]]]]|[He Hf]]; rewrite He.
      * left. exists j. repeat split; auto; lia.
      * right. auto.
Qed.

Lemma foreach_ok t T L : WFT t T L -> ht_foreach t = Ret (elts t T).
Proof.
  intros W. pose proof (proj1 (W_tok _ _ _ W)) as Hl. pose proof (W_own _ _ _ W) as Ho.
  assert (HtT : table t = T) by (unfold table; now rewrite Ho).
  assert (Hmain : forall fuel i, i <= size t -> (N.to_nat (size t - i) < fuel)%nat ->
    (let* j := this_or_next t i in foreach fuel t j) = Ret (map (get_raw t) (filter valid (dropN i T)))).
  { induction fuel as [|fuel IH]; intros i Hi Hf; [lia|].
    unfold this_or_next at 1. rewrite Ho.
    destruct (next_valid_spec T (N.to_nat (size t - i)) i ltac:(lia)) as [[j [Hj [He [Hv Hfl]]]]|[He Hfl]];
      rewrite He, Hfl; cbn [obind foreach get_entry].
    - replace (j <? size t) with true by lia. rewrite HtT, rd_ok by lia. cbn [obind]. rewrite Hv.
      assert (Hin : In (get_raw t (g T j)) (elts t T)) by (apply elts_in; [lia|exact Hv]).
      apply (TOK_pok _ _ _ (W_par _ _ _ W) (W_tok _ _ _ W)) in Hin. destruct Hin as [Hg _].
      apply good_nz in Hg. apply N.eqb_neq in Hg. rewrite Hg.
      specialize (IH (j + 1) ltac:(lia) ltac:(lia)).
      destruct (this_or_next t (j + 1)) as [x| |] eqn:E; cbn [obind] in *; try discriminate.
      rewrite IH. cbn [obind map]. reflexivity.
    - reflexivity. }
  unfold ht_foreach. rewrite Hmain; [now rewrite dropN_0|lia|].
  unfold rounds. rewrite HtT. unfold lenN in Hl. lia.
Qed.
Lemma foreach_perm t L : WF t L -> exists l, ht_foreach t = Ret l /\ Permutation L l.
Proof.
  intros [[-> ->]|[T W]]; [exists []; split; [reflexivity|constructor]|].
  exists (elts t T). split; [eapply foreach_ok; eauto|apply (W_perm _ _ _ W)].
Qed.

(** ** Every operation sequence *)
Lemma step_ok t L o : WF t L -> good_op rehash k o -> (is_insert o = true -> lenN L + 1 <= 3 * 2 ^ 28) ->
  exists t' L' x, step rehash cmp t o = Ret (t', x) /\ bag_step rehash cmp L o L' x /\ WF t' L'
    /\ lenN L' <= lenN L + (if is_insert o then 1 else 0).
Proof.
  intros HW Ho Hmax. destruct o as [p h ok|obj h|obj h| | |]; cbn [step is_insert] in *.
  - destruct Ho as [-> Hp]. destruct (insert_ok t L p ok HW Hp (Hmax eq_refl)) as [[t' [He HW']]|[-> He]]; rewrite He; cbn [obind].
    + exists t', (p :: L), (OInsert true). repeat split; auto; [constructor|len; lia].
    + exists t, L, (OInsert false). repeat split; auto; [constructor|lia].
  - destruct (lookup_ok t L obj h HW) as [[p [He [Hin Hc]]]|[He Hn]]; rewrite He; cbn [obind].
    + exists t, L, (OFound (Some p)). repeat split; auto; [now constructor|lia].
    + exists t, L, (OFound None). repeat split; auto; [now constructor|lia].
  - destruct (remove_ok t L obj h HW) as [[p [t' [L' [He [HW' [Hp Hc]]]]]]|[He Hn]]; rewrite He; cbn [obind].
    + exists t', L', (OFound (Some p)). repeat split; auto; [econstructor; eauto|].
      apply Permutation_length in Hp. unfold lenN. cbn [length] in Hp. lia.
    + exists t, L, (OFound None). repeat split; auto; [now constructor|lia].
  - exists t, L, (OList (ht_visit t)). repeat split; auto; [constructor; now apply visit_ok|lia].
  - destruct (foreach_perm t L HW) as [l [He Hp]]. rewrite He. cbn [obind].
    exists t, L, (OList l). repeat split; auto; [now constructor|lia].
  - exists ht_init, [], (OList (ht_visit t)). repeat split; [constructor; now apply visit_ok|left; auto|len; lia].
Qed.

Lemma run_ok ops : forall t L, WF t L -> Forall (good_op rehash k) ops ->
  lenN L + inserts ops <= 3 * 2 ^ 28 ->
  exists t' L' xs, run rehash cmp t ops = Ret (t', xs) /\ bag_run rehash cmp L ops L' xs /\ WF t' L'.
Proof.
  induction ops as [|o ops IH]; intros t L HW Hg Hmax; cbn [run].
  - exists t, L, []. repeat split; auto. constructor.
  - inversion Hg; subst. unfold inserts in *. cbn [filter] in *.
    destruct (step_ok t L o HW H1) as [t1 [L1 [x [He [Hs [HW1 Hl1]]]]]].
    { intros E. rewrite E in Hmax. len. lia. }
    rewrite He. cbn [obind].
    destruct (IH t1 L1 HW1 H2) as [t2 [L2 [xs [He2 [Hs2 HW2]]]]].
    { destruct (is_insert o); len; lia. }
    rewrite He2. cbn [obind]. exists t2, L2, (x :: xs). split; [reflexivity|]. split; [|exact HW2].
    econstructor; eauto.
Qed.
End Proofs.
