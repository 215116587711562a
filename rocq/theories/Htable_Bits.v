(** Bit arithmetic and probing arithmetic for the hash table. *)
From Verif Require Import Base Htable_Model.

Arguments N.testbit : simpl never.
Arguments N.land : simpl never.
Arguments N.lor : simpl never.
Arguments N.lxor : simpl never.
Arguments N.shiftr : simpl never.
Arguments N.ones : simpl never.

Notation tb := N.testbit.

Lemma tb_ones64 i : tb ones64 i = (i <? 64).
Proof.
  unfold ones64. destruct (N.ltb_spec i 64).
  - now apply N.ones_spec_low.
  - now apply N.ones_spec_high.
Qed.
Lemma tb_not64 x i : tb (not64 x) i = (i <? 64) && negb (tb x i).
Proof.
  unfold not64. rewrite N.lxor_spec, N.land_spec, tb_ones64.
  destruct (i <? 64), (tb x i); reflexivity.
Qed.
Lemma tb_pow2 j i : tb (2 ^ j) i = (i =? j).
Proof.
  destruct (N.eqb_spec i j) as [->|H]; [apply N.pow2_bits_true|apply N.pow2_bits_false; congruence].
Qed.
Lemma tb_high p k i : p < 2 ^ k -> k <= i -> tb p i = false.
Proof.
  intros Hp Hi. rewrite <- (N.mod_small p (2 ^ k)) by exact Hp. now apply N.mod_pow2_bits_high.
Qed.
Lemma tb_ge p k : tb p k = true -> 2 ^ k <= p.
Proof.
  intros H. destruct (N.le_gt_cases (2 ^ k) p) as [|Hlt]; [assumption|].
  rewrite (tb_high p k k Hlt) in H by lia. discriminate.
Qed.
Lemma tb_top p k : 2 ^ k <= p < 2 ^ (k + 1) -> tb p k = true.
Proof.
  intros [H1 H2]. apply N.testbit_true. rewrite N.add_1_r, N.pow_succ_r' in H2.
  replace (p / 2 ^ k) with 1; [reflexivity|].
  apply (N.div_unique p (2 ^ k) 1 (p - 2 ^ k)); lia.
Qed.
Lemma land_pow2 p j : (N.land p (2 ^ j) =? 0) = negb (tb p j).
Proof.
  destruct (tb p j) eqn:E; cbn [negb].
  - apply N.eqb_neq. intros H.
    assert (Hb : tb (N.land p (2 ^ j)) j = true).
    { rewrite N.land_spec, E, N.pow2_bits_true. reflexivity. }
    rewrite H, N.bits_0 in Hb. discriminate.
  - apply N.eqb_eq. apply N.bits_inj. intros i. rewrite N.land_spec, tb_pow2, N.bits_0.
    destruct (N.eqb_spec i j) as [->|]; [now rewrite E|apply andb_false_r].
Qed.
Lemma pow2_pos k : 1 <= 2 ^ k.
Proof. pose proof (N.pow_nonzero 2 k ltac:(lia)). lia. Qed.

Lemma top_bit_spec p k : 2 ^ k <= p < 2 ^ (k + 1) ->
  forall n, k <= N.of_nat n -> top_bit n p = k.
Proof.
  intros Hp. induction n as [|n IH]; intros Hn; cbn [top_bit]; [lia|].
  rewrite land_pow2. destruct (N.eq_dec k (N.of_nat (S n))) as [->|Hk].
  - rewrite tb_top by exact Hp. reflexivity.
  - rewrite (tb_high p (k + 1)) by lia. cbn [negb]. apply IH. lia.
Qed.

Lemma low_bit_spec m : forall n i x, low_bit n i m = Some x -> exists j, x = 2 ^ j /\ tb m j = true /\ j < i + N.of_nat n.
Proof.
  induction n as [|n IH]; intros i x H; cbn [low_bit] in H; [discriminate|].
  rewrite land_pow2 in H. destruct (tb m i) eqn:E; cbn [negb] in H.
  - injection H as <-. exists i. repeat split; auto; lia.
  - destruct (IH _ _ H) as [j Hj]. exists j. intuition lia.
Qed.

(** ** Slots *)
Lemma land_mask t x : N.land x (size t - 1) = x mod size t.
Proof.
  unfold size. rewrite N.sub_1_r, <- N.ones_equiv. apply N.land_ones.
Qed.
Lemma size_pos t : 1 <= size t.
Proof. apply pow2_pos. Qed.

Lemma add_mod_case n b d : b < n -> d < n -> (b + d) mod n = if b + d <? n then b + d else b + d - n.
Proof.
  intros Hb Hd. destruct (N.ltb_spec (b + d) n) as [H|H]; [now apply N.mod_small|].
  symmetry. apply (N.mod_unique _ _ 1); lia.
Qed.
Lemma mod_step n b d : n <> 0 -> ((b + d) mod n + 1) mod n = (b + (d + 1)) mod n.
Proof. intros H. rewrite N.add_mod_idemp_l by exact H. f_equal. lia. Qed.
Lemma mod_shift n b d e : n <> 0 -> ((b + d) mod n + e) mod n = (b + (d + e)) mod n.
Proof. intros H. rewrite N.add_mod_idemp_l by exact H. f_equal. lia. Qed.
Lemma mod_inj n b d e : b < n -> d < n -> e < n -> (b + d) mod n = (b + e) mod n -> d = e.
Proof.
  intros Hb Hd He. rewrite !add_mod_case by assumption.
  destruct (N.ltb_spec (b + d) n), (N.ltb_spec (b + e) n); lia.
Qed.
Lemma mod_surj n b i : b < n -> i < n -> exists d, d < n /\ (b + d) mod n = i.
Proof.
  intros Hb Hi. destruct (N.le_gt_cases b i) as [H|H].
  - exists (i - b). split; [lia|]. rewrite add_mod_case by lia.
    destruct (N.ltb_spec (b + (i - b)) n); lia.
  - exists (i + n - b). split; [lia|]. rewrite add_mod_case by lia.
    destruct (N.ltb_spec (b + (i + n - b)) n); lia.
Qed.

(** The least index from [d] on with a property. *)
Lemma least_from (f : N -> bool) : forall m d, f (d + N.of_nat m) = true ->
  exists z, d <= z <= d + N.of_nat m /\ f z = true /\ (forall j, d <= j < z -> f j = false).
Proof.
  induction m as [|m IH]; intros d H.
  - exists d. rewrite N.add_0_r in H. repeat split; auto; lia.
  - destruct (f d) eqn:E; [exists d; repeat split; auto; lia|].
    destruct (IH (d + 1)) as [z [Hz [Hf Hj]]].
    { replace (d + 1 + N.of_nat m) with (d + N.of_nat (S m)) by lia. exact H. }
    exists z. split; [lia|]. split; [exact Hf|]. intros j Hjz.
    destruct (N.eq_dec j d) as [->|]; [exact E|]. apply Hj. lia.
Qed.
Lemma least_between (f : N -> bool) d z0 : d <= z0 -> f z0 = true ->
  exists z, d <= z <= z0 /\ f z = true /\ (forall j, d <= j < z -> f j = false).
Proof.
  intros Hd Hf. destruct (least_from f (N.to_nat (z0 - d)) d) as [z [Hz H]].
  - replace (d + N.of_nat (N.to_nat (z0 - d))) with z0 by lia. exact Hf.
  - exists z. split; [lia|exact H].
Qed.

(** ** Tables *)
Definition g (T : list N) (i : N) : N := nth (N.to_nat i) T 0.
Definition put (T : list N) (i v : N) : list N := takeN i T ++ v :: dropN (i + 1) T.

Lemma rd_ok T i : i < lenN T -> rd T i = Ret (g T i).
Proof.
  intros H. unfold rd, g, nthN. unfold lenN in H.
  destruct (nth_error T (N.to_nat i)) eqn:E.
  - now rewrite (nth_error_nth T _ 0 E).
  - apply nth_error_None in E. lia.
Qed.
Lemma wr_ok T i v : i < lenN T -> wr T i v = Ret (put T i v).
Proof. intros H. unfold wr. apply N.ltb_lt in H. now rewrite H. Qed.

Lemma split_at T i : i < lenN T -> T = takeN i T ++ g T i :: dropN (i + 1) T.
Proof.
  intros H. rewrite <- (takeN_dropN i T) at 1. f_equal.
  unfold dropN, g. unfold lenN in H. replace (N.to_nat (i + 1)) with (S (N.to_nat i)) by lia.
  assert (Hi : (N.to_nat i < length T)%nat) by lia. clear H. revert Hi.
  generalize (N.to_nat i). induction T as [|x T IH]; intros n Hn; cbn in Hn; [lia|].
  destruct n as [|n]; [reflexivity|]. cbn [skipn nth]. apply IH. lia.
Qed.

Lemma lenN_put T i v : i < lenN T -> lenN (put T i v) = lenN T.
Proof. intros H. unfold put. len. lia. Qed.

Lemma g_app A x B j : g (A ++ x :: B) j =
  if j <? lenN A then g A j else if j =? lenN A then x else g B (j - lenN A - 1).
Proof.
  unfold g, lenN. destruct (N.ltb_spec j (N.of_nat (length A))).
  - rewrite app_nth1 by lia. reflexivity.
  - rewrite app_nth2 by lia. destruct (N.eqb_spec j (N.of_nat (length A))) as [->|].
    + rewrite Nat2N.id, Nat.sub_diag. reflexivity.
    + replace (N.to_nat j - length A)%nat with (S (N.to_nat (j - N.of_nat (length A) - 1))) by lia.
      reflexivity.
Qed.

Lemma g_put T i v j : i < lenN T -> g (put T i v) j = if j =? i then v else g T j.
Proof.
  intros H. replace (g T j) with (g (takeN i T ++ g T i :: dropN (i + 1) T) j) by (now rewrite <- split_at).
  unfold put. rewrite !g_app.
  assert (Hl : lenN (takeN i T) = i) by (len; lia). rewrite Hl.
  destruct (N.ltb_spec j i); destruct (N.eqb_spec j i); try reflexivity. lia.
Qed.

Definition nz (T : list N) : N := lenN (filter (fun e => negb (e =? 0)) T).
Definition vc (T : list N) : N := lenN (filter valid T).
Definition b2n (b : bool) : N := if b then 1 else 0.

Lemma filter_put (f : N -> bool) T i v : i < lenN T ->
  lenN (filter f (put T i v)) + b2n (f (g T i)) = lenN (filter f T) + b2n (f v).
Proof.
  intros H. rewrite (split_at T i H) at 3. unfold put. rewrite !filter_app. cbn [filter]. len.
  unfold b2n. destruct (f v), (f (g T i)); len; lia.
Qed.
Lemma nz_put T i v : i < lenN T ->
  nz (put T i v) + b2n (negb (g T i =? 0)) = nz T + b2n (negb (v =? 0)).
Proof. apply (filter_put (fun e => negb (e =? 0))). Qed.
Lemma vc_put T i v : i < lenN T -> vc (put T i v) + b2n (valid (g T i)) = vc T + b2n (valid v).
Proof. apply (filter_put valid). Qed.

Lemma filter_lt (f : N -> bool) T : lenN (filter f T) < lenN T -> exists i, i < lenN T /\ f (g T i) = false.
Proof.
  induction T as [|x T IH]; cbn [filter]; len; intros H; [lia|].
  destruct (f x) eqn:E.
  - len. destruct IH as [i [Hi Hf]]; [lia|]. exists (i + 1). split; [lia|].
    unfold g. replace (N.to_nat (i + 1)) with (S (N.to_nat i)) by lia. exact Hf.
  - exists 0. split; [lia|exact E].
Qed.
Lemma exists_zero T : nz T < lenN T -> exists i, i < lenN T /\ g T i = 0.
Proof.
  intros H. destruct (filter_lt _ _ H) as [i [Hi Hf]]. exists i. split; [exact Hi|].
  apply negb_false_iff in Hf. now apply N.eqb_eq in Hf.
Qed.
Lemma exists_invalid T : vc T < lenN T -> exists i, i < lenN T /\ valid (g T i) = false.
Proof. apply filter_lt. Qed.

Lemma valid_nz e : valid e = true -> e <> 0.
Proof. unfold valid, DELETED. lia. Qed.
Lemma vc_le_nz T : vc T <= nz T.
Proof.
  unfold vc, nz. induction T as [|x T IH]; cbn [filter]; [lia|].
  destruct (valid x) eqn:E; [apply valid_nz in E; apply N.eqb_neq in E; rewrite E; cbn [negb]; len; lia|].
  destruct (negb (x =? 0)); len; lia.
Qed.
Lemma valid_or e : e = 0 \/ e = DELETED \/ valid e = true.
Proof. unfold valid, DELETED. lia. Qed.

(** ** The loop of ht_add *)
Lemma add_slot_spec t T b : lenN T = size t -> forall fuel d z pf,
  d <= z -> (N.to_nat (z - d) < fuel)%nat ->
  valid (g T ((b + z) mod size t)) = false ->
  (forall j, d <= j < z -> valid (g T ((b + j) mod size t)) = true) ->
  add_slot fuel t T ((b + d) mod size t) pf
  = Ret ((b + z) mod size t, if z =? d then pf else 0).
Proof.
  intros Hl. pose proof (size_pos t) as Hn. induction fuel as [|fuel IH]; intros d z pf Hd Hf Hz Hj; [lia|].
  cbn [add_slot]. rewrite rd_ok by (rewrite Hl; apply N.mod_lt; lia). cbn [obind].
  destruct (N.eqb_spec z d) as [->|Hzd].
  - rewrite Hz. reflexivity.
  - rewrite Hj by lia. unfold next_slot. rewrite land_mask, mod_step by lia.
    rewrite (IH (d + 1) z) by (auto; try lia; intros j Hjj; apply Hj; lia).
    destruct (z =? d + 1); reflexivity.
Qed.

Lemma ht_add_run t T p h i0 : lenN T = size t -> i0 < size t -> valid (g T i0) = false ->
  exists d, d < size t /\
    let i := (hash_bucket t h + d) mod size t in
    valid (g T i) = false
    /\ (forall j, j < d -> valid (g T ((hash_bucket t h + j) mod size t)) = true)
    /\ ht_add t T p h
       = Ret (put T i (make_hval t p (N.lor (hash_bits t h) (if d =? 0 then perf t else 0)))).
Proof.
  intros Hl Hi0 Hv. pose proof (size_pos t) as Hn.
  assert (Hb : hash_bucket t h < size t) by (unfold hash_bucket; rewrite land_mask; apply N.mod_lt; lia).
  destruct (mod_surj _ _ _ Hb Hi0) as [d0 [Hd0 Hd0']].
  destruct (least_between (fun d => negb (valid (g T ((hash_bucket t h + d) mod size t)))) 0 d0) as [d [Hd [Hfd Hj]]].
  { lia. } { cbv beta. rewrite Hd0', Hv. reflexivity. }
  exists d. split; [lia|]. cbv zeta. apply negb_true_iff in Hfd. split; [exact Hfd|]. split.
  - intros j Hjd. specialize (Hj j ltac:(lia)). now apply negb_false_iff in Hj.
  - unfold ht_add.
    pose proof (add_slot_spec t T (hash_bucket t h) Hl (S (length T)) 0 d (perf t)) as Ha.
    rewrite N.add_0_r, (N.mod_small _ _ Hb) in Ha. rewrite Ha; clear Ha.
    + cbn [obind]. apply wr_ok. rewrite Hl. apply N.mod_lt. lia.
    + lia.
    + unfold lenN in Hl. lia.
    + exact Hfd.
    + intros j Hjd. specialize (Hj j ltac:(lia)). now apply negb_false_iff in Hj.
Qed.
