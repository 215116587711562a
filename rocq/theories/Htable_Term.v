(** The hash table never loops for ever, whatever pointers and hashes are used. *)
From Verif Require Import Base Htable_Model Htable_Spec Htable_Bits Htable_Proofs.

Lemma k1 : 1 <= 1 <= 63. Proof. lia. Qed.
Lemma bucket_lt t h : hash_bucket t h < size t.
Proof. apply (Htable_Proofs.bucket_lt (fun x => x) (fun _ _ => true) 1 k1). Qed.
Lemma limits_lt x : 2 <= x -> 3 * x / 4 <= 9 * x / 10 /\ 9 * x / 10 < x.
Proof. apply (Htable_Proofs.limits_lt (fun x => x) (fun _ _ => true) 1 k1). Qed.
Lemma two_le b : 1 <= b -> 2 <= 2 ^ b.
Proof. apply (Htable_Proofs.two_le (fun x => x) (fun _ _ => true) 1 k1). Qed.
Lemma find_empty_ok T i : nz T < lenN T ->
  exists j, find_empty T i = Ret (i + j) /\ j < lenN T /\ g T j = 0.
Proof. apply (Htable_Proofs.find_empty_ok (fun x => x) (fun _ _ => true) 1 k1). Qed.
Lemma next_valid_spec T n i : i + N.of_nat n = lenN T ->
  (exists j, i <= j < lenN T /\ next_valid n T i = Ret (Some j) /\ valid (g T j) = true
     /\ filter valid (dropN i T) = g T j :: filter valid (dropN (j + 1) T))
  \/ (next_valid n T i = Ret None /\ filter valid (dropN i T) = []).
Proof. apply (Htable_Proofs.next_valid_spec (fun x => x) (fun _ _ => true) 1 k1). Qed.

(** ** Sums over slots *)
Fixpoint sum (m : nat) (f : N -> N) : N :=
  match m with O => 0 | S m => sum m f + f (N.of_nat m) end.
Lemma sum_ext m f h : (forall s, s < N.of_nat m -> f s = h s) -> sum m f = sum m h.
Proof.
  induction m as [|m IH]; intros H; cbn [sum]; [reflexivity|].
  rewrite IH by (intros; apply H; lia). rewrite H by lia. reflexivity.
Qed.
Lemma sum_point m f h a : (forall s, s <> a -> f s = h s) -> a < N.of_nat m ->
  sum m f + h a = sum m h + f a.
Proof.
  intros H. induction m as [|m IH]; intros Ha; cbn [sum]; [lia|].
  destruct (N.eq_dec a (N.of_nat m)) as [->|Hne].
  - rewrite (sum_ext m f h) by (intros; apply H; lia). lia.
  - rewrite (H (N.of_nat m)) by congruence. specialize (IH ltac:(lia)). lia.
Qed.
Lemma sum_shift m f : sum (S m) f = f 0 + sum m (fun s => f (s + 1)).
Proof.
  induction m as [|m IH]; [cbn [sum]; change (N.of_nat 0) with 0; lia|].
  cbn [sum] in IH |- *. rewrite IH. replace (N.of_nat (S m)) with (N.of_nat m + 1) by lia. lia.
Qed.
Lemma sum_filter (f : N -> bool) T : lenN (filter f T) = sum (length T) (fun s => b2n (f (g T s))).
Proof.
  induction T as [|x T IH]; [reflexivity|]. cbn [length]. rewrite sum_shift.
  cbn [filter]. replace (g (x :: T) 0) with x by reflexivity.
  rewrite (sum_ext _ _ (fun s => b2n (f (g T s)))).
  - destruct (f x); cbn [b2n]; len; lia.
  - intros s _. unfold g. replace (N.to_nat (s + 1)) with (S (N.to_nat s)) by lia. reflexivity.
Qed.

Section Term.
Context (rehash : N -> N) (cmp : N -> N -> bool).

Lemma ht_add_cnt t T p h : lenN T = size t -> vc T < size t ->
  exists i v, ht_add t T p h = Ret (put T i v) /\ i < size t /\ valid (g T i) = false.
Proof.
  intros Hl Hv. destruct (exists_invalid T) as [i0 [Hi0 Hv0]]; [lia|].
  destruct (ht_add_run t T p h i0 Hl ltac:(lia) Hv0) as [d [Hd [Hiv [_ Hr]]]].
  eexists _, _. split; [exact Hr|]. split; [|exact Hiv]. apply N.mod_lt. pose proof (size_pos t). lia.
Qed.
Lemma b2n_le b : b2n b <= 1.
Proof. destruct b; cbn; lia. Qed.

Lemma add_all_cnt t old : forall T, lenN T = size t -> nz T + vc old < size t ->
  exists T', add_all rehash t T old = Ret T' /\ lenN T' = size t /\ nz T' <= nz T + vc old.
Proof.
  induction old as [|e old IH]; intros T Hl Hc; cbn [add_all].
  - exists T. unfold vc. cbn. repeat split; auto. lia.
  - unfold vc in *. cbn [filter] in *. destruct (valid e).
    + len. pose proof (vc_le_nz T).
      destruct (ht_add_cnt t T (get_raw t e) (rehash (get_raw t e)) Hl ltac:(lia)) as [i [v [Ha [Hi Hiv]]]].
      rewrite Ha. cbn [obind].
      pose proof (nz_put T i v ltac:(lia)) as Hnz. pose proof (b2n_le (negb (v =? 0))).
      destruct (IH (put T i v)) as [T' [Hr [Hl' Hn']]]; [rewrite lenN_put; lia|lia|].
      exists T'. repeat split; auto. lia.
    + apply IH; auto.
Qed.

Record CT (t : ht) (T : list N) : Prop := mkCT {
  K_own : own t = Some T;
  K_len : lenN T = size t;
  K_bits : 1 <= bits t <= 30;
  K_maxe : maxe t = 3 * 2 ^ bits t / 4;
  K_maxd : maxd t = 9 * 2 ^ bits t / 10;
  K_vc : vc T <= elems t;
  K_max : elems t <= maxe t;
  K_nz : nz T <= elems t + deleted t;
  K_del : elems t + deleted t <= maxd t }.
Definition CI (t : ht) : Prop := t = ht_init \/ exists T, CT t T.

Lemma CT_lt t T : CT t T -> nz T < size t /\ vc T < size t /\ maxe t <= maxd t.
Proof.
  intros W. destruct (limits_lt (2 ^ bits t)) as [H1 H2]; [apply two_le; apply (K_bits _ _ W)|].
  pose proof (K_nz _ _ W). pose proof (K_del _ _ W). pose proof (K_maxd _ _ W). pose proof (K_maxe _ _ W).
  pose proof (vc_le_nz T). unfold size. lia.
Qed.

Lemma double_cnt t T ok : CT t T -> elems t = maxe t -> elems t + 1 <= 3 * 2 ^ 28 ->
  (ok = false /\ double_table rehash ok t = Ret None) \/
  exists t' T', double_table rehash ok t = Ret (Some t') /\ CT t' T'
    /\ elems t' + 1 <= maxe t' /\ deleted t' = 0 /\ elems t' = elems t.
Proof.
  intros W He Hb. pose proof (K_bits _ _ W) as Hbits. pose proof (K_maxe _ _ W) as Hme.
  assert (Hb30 : bits t + 1 <= 30).
  { destruct (N.eq_dec (bits t) 30) as [E|]; [|lia]. exfalso. rewrite He, Hme, E in Hb.
    vm_compute in Hb. congruence. }
  unfold double_table. replace (31 <=? bits t + 1) with false by lia.
  destruct ok; cbn [negb]; [right|left; auto].
  set (pf := if (perf t =? 0) && negb (mask t =? 0) then _ else _).
  set (b := bits t + 1) in *.
  set (t1 := mkHt b (elems t) 0 (3 * 2 ^ b / 4) (9 * 2 ^ b / 10) (mask t) (cbits t) pf None).
  assert (H2 : 2 <= 2 ^ bits t) by (apply two_le; lia).
  assert (Hsz : 2 ^ b = 2 * 2 ^ bits t) by (unfold b; rewrite N.add_1_r, N.pow_succ_r'; reflexivity).
  rewrite (K_own _ _ W). pose proof (K_vc _ _ W) as Hvc.
  destruct (CT_lt _ _ W) as [_ [Hv _]]. unfold size in Hv.
  assert (Hz : nz (repeat 0 (N.to_nat (2 ^ b))) = 0) by (unfold nz; now rewrite filter_repeat).
  destruct (add_all_cnt t1 T (repeat 0 (N.to_nat (2 ^ b)))) as [T' [Ha [Hl' Hn']]].
  - unfold lenN, size. rewrite repeat_length. cbn [bits t1]. lia.
  - rewrite Hz. unfold size. cbn [bits t1]. lia.
  - rewrite Ha. cbn [obind]. eexists _, T'. split; [reflexivity|].
    destruct (limits_lt (2 ^ b)) as [H3 H4]; [lia|].
    pose proof (vc_le_nz T'). rewrite Hz in Hn'.
    split; [constructor; cbn [own bits maxe maxd elems deleted]; auto; try lia|].
    cbn [elems maxe deleted]. split; [lia|auto].
Qed.

(** ** Rehashing *)
Section Rehash.
  Context (t : ht) (start : N) (Hs : start < size t).
  Let n := size t.
  Definition rdist (s : N) : N := (s + n - start) mod n.
  Definition wt (i : N) (T : list N) (s : N) : N :=
    if rdist s <? i then b2n (negb (g T s =? 0)) else b2n (valid (g T s)).
  Definition W (i : N) (T : list N) : N := sum (N.to_nat n) (wt i T).

  Lemma n_pos : n <> 0.
  Proof. unfold n. pose proof (size_pos t). lia. Qed.
  Lemma rdist_pos i : i < n -> rdist ((start + i) mod n) = i.
  Proof.
    intros Hi. unfold rdist. rewrite add_mod_case by (unfold n in *; lia).
    destruct (N.ltb_spec (start + i) n).
    - replace (start + i + n - start) with (i + 1 * n) by lia. rewrite N.mod_add by apply n_pos. now apply N.mod_small.
    - replace (start + i - n + n - start) with i by lia. now apply N.mod_small.
  Qed.
  Lemma rdist_inj s i : s < n -> i < n -> rdist s = i -> s = (start + i) mod n.
  Proof.
    intros Hsn Hi <-. unfold rdist. rewrite N.add_mod_idemp_r by apply n_pos.
    replace (start + (s + n - start)) with (s + 1 * n) by (unfold n in *; lia).
    rewrite N.mod_add by apply n_pos. symmetry. now apply N.mod_small.
  Qed.

  Lemma wt_le i T s : wt i T s <= 1.
  Proof. unfold wt. destruct (rdist s <? i); apply b2n_le. Qed.

  Lemma wt_next i T s : s < n -> i < n -> s <> (start + i) mod n -> wt (i + 1) T s = wt i T s.
  Proof.
    intros Hsn Hi Hne. unfold wt. replace (rdist s <? i + 1) with (rdist s <? i); [reflexivity|].
    assert (rdist s <> i) by (intros E; apply Hne; now apply rdist_inj). lia.
  Qed.

  Lemma W_put i T a v : lenN T = n -> a < n -> W i (put T a v) + wt i T a = W i T + wt i (put T a v) a.
  Proof.
    intros Hl Ha. unfold W. apply sum_point; [|lia]. intros s Hsa. unfold wt.
    rewrite g_put by lia. apply N.eqb_neq in Hsa. now rewrite Hsa.
  Qed.
  Lemma W_next i T : i < n ->
    W (i + 1) T + b2n (valid (g T ((start + i) mod n))) = W i T + b2n (negb (g T ((start + i) mod n) =? 0)).
  Proof.
    intros Hi. set (a := (start + i) mod n).
    assert (Ha : a < n) by (apply N.mod_lt; apply n_pos).
    assert (Hp : sum (N.to_nat n) (fun s => if s <? n then wt (i + 1) T s else 0) + wt i T a
               = sum (N.to_nat n) (fun s => if s <? n then wt i T s else 0) + wt (i + 1) T a).
    { pose proof (sum_point (N.to_nat n) (fun s => if s <? n then wt (i + 1) T s else 0)
        (fun s => if s <? n then wt i T s else 0) a) as H. cbv beta in H.
      replace (a <? n) with true in H by lia. apply H; [|lia].
      intros s Hsa. destruct (N.ltb_spec s n); [|reflexivity]. now apply wt_next. }
    rewrite (sum_ext _ _ (wt (i + 1) T)), (sum_ext _ (fun s => if s <? n then wt i T s else 0) (wt i T)) in Hp.
    - assert (E1 : wt i T a = b2n (valid (g T a))).
      { unfold wt, a. rewrite rdist_pos by exact Hi. now rewrite N.ltb_irrefl. }
      assert (E2 : wt (i + 1) T a = b2n (negb (g T a =? 0))).
      { unfold wt, a. rewrite rdist_pos by exact Hi. replace (i <? i + 1) with true by lia. reflexivity. }
      rewrite E1, E2 in Hp. exact Hp.
    - intros s H. replace (s <? n) with true by lia. reflexivity.
    - intros s H. replace (s <? n) with true by lia. reflexivity.
  Qed.

  Lemma vc_W T : lenN T = n -> W 0 T = vc T.
  Proof.
    intros Hl. unfold W, vc. rewrite sum_filter. unfold lenN in Hl.
    replace (N.to_nat n) with (length T) by lia. apply sum_ext. intros s _. unfold wt.
    destruct (N.ltb_spec (rdist s) 0); [lia|reflexivity].
  Qed.
  Lemma nz_W T : lenN T = n -> W n T = nz T.
  Proof.
    intros Hl. unfold W, nz. rewrite sum_filter. unfold lenN in Hl.
    replace (N.to_nat n) with (length T) by lia. apply sum_ext. intros s _. unfold wt.
    assert (Hlt : rdist s < n) by (apply N.mod_lt; apply n_pos).
    apply N.ltb_lt in Hlt. now rewrite Hlt.
  Qed.

  Lemma rehash_one_cnt T i : lenN T = n -> i < n ->
    exists T', rehash_one rehash t T ((start + i) mod n) = Ret T' /\ lenN T' = n /\ W (i + 1) T' <= W i T.
  Proof.
    intros Hl Hi. set (a := (start + i) mod n).
    assert (Ha : a < n) by (apply N.mod_lt; apply n_pos).
    pose proof (W_next i T Hi) as Hn. fold a in Hn.
    unfold rehash_one. rewrite rd_ok by lia. cbn [obind].
    destruct (valid_or (g T a)) as [E|[E|E]].
    - rewrite E in *. exists T. repeat split; auto. change (0 =? 0) with true in *. change (valid 0) with false in *.
      cbn [negb b2n] in Hn. lia.
    - rewrite E in *. change (DELETED =? 0) with false in *. change (DELETED =? DELETED) with true.
      cbv iota. rewrite wr_ok by lia. exists (put T a 0). split; [reflexivity|]. split; [rewrite lenN_put; lia|].
      pose proof (W_put (i + 1) T a 0 Hl Ha) as Hp.
      assert (E1 : wt (i + 1) T a = 1).
      { unfold wt. unfold a. rewrite rdist_pos by exact Hi. fold a. rewrite E. replace (i <? i + 1) with true by lia. reflexivity. }
      assert (E2 : wt (i + 1) (put T a 0) a = 0).
      { unfold wt. rewrite g_put, N.eqb_refl by lia. destruct (rdist a <? i + 1); reflexivity. }
      change (valid DELETED) with false in Hn. cbn [negb b2n] in Hn. lia.
    - pose proof (valid_nz _ E) as En. apply N.eqb_neq in En. rewrite En in *.
      assert (Ed : (g T a =? DELETED) = false) by (unfold valid, DELETED in *; lia). rewrite Ed.
      rewrite E in Hn. cbn [negb b2n] in Hn.
      destruct (N.land (g T a) (perf t) =? 0).
      + rewrite wr_ok by lia. cbn [obind].
        pose proof (W_put (i + 1) T a 0 Hl Ha) as Hp.
        assert (E1 : wt (i + 1) T a = 1).
        { unfold wt. unfold a. rewrite rdist_pos by exact Hi. fold a. rewrite En. replace (i <? i + 1) with true by lia. reflexivity. }
        assert (E2 : wt (i + 1) (put T a 0) a = 0).
        { unfold wt. rewrite g_put, N.eqb_refl by lia. destruct (rdist a <? i + 1); reflexivity. }
        assert (Hl1 : lenN (put T a 0) = size t) by (rewrite lenN_put; unfold n in *; lia).
        destruct (ht_add_run t (put T a 0) (get_raw t (g T a)) (rehash (get_raw t (g T a))) a Hl1) as [d [Hd [Hiv [_ Hr]]]].
        { exact Ha. } { rewrite g_put, N.eqb_refl by lia. reflexivity. }
        rewrite Hr. eexists. split; [reflexivity|].
        set (a2 := (hash_bucket t (rehash (get_raw t (g T a))) + d) mod size t) in *.
        assert (Ha2 : a2 < n) by (apply N.mod_lt; apply n_pos).
        match goal with |- context [put (put T a 0) a2 ?v] => set (vv := v) end.
        split; [rewrite lenN_put; [exact Hl1|unfold n in *; lia]|].
        pose proof (W_put (i + 1) (put T a 0) a2 vv Hl1 Ha2) as Hp2.
        pose proof (wt_le (i + 1) (put (put T a 0) a2 vv) a2). lia.
      + exists T. repeat split; auto. lia.
  Qed.

  Lemma rehash_loop_cnt : forall m i T, N.of_nat m + i = n -> lenN T = n ->
    exists T', rehash_loop rehash t T start i m = Ret T' /\ lenN T' = n /\ W n T' <= W i T.
  Proof.
    induction m as [|m IH]; intros i T Hm Hl; cbn [rehash_loop].
    - exists T. replace i with n by lia. repeat split; auto. lia.
    - rewrite land_mask. fold n. replace (i + start) with (start + i) by lia.
      destruct (rehash_one_cnt T i Hl ltac:(lia)) as [T1 [Hr [Hl1 HW1]]]. rewrite Hr. cbn [obind].
      destruct (IH (i + 1) T1 ltac:(lia) Hl1) as [T2 [Hr2 [Hl2 HW2]]].
      exists T2. repeat split; auto. lia.
  Qed.
End Rehash.

Lemma rehash_cnt t T : CT t T -> elems t + 1 <= maxe t ->
  exists t' T', rehash_table rehash t = Ret t' /\ CT t' T'
    /\ elems t' + 1 <= maxe t' /\ deleted t' = 0 /\ elems t' = elems t.
Proof.
  intros K Hmax. destruct (CT_lt _ _ K) as [Hnz [_ Hlim]]. pose proof (K_len _ _ K) as Hl.
  unfold rehash_table. assert (HtT : table t = T) by (unfold table; now rewrite (K_own _ _ K)).
  rewrite HtT. destruct (find_empty_ok T 0) as [s [Hf [Hs Hg]]]; [lia|].
  rewrite Hf, N.add_0_l. cbn [obind]. rewrite Hl in Hs.
  destruct (rehash_loop_cnt t s Hs (N.to_nat (size t)) 0 T) as [T' [Hr [Hl' HW]]]; [lia|exact Hl|].
  rewrite Hr. cbn [obind]. eexists _, T'. split; [reflexivity|].
  rewrite nz_W, vc_W in HW by assumption. pose proof (vc_le_nz T').
  split; [|cbn [elems maxe deleted]; auto].
  destruct K as [w1 w2 w3 w4 w5 w6 w7 w8 w9].
  constructor; cbn [own bits maxe maxd elems deleted]; auto; lia.
Qed.

Lemma map_cnt (ff : N -> N) T : (forall e, valid e = false -> ff e = e) ->
  vc (map ff T) <= vc T /\ nz (map ff T) <= nz T.
Proof.
  intros Hff. unfold vc, nz. induction T as [|x T [IH1 IH2]]; [split; apply N.le_refl|]. cbn [map filter].
  destruct (valid x) eqn:E.
  - pose proof (valid_nz _ E) as En. apply N.eqb_neq in En. rewrite En. cbn [negb].
    split; match goal with |- context [if ?b then _ else _] => destruct b end; len; lia.
  - rewrite (Hff x E), E. destruct (negb (x =? 0)); len; lia.
Qed.

Lemma update_cnt t T p : CT t T -> exists T', CT (update_common t p) T'
  /\ elems (update_common t p) = elems t /\ deleted (update_common t p) = deleted t
  /\ maxe (update_common t p) = maxe t /\ maxd (update_common t p) = maxd t.
Proof.
  intros K. unfold update_common. destruct (elems t =? 0).
  - exists T. split; [|auto]. destruct K; constructor; auto.
  - assert (HtT : table t = T) by (unfold table; now rewrite (K_own _ _ K)). rewrite HtT.
    match goal with |- context [map ?f T] => set (ff := f) end.
    exists (map ff T). split; [|auto].
    assert (Hv : vc (map ff T) <= vc T /\ nz (map ff T) <= nz T).
    { apply map_cnt. intros e He. unfold ff. now rewrite He. }
    destruct K as [w1 w2 w3 w4 w5 w6 w7 w8 w9].
    constructor; cbn [own bits maxe maxd elems deleted]; auto; try lia.
    len. exact w2.
Qed.

Lemma finish_cnt t T p h : CT t T -> elems t + 1 <= maxe t -> elems t + 1 + deleted t <= maxd t ->
  exists T', ht_add t (table t) p h = Ret T'
    /\ CT (mkHt (bits t) (elems t + 1) (deleted t) (maxe t) (maxd t) (mask t) (cbits t) (perf t) (Some T')) T'.
Proof.
  intros K H1 H2. assert (HtT : table t = T) by (unfold table; now rewrite (K_own _ _ K)).
  rewrite HtT. destruct (CT_lt _ _ K) as [_ [Hv _]]. pose proof (K_len _ _ K) as Hl.
  destruct (ht_add_cnt t T p h Hl Hv) as [i [v [Ha [Hi Hiv]]]]. exists (put T i v). split; [exact Ha|].
  pose proof (nz_put T i v ltac:(lia)). pose proof (vc_put T i v ltac:(lia)).
  pose proof (b2n_le (negb (v =? 0))). pose proof (b2n_le (valid v)).
  destruct K as [w1 w2 w3 w4 w5 w6 w7 w8 w9].
  constructor; cbn [own bits maxe maxd elems deleted]; auto; try lia.
  rewrite lenN_put; [exact Hl|lia].
Qed.

Lemma insert_cnt t p h ok : CI t -> p <> 0 -> elems t + 1 <= 3 * 2 ^ 28 ->
  exists b t', ht_insert rehash ok t p h = Ret (b, t') /\ CI t' /\ elems t' <= elems t + 1.
Proof.
  intros HI Hp Hmax. apply N.eqb_neq in Hp.
  assert (Hfin : forall t1 T1, CT t1 T1 -> elems t1 + 1 <= maxe t1 -> elems t1 + 1 + deleted t1 <= maxd t1 ->
    elems t1 = elems t ->
    exists b t', (let t2 := if N.land p (mask t1) =? cbits t1 then t1 else update_common t1 p in
      let* T := ht_add t2 (table t2) p h in
      Ret (true, mkHt (bits t2) (elems t2 + 1) (deleted t2) (maxe t2) (maxd t2)
                        (mask t2) (cbits t2) (perf t2) (Some T))) = Ret (b, t') /\ CI t' /\ elems t' <= elems t + 1).
  { intros t1 T1 K H1 H2 H3. cbv zeta.
    assert (Hx : exists T2, let t2 := if N.land p (mask t1) =? cbits t1 then t1 else update_common t1 p in
       CT t2 T2 /\ elems t2 = elems t1 /\ deleted t2 = deleted t1 /\ maxe t2 = maxe t1 /\ maxd t2 = maxd t1).
    { destruct (N.land p (mask t1) =? cbits t1); [exists T1; auto|]. apply (update_cnt t1 T1 p K). }
    destruct Hx as [T2 [K2 [E1 [E2 [E3 E4]]]]].
    match goal with |- context [ht_add ?x _ _ _] => set (t2 := x) in * end.
    destruct (finish_cnt t2 T2 p h K2 ltac:(lia) ltac:(lia)) as [T' [Ha K']]. rewrite Ha. cbn [obind].
    eexists _, _. split; [reflexivity|]. split; [right; eauto|]. cbn [elems]. lia. }
  unfold ht_insert, htable_add. destruct HI as [->|[T K]].
  - destruct ok; [|eexists _, _; split; [reflexivity|]; split; [left; reflexivity|cbn; lia]].
    change (maxe ht_init <? elems ht_init + 1) with true. cbv iota.
    replace (double_table rehash true ht_init)
      with (Ret (Some (mkHt 1 0 0 1 1 ones64 0 1 (Some [0; 0])))) by (vm_compute; reflexivity).
    cbn [obind]. change (maxd _ <? _) with false. cbv iota. cbn [obind]. rewrite Hp.
    apply (Hfin (mkHt 1 0 0 1 1 ones64 0 1 (Some [0; 0])) [0; 0]); try reflexivity; try (cbn; lia).
    constructor; try reflexivity; try (cbn; lia); cbn [bits]; try lia.
  - pose proof (K_max _ _ K) as Hme.
    destruct (N.ltb_spec (maxe t) (elems t + 1)) as [Hd|Hd].
    + destruct (double_cnt t T ok K ltac:(lia) ltac:(lia)) as [[_ Hdb]|[t1 [T1 [Hdb [K1 [H1 [H2 H3]]]]]]];
        rewrite Hdb; cbn [obind].
      * eexists _, _. split; [reflexivity|]. split; [right; eauto|lia].
      * destruct (CT_lt _ _ K1) as [_ [_ Hlim]].
        replace (maxd t1 <? elems t1 + 1 + deleted t1) with false by lia. cbn [obind]. rewrite Hp.
        apply (Hfin t1 T1 K1); lia.
    + cbn [obind]. destruct (N.ltb_spec (maxd t) (elems t + 1 + deleted t)) as [Hr|Hr].
      * destruct (rehash_cnt t T K Hd) as [t1 [T1 [Hrh [K1 [H1 [H2 H3]]]]]]. rewrite Hrh. cbn [obind]. rewrite Hp.
        destruct (CT_lt _ _ K1) as [_ [_ Hlim]]. apply (Hfin t1 T1 K1); lia.
      * cbn [obind]. rewrite Hp. apply (Hfin t T K); lia.
Qed.

(** ** Probing *)
Lemma ht_val_cnt t T b z : table t = T -> lenN T = size t -> z < size t ->
  g T ((b + z) mod size t) = 0 -> (forall j, j < z -> g T ((b + j) mod size t) <> 0) ->
  forall fuel d h2 pf, d <= z -> (N.to_nat (z - d) < fuel)%nat ->
  ht_val fuel t ((b + d) mod size t) h2 pf = Ret None
  \/ exists j p, d <= j < z /\ valid (g T ((b + j) mod size t)) = true
       /\ ht_val fuel t ((b + d) mod size t) h2 pf = Ret (Some (p, (b + j) mod size t)).
Proof.
  intros HtT Hl Hz Hgz Hnz. pose proof (size_pos t) as Hn.
  induction fuel as [|fuel IH]; intros d h2 pf Hd Hf; [lia|]. cbn [ht_val]. rewrite HtT.
  rewrite rd_ok by (rewrite Hl; apply N.mod_lt; lia). cbn [obind].
  destruct (N.eq_dec d z) as [->|Hdz]; [rewrite Hgz; left; reflexivity|].
  pose proof (Hnz d ltac:(lia)) as Hg. apply N.eqb_neq in Hg as Hg'. rewrite Hg'.
  match goal with |- context [if ?c then _ else _] => destruct c eqn:E end.
  - right. exists d. eexists. split; [lia|]. split; [|reflexivity].
    apply andb_true_iff in E as [E _]. unfold valid, DELETED in *. lia.
  - unfold next_slot. rewrite land_mask, mod_step by lia.
    destruct (IH (d + 1) (N.land h2 (not64 pf)) pf ltac:(lia) ltac:(lia)) as [He|[j [p [Hj [Hv He]]]]]; rewrite He; [now left|].
    right. exists j, p. split; [lia|]. auto.
Qed.

Lemma find_cnt t T obj h : CT t T ->
  ht_find cmp t obj h = Ret None \/
  exists p i, ht_find cmp t obj h = Ret (Some (p, i)) /\ i < size t /\ valid (g T i) = true.
Proof.
  intros K. destruct (CT_lt _ _ K) as [Hnz _]. pose proof (K_len _ _ K) as Hl. pose proof (size_pos t) as Hn.
  assert (HtT : table t = T) by (unfold table; now rewrite (K_own _ _ K)).
  destruct (exists_zero T) as [i0 [Hi0 Hg0]]; [lia|].
  pose proof (bucket_lt t h) as Hb. set (b := hash_bucket t h) in *.
  destruct (mod_surj _ _ i0 Hb ltac:(lia)) as [d0 [Hd0 Hd0']].
  destruct (least_between (fun d => g T ((b + d) mod size t) =? 0) 0 d0) as [z [Hz [Hgz Hj]]].
  { lia. } { cbv beta. rewrite Hd0', Hg0. reflexivity. }
  apply N.eqb_eq in Hgz.
  assert (Hnzz : forall j, j < z -> g T ((b + j) mod size t) <> 0).
  { intros j Hjz. apply N.eqb_neq. apply Hj. lia. }
  assert (Hfu : (N.to_nat z < rounds t)%nat). { unfold rounds. rewrite HtT. unfold lenN in Hl. lia. }
  assert (Hmain : forall fuel d h2 pf, d <= z -> (N.to_nat (z - d) < fuel)%nat ->
    find_from fuel cmp t obj h (ht_val (rounds t) t ((b + d) mod size t) h2 pf) = Ret None \/
    exists p i, find_from fuel cmp t obj h (ht_val (rounds t) t ((b + d) mod size t) h2 pf) = Ret (Some (p, i))
      /\ i < size t /\ valid (g T i) = true).
  { induction fuel as [|fuel IH]; intros d h2 pf Hd Hf; [lia|]. cbn [find_from].
    destruct (ht_val_cnt t T b z HtT Hl ltac:(lia) Hgz Hnzz (rounds t) d h2 pf Hd ltac:(lia)) as [He|[j [p [Hjz [Hv He]]]]];
      rewrite He; cbn [obind]; [now left|].
    destruct (cmp obj p).
    - right. exists p, ((b + j) mod size t). split; [reflexivity|]. split; [apply N.mod_lt; lia|exact Hv].
    - unfold ht_nextval, next_slot. rewrite land_mask, mod_step by lia. apply IH; lia. }
  unfold ht_find, ht_firstval. fold b.
  replace b with ((b + 0) mod size t) by (rewrite N.add_0_r; now apply N.mod_small).
  apply Hmain; lia.
Qed.

Lemma foreach_cnt t T : CT t T -> exists l, ht_foreach t = Ret l.
Proof.
  intros K. pose proof (K_len _ _ K) as Hl. pose proof (K_own _ _ K) as Ho.
  assert (HtT : table t = T) by (unfold table; now rewrite Ho).
  assert (Hmain : forall fuel i, i <= size t -> (N.to_nat (size t - i) < fuel)%nat ->
    exists l, (let* j := this_or_next t i in foreach fuel t j) = Ret l).
  { induction fuel as [|fuel IH]; intros i Hi Hf; [lia|].
    unfold this_or_next at 1. rewrite Ho.
    destruct (next_valid_spec T (N.to_nat (size t - i)) i ltac:(lia)) as [[j [Hj [He [Hv Hfl]]]]|[He Hfl]];
      rewrite He; cbn [obind foreach get_entry]; [|rewrite N.eqb_refl; eauto].
    replace (j <? size t) with true by lia. rewrite HtT, rd_ok by lia. cbn [obind]. rewrite Hv.
    destruct (get_raw t (g T j) =? 0); [eauto|].
    destruct (IH (j + 1) ltac:(lia) ltac:(lia)) as [l Hl'].
    destruct (this_or_next t (j + 1)) as [x| |] eqn:E; cbn [obind] in *; try discriminate.
    rewrite Hl'. cbn [obind]. eauto. }
  unfold ht_foreach. apply Hmain; [lia|]. unfold rounds. rewrite HtT. unfold lenN in Hl. lia.
Qed.

Lemma step_cnt t o : CI t -> (forall p h b, o = Insert p h b -> p <> 0) ->
  (is_insert o = true -> elems t + 1 <= 3 * 2 ^ 28) ->
  exists t' x, step rehash cmp t o = Ret (t', x) /\ CI t'
    /\ elems t' <= elems t + (if is_insert o then 1 else 0).
Proof.
  intros HI Ho Hmax. destruct o as [p h ok|obj h|obj h| | |]; cbn [step is_insert] in *.
  - destruct (insert_cnt t p h ok HI (Ho _ _ _ eq_refl) (Hmax eq_refl)) as [b [t' [He [HI' Hle]]]].
    rewrite He. cbn [obind]. eauto.
  - unfold ht_lookup. destruct HI as [->|[T K]].
    + rewrite find_init. cbn [obind]. eexists _, _. split; [reflexivity|]. split; [now left|lia].
    + destruct (find_cnt t T obj h K) as [He|[p [i [He _]]]]; rewrite He; cbn [obind];
        eexists _, _; (split; [reflexivity|]; split; [right; eauto|lia]).
  - unfold ht_remove. destruct HI as [->|[T K]].
    + rewrite find_init. cbn [obind]. eexists _, _. split; [reflexivity|]. split; [now left|lia].
    + destruct (find_cnt t T obj h K) as [He|[p [i [He [Hi Hv]]]]]; rewrite He; cbn [obind].
      * eexists _, _; (split; [reflexivity|]; split; [right; eauto|lia]).
      * unfold htable_delval. replace (i <? size t) with true by lia.
        assert (HtT : table t = T) by (unfold table; now rewrite (K_own _ _ K)). rewrite HtT.
        pose proof (K_len _ _ K) as Hl.
        rewrite rd_ok by lia. cbn [obind]. rewrite Hv, wr_ok by lia. cbn [obind].
        eexists _, _. split; [reflexivity|]. split; [|cbn [elems]; lia]. right. exists (put T i DELETED).
        pose proof (nz_put T i DELETED ltac:(lia)) as Hnzp. pose proof (vc_put T i DELETED ltac:(lia)) as Hvcp.
        pose proof (valid_nz _ Hv) as Hg0. apply N.eqb_neq in Hg0. rewrite Hg0 in Hnzp. rewrite Hv in Hvcp.
        change (DELETED =? 0) with false in Hnzp. change (valid DELETED) with false in Hvcp.
        cbn [negb b2n] in Hnzp, Hvcp.
        destruct K as [w1 w2 w3 w4 w5 w6 w7 w8 w9].
        constructor; cbn [own bits maxe maxd elems deleted]; auto; try lia.
        rewrite lenN_put; [exact Hl|lia].
  - eexists _, _. split; [reflexivity|]. split; [exact HI|lia].
  - destruct HI as [->|[T K]].
    + eexists _, _. split; [reflexivity|]. split; [now left|cbn; lia].
    + destruct (foreach_cnt t T K) as [l He]. rewrite He. cbn [obind].
      eexists _, _. split; [reflexivity|]. split; [right; eauto|lia].
  - eexists _, _. split; [reflexivity|]. split; [now left|cbn; lia].
Qed.

Lemma run_cnt ops : forall t, CI t -> (forall p h b, In (Insert p h b) ops -> p <> 0) ->
  elems t + inserts ops <= 3 * 2 ^ 28 ->
  exists t' xs, run rehash cmp t ops = Ret (t', xs).
Proof.
  induction ops as [|o ops IH]; intros t HI Ho Hmax; cbn [run]; [eauto|].
  unfold inserts in *. cbn [filter] in *.
  destruct (step_cnt t o HI) as [t1 [x [He [HI1 Hle]]]].
  { intros p h b ->. apply (Ho p h b). now left. }
  { intros E. rewrite E in Hmax. len. lia. }
  rewrite He. cbn [obind].
  destruct (IH t1 HI1) as [t2 [xs He2]].
  { intros p h b Hin. apply (Ho p h b). now right. }
  { destruct (is_insert o); len; lia. }
  rewrite He2. cbn [obind]. eauto.
Qed.
End Term.

Lemma htable_terminates rehash cmp ops :
  (forall p h b, In (Insert p h b) ops -> p <> 0) -> inserts ops <= 3 * 2 ^ 28 ->
  exists t xs, run rehash cmp ht_init ops = Ret (t, xs).
Proof. intros H1 H2. apply run_cnt; auto. now left. Qed.

Lemma htable_is_bag rehash cmp k ops : 1 <= k <= 63 ->
  Forall (good_op rehash k) ops -> inserts ops <= 3 * 2 ^ 28 ->
  exists t L xs, run rehash cmp ht_init ops = Ret (t, xs) /\ bag_run rehash cmp [] ops L xs.
Proof.
  intros Hk Hg Hm. destruct (run_ok rehash cmp k Hk ops ht_init []) as [t [L [xs [H1 [H2 _]]]]]; auto.
  - left. auto.
  - exists t, L, xs. auto.
Qed.

Lemma htable_visits rehash cmp k ops : 1 <= k <= 63 ->
  Forall (good_op rehash k) ops -> inserts ops <= 3 * 2 ^ 28 ->
  exists t L xs l, run rehash cmp ht_init ops = Ret (t, xs) /\ bag_run rehash cmp [] ops L xs
    /\ Permutation.Permutation L (ht_visit t)
    /\ ht_foreach t = Ret l /\ Permutation.Permutation L l
    /\ ht_clear t = (ht_visit t, ht_init).
Proof.
  intros Hk Hg Hm. destruct (run_ok rehash cmp k Hk ops ht_init []) as [t [L [xs [H1 [H2 HW]]]]]; auto.
  - left. auto.
  - destruct (foreach_perm rehash cmp k Hk t L HW) as [l [Hf Hp]].
    exists t, L, xs, l. repeat split; auto. eapply visit_ok; eauto.
Qed.
