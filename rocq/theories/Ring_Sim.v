From Verif Require Import Base Align_Model Align_Proofs Ring_Model Ring_Spec Ring_Proofs.

Lemma push_sim r q d ok :
  R r q -> lenN (bytes q) + lenN d <= 2 ^ 63 ->
  exists r' b q', ring_push r d ok = Ok (r', b) /\ R r' q'
    /\ spec_step q (Push d ok) q' (OErr b).
Proof.
  intros HR Hb. unfold ring_push.
  destruct (lenN d =? 0) eqn:E0.
  { exists r, true, q. assert (d = []) by (apply lenN_0_nil; lia). subst d.
    repeat split; try apply HR. constructor. }
  assert (Hdn : d <> []) by (intros ->; discriminate E0).
  pose proof (size_bound _ _ HR) as Hsz. rewrite pow63 in Hb.
  unfold ring_grow.
  destruct (lenN d <=? size r - used r) eqn:E1.
  - cbn [bind].
    destruct (push_fits r q d HR ltac:(lia) ltac:(lia)) as [r' [He HR']].
    cbn zeta in He. cbn zeta. rewrite He.
    exists r', true, (mkQueue (bytes q ++ d) (cap q)). repeat split; try apply HR'.
    apply SPushFits; [exact Hdn|]. unfold fits.
    rewrite <- (R_cap _ _ HR), <- (R_used _ _ HR).
    destruct HR; lia.
  - assert (Hnf : ~ fits q d).
    { unfold fits. rewrite <- (R_cap _ _ HR), <- (R_used _ _ HR). destruct HR; lia. }
    pose proof (R_used _ _ HR) as Hu. pose proof (R_le _ _ HR) as Hle.
    rewrite wrap64_small by lia.
    destruct (used r + lenN d <=? used r) eqn:E2; [lia|].
    set (need := if used r + lenN d <? 4096 then 4096 else used r + lenN d).
    assert (Hneed : 1 <= need <= 2 ^ 63).
    { rewrite pow63. unfold need. destruct (used r + lenN d <? 4096); lia. }
    destruct (align_power2_correct need Hneed) as [p [Hp [[[k Hk] [Hge Hleast]] Hp63]]].
    rewrite Hp. cbn [bind].
    assert (Hp4096 : 4096 <= p /\ used r + lenN d <= p).
    { unfold need in Hge. destruct (used r + lenN d <? 4096) eqn:E4; lia. }
    destruct (p =? 0) eqn:E3; [lia|].
    destruct ok.
    + destruct (resize_ok r q p HR ltac:(lia)) as [r1 [He [Hs1 [Hst [Hu1 [Hl1 Hd1]]]]]].
      rewrite He. cbn [bind].
      assert (HR1 : R r1 (mkQueue (bytes q) p)).
      { constructor; cbn [bytes cap]; auto; try lia.
        - right. exists k. split; [congruence|].
          assert (H1 : 2 ^ 12 <= 2 ^ k) by (rewrite <- Hk; change (2 ^ 12) with 4096; lia).
          assert (H2 : 2 ^ k <= 2 ^ 63) by (rewrite <- Hk; exact Hp63).
          apply N.pow_le_mono_r_iff in H1; [|lia].
          apply N.pow_le_mono_r_iff in H2; lia.
        - unfold rot. rewrite Hst, dropN_0, takeN_0, app_nil_r. exact Hd1. }
      destruct (push_fits r1 _ d HR1 ltac:(lia) ltac:(lia)) as [r' [He' HR']].
      cbn [bytes cap] in HR'. cbn zeta in He'. cbn zeta. rewrite He'.
      exists r', true, (mkQueue (bytes q ++ d) p). repeat split; try apply HR'.
      apply SPushGrow; auto. exists k. rewrite <- Hu. repeat split; try lia.
      intros j Hj1 Hj2. apply Hleast; [eexists; reflexivity|].
      unfold need. destruct (used r + lenN d <? 4096); lia.
    + unfold ring_resize. cbn [negb bind].
      exists r, false, q. repeat split; try apply HR. apply SPushOom; auto.
Qed.

Lemma peek_sim r q :
  R r q -> exists s, ring_peek r = Ok s /\ spec_step q Peek q (OSegs s).
Proof.
  intros HR. unfold ring_peek. pose proof (size_bound _ _ HR) as Hsz.
  pose proof (read_front_ok r q (used r) HR ltac:(lia)) as Hf.
  destruct HR as [Hc Hu Hl Hp Hle Hs Hd].
  assert (Hall : takeN (used r) (bytes q) = bytes q) by (apply takeN_all; lia).
  rewrite Hall in Hf.
  destruct (used r =? 0) eqn:E0.
  { exists []. split; [reflexivity|]. constructor; cbn; auto; try lia.
    assert (bytes q = []) as -> by (apply lenN_0_nil; lia). reflexivity. }
  rewrite wrap64_small by lia. unfold read_front in Hf.
  destruct (start r + used r <=? size r) eqn:E1;
    destruct (used r <=? size r - start r) eqn:E2; try lia.
  - rewrite Hf. cbn [bind]. eexists; split; [reflexivity|].
    constructor; cbn; auto; try lia; [|apply app_nil_r].
    intros [H|[]]. destruct (bytes q); [rewrite lenN_nil in Hu; lia|discriminate].
  - destruct (mem_read (buf r) (start r) (size r - start r)) as [a|] eqn:Ea;
      cbn [bind] in Hf |- *; [|discriminate].
    destruct (mem_read (buf r) 0 (used r - (size r - start r))) as [b|] eqn:Eb;
      cbn [bind] in Hf |- *; [|discriminate].
    injection Hf as Hf. eexists; split; [reflexivity|].
    unfold mem_read in Ea, Eb.
    destruct (_ <=? _) eqn:Q1 in Ea; [|discriminate]. injection Ea as Ea.
    destruct (_ <=? _) eqn:Q2 in Eb; [|discriminate]. injection Eb as Eb.
    assert (La : lenN a = size r - start r) by (rewrite <- Ea; len; lia).
    assert (Lb : lenN b = used r - (size r - start r)) by (rewrite <- Eb; len; lia).
    constructor; cbn; auto.
    + intros [H|[H|[]]]; [rewrite H in La; rewrite lenN_nil in La; lia|rewrite H in Lb; rewrite lenN_nil in Lb; lia].
    + rewrite app_nil_r. exact Hf.
Qed.

Lemma copy_sim r q n :
  R r q -> ring_copy r n = Ok (map Some (takeN n (bytes q))).
Proof.
  intros HR. unfold ring_copy. pose proof (R_used _ _ HR) as Hu.
  set (m := if used r <? n then used r else n).
  assert (Hm : m <= used r) by (unfold m; destruct (used r <? n) eqn:E; lia).
  assert (Ht : takeN m (bytes q) = takeN n (bytes q)).
  { unfold m. destruct (used r <? n) eqn:E; [|reflexivity].
    rewrite !takeN_all by lia. reflexivity. }
  cbn zeta. destruct (0 <? m) eqn:E0.
  - rewrite <- Ht. apply (read_front_ok r q m HR Hm).
  - rewrite <- Ht. replace m with 0 by lia. reflexivity.
Qed.

Lemma pull_sim r q n :
  R r q -> R (ring_pull r n) (mkQueue (dropN n (bytes q)) (cap q)).
Proof.
  intros HR. pose proof (size_bound _ _ HR) as Hsz. unfold ring_pull.
  set (m := if used r <? n then used r else n).
  assert (Hu := R_used _ _ HR).
  assert (Hm : m <= used r) by (unfold m; destruct (used r <? n) eqn:E; lia).
  assert (Ht : dropN m (bytes q) = dropN n (bytes q)).
  { unfold m. destruct (used r <? n) eqn:E; [|reflexivity].
    rewrite !dropN_all by lia. reflexivity. }
  rewrite <- Ht.
  destruct (N.eq_dec (size r) 0) as [Hz|Hnz].
  - destruct HR as [Hc Hu' Hl Hp Hle Hs Hd].
    assert (Hst : start r = 0) by lia.
    assert (m = 0) as -> by lia.
    rewrite (wrap64_small (start r + 0)) by lia.
    unfold ring_mask. rewrite Hst. rewrite N.land_0_l.
    constructor; cbn [buf size start used bytes cap]; try lia; auto.
    + rewrite dropN_0. lia.
    + assert (bytes q = []) as -> by (apply lenN_0_nil; lia).
      assert (buf r = []) as -> by (apply lenN_0_nil; lia).
      unfold takeN. now rewrite firstn_nil.
  - rewrite (mask_mod r q) by assumption.
    destruct HR as [Hc _ Hl Hp Hle Hs Hd].
    assert (Hst : start r < size r) by lia.
    rewrite wrap64_small by lia. rewrite mod_2x by lia.
    constructor; cbn [buf size start used bytes cap]; auto; try (len; lia).
    + destruct (start r + m <? size r) eqn:E; lia.
    + rewrite <- dropN_map, <- Hd. unfold rot; cbn [buf start].
      apply nthN_ext; intros i.
      destruct (start r + m <? size r) eqn:E; list_norm_all; list_cases; list_done.
Qed.

Lemma step_sim r q o :
  R r q -> lenN (bytes q) + lenN (push_bytes o) <= 2 ^ 63 ->
  exists r' x q', step r o = Ok (r', x) /\ spec_step q o q' x /\ R r' q'.
Proof.
  intros HR Hb. destruct o as [d ok|n| |n| | |]; cbn [step push_bytes] in *.
  - destruct (push_sim r q d ok HR Hb) as [r' [b [q' [He [HR' Hs]]]]].
    rewrite He. cbn [bind fst snd]. eauto 8.
  - eexists _, _, _. split; [reflexivity|]. split; [constructor|]. now apply pull_sim.
  - destruct (peek_sim r q HR) as [s [He Hs]]. rewrite He. cbn [bind]. eauto 8.
  - rewrite (copy_sim r q n HR). cbn [bind]. eexists _, _, _.
    split; [reflexivity|]. split; [constructor|exact HR].
  - eexists _, _, _. split; [reflexivity|]. unfold ring_get_size.
    rewrite (R_used _ _ HR). split; [constructor|exact HR].
  - eexists _, _, _. split; [reflexivity|]. split; [constructor|].
    destruct HR as [Hc Hu Hl Hp Hle Hs Hd].
    constructor; cbn [buf size start used bytes cap ring_flush]; auto; try lia.
  - eexists _, _, _. split; [reflexivity|]. split; [constructor|apply R_init].
Qed.

Lemma run_sim ops : forall r q,
  R r q -> addressable q ops ->
  exists r' xs q', run r ops = Ok (r', xs) /\ spec_run q ops q' xs /\ R r' q'.
Proof.
  induction ops as [|o ops IH]; intros r q HR Ha.
  - eexists _, _, _. split; [reflexivity|]. split; [constructor|exact HR].
  - inversion Ha as [|? ? ? Hb Hn]; subst.
    destruct (step_sim r q o HR Hb) as [r1 [x [q1 [He [Hs HR1]]]]].
    destruct (IH r1 q1 HR1 (Hn _ _ Hs)) as [r2 [xs [q2 [He2 [Hs2 HR2]]]]].
    cbn [run]. rewrite He. cbn [bind fst snd]. rewrite He2. cbn [bind fst snd].
    eexists _, _, _. split; [reflexivity|]. split; [econstructor; eassumption|exact HR2].
Qed.

Lemma ring_fifo ops :
  addressable empty_queue ops ->
  exists r xs q, run ring_init ops = Ok (r, xs) /\ spec_run empty_queue ops q xs.
Proof.
  intros Ha. destruct (run_sim ops _ _ R_init Ha) as [r [xs [q [H1 [H2 _]]]]]. eauto 6.
Qed.

(** A total bound on the data ever pushed is enough. *)
Lemma spec_step_len q o q' x :
  spec_step q o q' x -> lenN (bytes q') <= lenN (bytes q) + lenN (push_bytes o).
Proof. intros H; inversion H; subst; cbn [bytes push_bytes empty_queue]; len; lia. Qed.

Lemma total_addressable ops : forall q,
  lenN (bytes q) + total_pushed ops <= 2 ^ 63 -> addressable q ops.
Proof.
  induction ops as [|o ops IH]; intros q Hq; [constructor|].
  cbn [total_pushed] in Hq. constructor; [lia|].
  intros q' x Hs. apply IH. apply spec_step_len in Hs. lia.
Qed.

(** Failed pushes change nothing; pushes into free space succeed. *)
Lemma ring_push_atomic ops d ok :
  addressable empty_queue (ops ++ [Push d ok]) ->
  forall r xs, run ring_init ops = Ok (r, xs) ->
  (exists r', ring_push r d ok = Ok (r', true)
     /\ used r' = used r + lenN d
     /\ ring_copy r' (used r') = (do old <- ring_copy r (used r); Ok (old ++ map Some d)))
  \/ (ring_push r d ok = Ok (r, false) /\ ok = false /\ size r < used r + lenN d).
Proof.
  intros Ha r xs Hr.
  assert (Hgen : forall ops q r0, addressable q (ops ++ [Push d ok]) -> R r0 q ->
            run r0 ops = Ok (r, xs) ->
            exists q', R r q' /\ lenN (bytes q') + lenN d <= 2 ^ 63).
  { clear. intros ops. revert xs. induction ops as [|o ops IH]; intros xs q r0 Ha HR Hr.
    - cbn [run] in Hr. injection Hr as -> _. inversion Ha; subst. eauto.
    - inversion Ha as [|? ? ? Hb Hn]; subst. cbn [run] in Hr.
      destruct (step_sim r0 q o HR Hb) as [r1 [x [q1 [He [Hs HR1]]]]].
      rewrite He in Hr. cbn [bind fst snd] in Hr.
      destruct (run r1 ops) as [[r2 ys]|] eqn:E2; cbn [bind fst snd] in Hr; [|discriminate].
      injection Hr as -> <-. eapply IH; [apply (Hn _ _ Hs)|exact HR1|exact E2]. }
  destruct (Hgen _ _ _ Ha R_init Hr) as [q [HR Hb]].
  destruct (push_sim r q d ok HR Hb) as [r' [b [q' [He [HR' Hs]]]]].
  pose proof (R_used _ _ HR) as Hu. pose proof (R_used _ _ HR') as Hu'.
  inversion Hs; subst.
  - left. exists r'. rewrite He. split; [reflexivity|]. split; [rewrite lenN_nil; lia|].
    rewrite (copy_sim r' q') by assumption. rewrite (copy_sim r q') by assumption.
    cbn [bind map]. rewrite app_nil_r. do 3 f_equal. lia.
  - left. exists r'. rewrite He. split; [reflexivity|].
    cbn [bytes] in Hu'. len. split; [lia|].
    rewrite (copy_sim r' _ _ HR'), (copy_sim r q _ HR). cbn [bind bytes].
    rewrite !takeN_all by (len; lia). rewrite map_app. reflexivity.
  - left. exists r'. rewrite He. split; [reflexivity|].
    cbn [bytes] in Hu'. len. split; [lia|].
    rewrite (copy_sim r' _ _ HR'), (copy_sim r q _ HR). cbn [bind bytes].
    rewrite !takeN_all by (len; lia). rewrite map_app. reflexivity.
  - right. unfold ring_push in He |- *.
    destruct (lenN d =? 0) eqn:E0; [discriminate|].
    destruct (ring_grow r (lenN d) false) as [[r1|]|] eqn:Eg; cbn [bind] in He |- *.
    + exfalso. match type of He with
               | bind ?X _ = _ => destruct X; cbn [bind] in He; discriminate
               end.
    + split; [reflexivity|]. split; [reflexivity|].
      unfold ring_grow in Eg. destruct (lenN d <=? size r - used r) eqn:E1; [discriminate|]. lia.
    + discriminate.
Qed.

Lemma ring_push_fit_no_alloc r d :
  lenN d <= size r - used r ->
  ring_push r d true = ring_push r d false
  /\ forall r' b, ring_push r d false = Ok (r', b) -> b = true /\ size r' = size r.
Proof.
  intros H. unfold ring_push, ring_grow. destruct (lenN d =? 0) eqn:E0.
  - split; [reflexivity|]. intros r' b [= <- <-]. auto.
  - destruct (lenN d <=? size r - used r) eqn:E1; [|lia]. split; [reflexivity|].
    cbn [bind]. intros r' b H2. cbn zeta in H2.
    match type of H2 with
    | bind ?X _ = _ => destruct X; cbn [bind] in H2; [|discriminate]
    end.
    injection H2 as <- <-. auto.
Qed.
