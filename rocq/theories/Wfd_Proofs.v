From Verif Require Import Base Wfd_Model Wfd_Spec.

Fixpoint number (k : N) (t : list (N * N)) : list entry :=
  match t with [] => [] | (h, v) :: t => (k, h, v) :: number (k + 1) t end.

Lemma land_bit i m : negb (N.land (N.shiftl 1 i) m =? 0) = N.testbit m i.
Proof.
  rewrite N.shiftl_1_l. destruct (N.testbit m i) eqn:E.
  - apply negb_true_iff, N.eqb_neq. intros H.
    assert (Hb : N.testbit (N.land (2 ^ i) m) i = false) by (rewrite H; apply N.bits_0).
    rewrite N.land_spec, N.pow2_bits_true, E in Hb. discriminate.
  - apply negb_false_iff, N.eqb_eq. apply N.bits_inj. intros j. rewrite N.land_spec, N.bits_0.
    destruct (N.eq_dec j i) as [->|Hne]; [rewrite E; apply andb_false_r|].
    rewrite N.pow2_bits_false by congruence. reflexivity.
Qed.

Lemma scan_ok t mask : forall k, Forall (fun r => fst r <> 0) t ->
  (exists i r, scan (number k t) mask = Some r /\ N.testbit mask (k + i) = true /\ nthN t i = Some r
     /\ forall j, j < i -> N.testbit mask (k + j) = false)
  \/ (scan (number k t) mask = None /\ forall j, j < lenN t -> N.testbit mask (k + j) = false).
Proof.
  induction t as [|[h v] t IH]; intros k Hf; cbn [number scan].
  - right. split; [reflexivity|]. intros j Hj. len. lia.
  - inversion Hf as [|? ? Hh Hf']; subst. cbn [fst] in Hh. replace (h =? 0) with false by lia.
    rewrite land_bit. destruct (N.testbit mask k) eqn:E.
    + left. exists 0, (h, v). rewrite N.add_0_r. repeat split; auto. intros j Hj. lia.
    + destruct (IH (k + 1) Hf') as [[i [r [H1 [H2 [H3 H4]]]]]|[H1 H2]].
      * left. exists (1 + i), r. split; [exact H1|]. replace (k + (1 + i)) with (k + 1 + i) by lia. split; [exact H2|].
        split. { unfold nthN in *. replace (N.to_nat (1 + i)) with (S (N.to_nat i)) by lia. exact H3. }
        intros j Hj. destruct (N.eq_dec j 0) as [->|]; [now rewrite N.add_0_r|].
        replace (k + j) with (k + 1 + (j - 1)) by lia. apply H4. lia.
      * right. split; [exact H1|]. intros j Hj. len. destruct (N.eq_dec j 0) as [->|]; [now rewrite N.add_0_r|].
        replace (k + j) with (k + 1 + (j - 1)) by lia. apply H2. lia.
Qed.

Lemma get_ok t mask : Forall (fun r => fst r <> 0) t ->
  (exists r, get_resolution (number 0 t) mask = Some r /\ lowest t mask r)
  \/ (get_resolution (number 0 t) mask = None /\ nothing t mask).
Proof.
  intros Hf. unfold get_resolution. destruct (N.eqb_spec mask 0) as [->|Hm].
  - right. split; [reflexivity|]. intros j _. apply N.bits_0.
  - destruct (scan_ok t mask 0 Hf) as [[i [r [H1 [H2 [H3 H4]]]]]|[H1 H2]].
    + left. exists r. split; [exact H1|]. exists i. rewrite N.add_0_l in H2. split; [exact H2|]. split; [exact H3|].
      intros j Hj. specialize (H4 j Hj). now rewrite N.add_0_l in H4.
    + right. split; [exact H1|]. intros j Hj. specialize (H2 j Hj). now rewrite N.add_0_l in H2.
Qed.

Definition both (t : list (N * N)) : bool := forallb (fun r => negb (fst r =? 0) && negb (snd r =? 0)) t.
Lemma both_fst t : both t = true -> Forall (fun r => fst r <> 0) t.
Proof.
  intros H. apply Forall_forall. intros r Hr. apply (proj1 (forallb_forall _ t) H) in Hr.
  apply andb_true_iff in Hr as [Hr _]. apply negb_true_iff, N.eqb_neq in Hr. exact Hr.
Qed.
Lemma both_low t mask h v : both t = true -> lowest t mask (h, v) -> (h =? 0) || (v =? 0) = false.
Proof.
  intros H [i [_ [Hn _]]]. unfold nthN in Hn. apply nth_error_In in Hn.
  apply (proj1 (forallb_forall _ t) H) in Hn. cbn [fst snd] in Hn. destruct (h =? 0), (v =? 0); try discriminate. reflexivity.
Qed.

Lemma set_format_ok mc mv mh : choice mc mv mh (set_format mc mv mh).
Proof.
  unfold set_format.
  change resolutions_cea with (number 0 cea). change resolutions_vesa with (number 0 vesa).
  change resolutions_hh with (number 0 hh).
  destruct (get_ok cea mc (both_fst cea eq_refl)) as [[[h v] [-> H1]]|[-> H1]].
  { rewrite (both_low cea mc h v eq_refl H1). now apply ChCea. }
  destruct (get_ok vesa mv (both_fst vesa eq_refl)) as [[[h v] [-> H2]]|[-> H2]].
  { rewrite (both_low vesa mv h v eq_refl H2). now apply ChVesa. }
  destruct (get_ok hh mh (both_fst hh eq_refl)) as [[[h v] [-> H3]]|[-> H3]].
  { rewrite (both_low hh mh h v eq_refl H3). now apply ChHh. }
  now apply ChNone.
Qed.

Lemma lowest_unique t m r r' : lowest t m r -> lowest t m r' -> r = r'.
Proof.
  intros [i [H1 [H2 H3]]] [j [K1 [K2 K3]]].
  assert (i = j); [|subst; congruence].
  destruct (N.lt_trichotomy i j) as [H|[H|H]]; [|exact H|].
  - rewrite (K3 i H) in H1. discriminate.
  - rewrite (H3 j H) in K1. discriminate.
Qed.
Lemma lowest_nothing t m r : lowest t m r -> nothing t m -> False.
Proof.
  intros [i [H1 [H2 _]]] Hn. rewrite (Hn i) in H1; [discriminate|].
  unfold nthN in H2. assert (nth_error t (N.to_nat i) <> None) by congruence.
  apply nth_error_Some in H. unfold lenN. lia.
Qed.
Lemma choice_unique mc mv mh r r' : choice mc mv mh r -> choice mc mv mh r' -> r = r'.
Proof.
  intros H K. destruct H; destruct K; try reflexivity; try (f_equal; eapply lowest_unique; eassumption);
    match goal with H : lowest ?t ?m _, K : nothing ?t ?m |- _ => destruct (lowest_nothing _ _ _ H K) end.
Qed.

Lemma resolution_mask_ok i : i < 30 -> resolution_mask i = Ok (N.ones (i + 1)).
Proof.
  intros H. unfold resolution_mask. rewrite N.mod_small by lia.
  replace (i + 1 <? 31) with true by lia. rewrite N.ones_equiv, N.shiftl_1_l, N.sub_1_r. reflexivity.
Qed.
