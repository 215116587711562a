From Verif Require Import Base Align_Model.

Definition is_pow2 (p : N) : Prop := exists k, p = 2 ^ k.

(** Specification of "round up to a power of two". *)
Definition least_pow2_ge (u p : N) : Prop :=
  is_pow2 p /\ u <= p /\ forall q, is_pow2 q -> u <= q -> p <= q.

Lemma two64_val : two64 = 18446744073709551616. Proof. reflexivity. Qed.

Lemma align_power2_correct u :
  1 <= u <= 2 ^ 63 -> exists p, align_power2 u = Ok p /\ least_pow2_ge u p /\ p <= 2 ^ 63.
Proof.
  intros Hu. unfold align_power2.
  destruct (u =? 1) eqn:E1.
  - exists 1. split; [reflexivity|]. assert (u = 1) by lia; subst u.
    split; [|vm_compute; discriminate].
    split; [exists 0; reflexivity|]. split; [lia|].
    intros q [k ->] Hq. exact Hq.
  - assert (Hu2 : 2 <= u) by lia.
    assert (Hw : wrap64 (u + two64 - 1) = u - 1).
    { unfold wrap64. rewrite two64_val.
      assert (H63 : 2 ^ 63 = 9223372036854775808) by reflexivity.
      rewrite H63 in Hu.
      replace (u + 18446744073709551616 - 1) with (u - 1 + 1 * 18446744073709551616) by lia.
      rewrite N.mod_add by lia. apply N.mod_small. lia. }
    rewrite Hw. unfold clz64.
    destruct (u - 1 =? 0) eqn:E0; [lia|]. cbn [bind].
    pose proof (N.log2_spec (u - 1) ltac:(lia)) as [Hlo Hhi].
    assert (Hl : N.log2 (u - 1) < 63).
    { apply N.log2_lt_pow2; lia. }
    replace (64 - (63 - N.log2 (u - 1))) with (N.succ (N.log2 (u - 1))) by lia.
    unfold shl1_64. destruct (64 <=? N.succ (N.log2 (u - 1))) eqn:E64; [lia|].
    eexists; split; [reflexivity|]. split.
    + split; [eexists; reflexivity|]. split; [lia|].
      intros q [k ->] Hq.
      apply N.pow_le_mono_r; [lia|].
      assert (Hk : N.log2 (u - 1) < k).
      { apply N.log2_lt_pow2; [lia|]. lia. }
      lia.
    + apply N.pow_le_mono_r; lia.
Qed.

Lemma align_power2_ub u : u < two64 -> (u = 0 \/ 2 ^ 63 < u) -> align_power2 u = UB.
Proof.
  intros Hb Hu. unfold align_power2. rewrite two64_val in Hb.
  assert (H63 : 2 ^ 63 = 9223372036854775808) by reflexivity.
  rewrite H63 in Hu.
  destruct (u =? 1) eqn:E1; [lia|].
  destruct Hu as [->|Hu]; [vm_compute; reflexivity|].
  assert (Hw : wrap64 (u + two64 - 1) = u - 1).
  { unfold wrap64. rewrite two64_val.
    replace (u + 18446744073709551616 - 1) with (u - 1 + 1 * 18446744073709551616) by lia.
    rewrite N.mod_add by lia. apply N.mod_small. lia. }
  rewrite Hw. unfold clz64. destruct (u - 1 =? 0) eqn:E0; [lia|]. cbn [bind].
  assert (Hl : N.log2 (u - 1) = 63).
  { apply N.log2_unique; [lia|]. rewrite H63.
    assert (2 ^ N.succ 63 = 18446744073709551616) by reflexivity. lia. }
  rewrite Hl. reflexivity.
Qed.

Lemma align_power2_least u :
  1 <= u <= 2 ^ 63 ->
  exists p, align_power2 u = Ok p
    /\ (exists k, p = 2 ^ k)
    /\ u <= p
    /\ (forall k, u <= 2 ^ k -> p <= 2 ^ k).
Proof.
  intros Hu. destruct (align_power2_correct u Hu) as [p [H1 [[H2 [H3 H4]] _]]].
  exists p; repeat split; auto. intros k Hk. apply H4; [eexists; reflexivity|exact Hk].
Qed.

Lemma align_power2_ub_iff u :
  u < 2 ^ 64 -> (align_power2 u = UB <-> (u = 0 \/ 2 ^ 63 < u)).
Proof.
  intros Hu; split; [|apply align_power2_ub; exact Hu].
  intros H. destruct (N.eq_dec u 0) as [->|Hn]; [left; reflexivity|right].
  apply N.nle_gt; intros Hle.
  destruct (align_power2_correct u ltac:(lia)) as [p [Hp _]].
  rewrite Hp in H; discriminate.
Qed.
