From Verif Require Import Base Checksum_Model Checksum_Spec.

Lemma land_ffff x : N.land x 0xffff = x mod 65536.
Proof. change 0xffff with (N.ones 16). rewrite N.land_ones. reflexivity. Qed.
Lemma shr16 x : N.shiftr x 16 = x / 65536.
Proof. rewrite N.shiftr_div_pow2. reflexivity. Qed.

(** Induction in steps of two. *)
Lemma list_ind2 {A} (P : list A -> Prop) : P [] -> (forall a, P [a]) ->
  (forall a b l, P l -> P (a :: b :: l)) -> forall l, P l.
Proof.
  intros H0 H1 H2. assert (H : forall l, P l /\ forall a, P (a :: l)).
  { induction l as [|x l [IH1 IH2]]; split; auto. }
  intros l. apply H.
Qed.

Fixpoint host_sum (le : bool) (l : list byte) : N :=
  match l with
  | a :: b :: l => word le a b + host_sum le l
  | [a] => word le a 0
  | [] => 0
  end.

Lemma word_lt le a b : a < 256 -> b < 256 -> word le a b <= 65535.
Proof. destruct le; cbn [word]; lia. Qed.
Lemma sum_words_ok le : forall l sum, bytes l ->
  2 * sum + 65535 * (lenN l + 1) < 2 ^ 32 -> sum_words le l sum = Ok (sum + host_sum le l).
Proof.
  induction l as [|a|a b l IH] using list_ind2; intros sum Hb Hl.
  - cbn [sum_words host_sum]. f_equal. lia.
  - inversion Hb; subst. cbn [sum_words host_sum]. unfold add_sum.
    pose proof (word_lt le a 0). len. replace (sum + word le a 0 <? 2 ^ 31) with true by lia. reflexivity.
  - inversion Hb as [|? ? Ha Hb']; subst. inversion Hb' as [|? ? Hb1 Hb2]; subst.
    cbn [sum_words host_sum]. unfold add_sum. len.
    pose proof (word_lt le a b Ha Hb1). replace (sum + word le a b <? 2 ^ 31) with true by lia. cbn [bind].
    rewrite IH; [f_equal; lia|exact Hb2|lia].
Qed.

Lemma host_sum_bound le l : bytes l -> 2 * host_sum le l <= 65535 * (lenN l + 1).
Proof.
  induction l as [|a|a b l IH] using list_ind2; intros Hb; cbn [host_sum]; len; [lia| |].
  - inversion Hb; subst. pose proof (word_lt le a 0). lia.
  - inversion Hb as [|? ? Ha Hb']; subst. inversion Hb' as [|? ? Hb1 Hb2]; subst.
    pose proof (word_lt le a b Ha Hb1). specialize (IH Hb2). lia.
Qed.

(** The folded value. *)
Lemma fold_step s : 65536 <= s -> let s' := s mod 65536 + s / 65536 in
  s' mod 65535 = s mod 65535 /\ 0 < s' /\ s' < s.
Proof. cbv zeta. intros. repeat split; lia. Qed.
Lemma fold16_ok s : s < 2 ^ 31 -> exists r, fold16 4 s = Some r /\ r <= 65535
  /\ r mod 65535 = s mod 65535 /\ (r = 0 <-> s = 0).
Proof.
  intros Hs. cbn [fold16]. rewrite !shr16, !land_ffff.
  assert (Hz : forall x, (x / 65536 =? 0) = (x <? 65536)) by (intros; lia).
  rewrite !Hz. set (s1 := s mod 65536 + s / 65536). set (s2 := s1 mod 65536 + s1 / 65536).
  destruct (N.ltb_spec s 65536); [exists s; repeat split; lia|].
  destruct (fold_step s H) as [E1 [P1 _]]. fold s1 in E1, P1.
  destruct (N.ltb_spec s1 65536).
  { exists s1. repeat split; auto; lia. }
  assert (s1 <= 65535 + 32767) by (subst s1; lia).
  destruct (fold_step s1 H0) as [E2 [P2 _]]. fold s2 in E2, P2.
  assert (s2 < 65536) by (subst s2; lia).
  replace (s2 <? 65536) with true by lia. exists s2. repeat split; auto; lia.
Qed.

Lemma swap_mod w : w < 65536 -> (256 * (w mod 256) + w / 256) mod 65535 = (256 * w) mod 65535.
Proof. intros. lia. Qed.

Lemma be_is_host l : host_sum false l = be_sum l.
Proof. induction l as [|a|a b l IH] using list_ind2; cbn [host_sum be_sum word]; lia. Qed.
Lemma le_mod l : bytes l -> (256 * host_sum true l) mod 65535 = be_sum l mod 65535 /\ (host_sum true l = 0 <-> be_sum l = 0).
Proof.
  induction l as [|a|a b l IH] using list_ind2; intros Hb; cbn [host_sum be_sum word].
  - split; reflexivity.
  - inversion Hb; subst. split; lia.
  - inversion Hb as [|? ? Ha Hb']; subst. inversion Hb' as [|? ? Hb1 Hb2]; subst.
    destruct (IH Hb2) as [I1 I2]. split; [|lia].
    rewrite N.mul_add_distr_l.
    rewrite (N.add_mod (256 * (a + 256 * b))), I1, <- N.add_mod by lia.
    replace (256 * (a + 256 * b) + be_sum l) with (256 * a + b + be_sum l + b * 65535) by lia.
    apply N.mod_add. lia.
Qed.

(** Value in network order of a uint16_t in memory. *)
Definition net (w : list byte) : N := be_sum w.

Lemma mod_65535_inv a b : a <= 65535 -> b <= 65535 -> a mod 65535 = b mod 65535 -> (a = 0 <-> b = 0) -> a = b.
Proof. intros. lia. Qed.

Lemma checksum_ok le l : bytes l -> lenN l <= 65536 -> exists c, checksum le l = Ok (Some c)
  /\ c <= 0xffff /\ ones_sum l (0xffff - net (stored le c)) /\ net (stored le c) <= 0xffff.
Proof.
  intros Hb Hl. unfold checksum. rewrite sum_words_ok by (auto; lia). cbn [bind]. rewrite N.add_0_l.
  pose proof (host_sum_bound le l Hb) as Hsb.
  assert (Hlt : host_sum le l < 2 ^ 31).
  { destruct (N.eq_dec (lenN l) 65536) as [E|]; [|lia].
    assert (HE : forall l, bytes l -> N.even (lenN l) = true -> 2 * host_sum le l <= 65535 * lenN l).
    { clear. induction l as [|a|a b l IH] using list_ind2; intros Hb He; cbn [host_sum]; len; [lia|discriminate|].
      inversion Hb as [|? ? Ha Hb']; subst. inversion Hb' as [|? ? Hb1 Hb2]; subst.
      pose proof (word_lt le a b Ha Hb1). specialize (IH Hb2).
      replace (1 + (1 + lenN l)) with (lenN l + 2 * 1) in He by lia. rewrite N.even_add_mul_2 in He. specialize (IH He). lia. }
    specialize (HE l Hb). rewrite E in HE. specialize (HE eq_refl). lia. }
  destruct (fold16_ok _ Hlt) as [r [Hr [Hr1 [Hr2 Hr3]]]]. rewrite Hr. cbn [option_map].
  exists (65535 - r). split; [reflexivity|]. split; [lia|].
  destruct le; unfold net, stored; cbn [be_sum]; rewrite N.add_0_r.
  - destruct (le_mod l Hb) as [I1 I2].
    set (w := 65535 - r). assert (Hw : w < 65536) by (subst w; lia).
    assert (Hsum : 65535 - (256 * (w mod 256) + w / 256) = 256 * (r mod 256) + r / 256) by (subst w; lia).
    unfold ones_sum. rewrite Hsum. split; [|lia]. split; [lia|]. split.
    + rewrite swap_mod by lia. rewrite <- I1. rewrite <- (N.mul_mod_idemp_r 256 r), Hr2, N.mul_mod_idemp_r by lia. reflexivity.
    + rewrite <- I2, <- Hr3. lia.
  - rewrite be_is_host in *. unfold ones_sum.
    replace (256 * ((65535 - r) / 256) + (65535 - r) mod 256) with (65535 - r) by lia.
    replace (65535 - (65535 - r)) with r by lia. repeat split; auto; lia.
Qed.

Lemma ones_sum_unique l s s' : ones_sum l s -> ones_sum l s' -> s = s'.
Proof. unfold ones_sum. intros [A1 [A2 A3]] [B1 [B2 B3]]. apply mod_65535_inv; auto; [congruence|tauto]. Qed.

Lemma be_sum_app l1 l2 : N.even (lenN l1) = true -> be_sum (l1 ++ l2) = be_sum l1 + be_sum l2.
Proof.
  induction l1 as [|a|a b l IH] using list_ind2; intros He; cbn [app be_sum]; [lia|discriminate|].
  rewrite IH; [lia|]. len. replace (1 + (1 + lenN l)) with (lenN l + 2 * 1) in He by lia. now rewrite N.even_add_mul_2 in He.
Qed.

Lemma be_sum_pos l : bytes l -> be_sum l = 0 -> Forall (fun b => b = 0) l.
Proof.
  induction l as [|a|a b l IH] using list_ind2; intros Hb He; cbn [be_sum] in He; [constructor| |].
  - constructor; [lia|constructor].
  - inversion Hb as [|? ? Ha Hb']; subst. inversion Hb' as [|? ? Hb1 Hb2]; subst.
    constructor; [lia|]. constructor; [lia|]. apply IH; auto. lia.
Qed.

(** The checksum of a block that contains its own checksum is zero. *)
Lemma checksum_verifies le l1 l2 : bytes l1 -> bytes l2 -> N.even (lenN l1) = true ->
  lenN l1 + lenN l2 <= 65534 ->
  exists c, checksum le (l1 ++ [0; 0] ++ l2) = Ok (Some c) /\
            checksum le (l1 ++ stored le c ++ l2) = Ok (Some 0).
Proof.
  intros H1 H2 He Hl.
  assert (Hb : bytes (l1 ++ [0; 0] ++ l2)).
  { apply Forall_app. split; [exact H1|]. constructor; [lia|]. constructor; [lia|]. exact H2. }
  destruct (checksum_ok le _ Hb) as [c [Hc [Hc1 [[O1 [O2 O3]] Hc3]]]]; [len; lia|].
  exists c. split; [exact Hc|].
  assert (Hb2 : bytes (l1 ++ stored le c ++ l2)).
  { apply Forall_app. split; [exact H1|]. apply Forall_app. split; [|exact H2].
    destruct le; cbn [stored]; repeat (apply Forall_cons; [lia|]); apply Forall_nil. }
  assert (Hls : lenN (stored le c) = 2) by (destruct le; reflexivity).
  destruct (checksum_ok le _ Hb2) as [c2 [Hc2 [Hc21 [[Q1 [Q2 Q3]] Hc23]]]]; [len; lia|].
  rewrite Hc2. do 2 f_equal.
  rewrite !be_sum_app in O2, O3, Q2, Q3 by (try (rewrite Hls); auto).
  change (be_sum [0; 0]) with 0 in *. fold (net (stored le c)) in Q2, Q3.
  set (S := be_sum l1 + (0 + be_sum l2)) in *.
  replace (be_sum l1 + (net (stored le c) + be_sum l2)) with (S + net (stored le c)) in Q2, Q3 by lia.
  assert (Hm : (S + net (stored le c)) mod 65535 = 0).
  { rewrite N.add_mod, <- O2, <- N.add_mod by lia. replace (65535 - net (stored le c) + net (stored le c)) with 65535 by lia. reflexivity. }
  assert (Hp : S + net (stored le c) <> 0) by (intros E; lia).
  rewrite Hm in Q2.
  assert (Hn : net (stored le c2) = 0) by lia.
  clear - Hn Hc21. destruct le; unfold net in Hn; cbn [stored be_sum] in Hn; lia.
Qed.

Lemma checksum_endian l c c' : bytes l -> lenN l <= 65536 ->
  checksum true l = Ok (Some c) -> checksum false l = Ok (Some c') -> stored true c = stored false c'.
Proof.
  intros Hb Hl E E'.
  destruct (checksum_ok true l Hb Hl) as [d [D1 [D2 [D3 D4]]]]. rewrite E in D1. injection D1 as <-.
  destruct (checksum_ok false l Hb Hl) as [d [F1 [F2 [F3 F4]]]]. rewrite E' in F1. injection F1 as <-.
  pose proof (ones_sum_unique _ _ _ D3 F3) as H.
  unfold net in *. cbn [stored be_sum] in *.
  f_equal; [lia|f_equal; lia].
Qed.
