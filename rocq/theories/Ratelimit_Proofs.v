From Verif Require Import Base Ratelimit_Model Ratelimit_Spec.
From Coq Require Import Sorted.

Definition admit_from (k : nat) (b : N) (w : list N) : list bool :=
  map (fun k => N.of_nat k <? b) (seq k (length w)).

Lemma w64 n : n < 2 ^ 64 -> wrap64 n = n.
Proof. intros; unfold wrap64, two64; now apply N.mod_small. Qed.

(** Inside a window that began at [t] and has already seen [k] events. *)
Lemma run_window i b ts : forall t k,
  0 < i -> 0 < b < 2 ^ 32 -> 0 < t -> t + i < 2 ^ 64 ->
  Forall (fun x => 0 < x /\ x + i < 2 ^ 64) ts -> (0 < k)%nat ->
  exists w ws,
    w ++ concat ws = ts /\ Forall (fun x => x <= t + i) w /\ windows i ws
    /\ match ws with (u :: _) :: _ => t + i < u | _ => True end
    /\ rl_run (mkRl i t b (N.min (N.of_nat k) b)) ts
       = admit_from k b w ++ concat (map (admit b) ws).
Proof.
  assert (P32 : 2 ^ 32 = 4294967296) by reflexivity.
  induction ts as [|x ts IH]; intros t k Hi Hb Ht Htn Hall Hk.
  - exists [], []. repeat split; constructor.
  - inversion Hall as [|? ? [Hx Hxn] Hall']; subst.
    cbn [rl_run]. unfold rl_test. cbn [interval begin burst num].
    destruct (i =? 0) eqn:Ei; [lia|]. destruct (b =? 0) eqn:Eb; [lia|]. cbn [orb].
    destruct (t =? 0) eqn:Et; [lia|]. cbn [orb]. rewrite w64 by assumption.
    destruct (t + i <? x) eqn:Ex.
    + destruct (IH x 1%nat) as [w [ws [H1 [H2 [H3 [H4 H5]]]]]]; auto; try lia.
      exists [], ((x :: w) :: ws). cbn [app concat map].
      split; [rewrite <- H1; reflexivity|]. split; [constructor|].
      split; [constructor; auto|]. split; [lia|].
      replace ((0 + 1) mod 2 ^ 32) with (N.min (N.of_nat 1) b)
        by (rewrite P32; rewrite N.mod_small by lia; lia).
      rewrite H5. unfold admit, admit_from. cbn [length seq map app].
      destruct (N.of_nat 0 <? b) eqn:E0; [reflexivity|lia].
    + destruct (N.min (N.of_nat k) b <? b) eqn:En.
      * destruct (IH t (S k)) as [w [ws [H1 [H2 [H3 [H4 H5]]]]]]; auto; try lia.
        exists (x :: w), ws. split; [cbn [app]; rewrite H1; reflexivity|].
        split; [constructor; [lia|auto]|]. split; [auto|]. split; [auto|].
        replace ((N.min (N.of_nat k) b + 1) mod 2 ^ 32) with (N.min (N.of_nat (S k)) b)
          by (rewrite P32; rewrite N.mod_small by lia; lia).
        rewrite H5. unfold admit_from. cbn [length seq map app].
        destruct (N.of_nat k <? b) eqn:E0; [reflexivity|lia].
      * destruct (IH t (S k)) as [w [ws [H1 [H2 [H3 [H4 H5]]]]]]; auto; try lia.
        exists (x :: w), ws. split; [cbn [app]; rewrite H1; reflexivity|].
        split; [constructor; [lia|auto]|]. split; [auto|]. split; [auto|].
        replace (N.min (N.of_nat k) b) with (N.min (N.of_nat (S k)) b) by lia.
        rewrite H5. unfold admit_from. cbn [length seq map app].
        destruct (N.of_nat k <? b) eqn:E0; [lia|reflexivity].
Qed.

Lemma rl_windows i b ts :
  0 < i -> 0 < b < 2 ^ 32 -> clock i ts ->
  exists ws, concat ws = ts /\ windows i ws
    /\ rl_run (rl_init i b) ts = concat (map (admit b) ws).
Proof.
  assert (P32 : 2 ^ 32 = 4294967296) by reflexivity.
  intros Hi Hb [_ Hall]. destruct ts as [|x ts].
  - exists []. repeat split; constructor.
  - inversion Hall as [|? ? [Hx Hxn] Hall']; subst.
    destruct (run_window i b ts x 1%nat Hi Hb Hx Hxn Hall' ltac:(lia))
      as [w [ws [H1 [H2 [H3 [H4 H5]]]]]].
    exists ((x :: w) :: ws). cbn [concat map app]. split; [now rewrite <- H1|].
    split; [constructor; auto|].
    unfold rl_init. cbn [rl_run]. unfold rl_test. cbn [interval begin burst num].
    destruct (i =? 0) eqn:Ei; [lia|]. destruct (b =? 0) eqn:Eb; [lia|]. cbn [orb].
    change (0 =? 0) with true. cbn [orb].
    replace ((0 + 1) mod 2 ^ 32) with (N.min (N.of_nat 1) b)
      by (rewrite P32; rewrite N.mod_small by lia; lia).
    rewrite H5. unfold admit, admit_from. cbn [length seq map app].
    destruct (N.of_nat 0 <? b) eqn:E0; [reflexivity|lia].
Qed.

(** ** Any interval of length [i] sees fewer than 2b admitted events. *)
Lemma admitted_app x i w : forall bs ts' bs',
  length w = length bs ->
  admitted_in x i (w ++ ts') (bs ++ bs') = admitted_in x i w bs + admitted_in x i ts' bs'.
Proof.
  induction w as [|t w IH]; intros [|b bs] ts' bs' H; try discriminate; cbn [app admitted_in]; [lia|].
  rewrite IH by (cbn in H; lia). lia.
Qed.

Lemma admitted_le_trues x i w : forall bs,
  admitted_in x i w bs <= N.of_nat (count_occ Bool.bool_dec bs true).
Proof.
  induction w as [|t w IH]; intros [|b bs]; cbn [admitted_in count_occ]; try lia.
  specialize (IH bs). destruct (Bool.bool_dec b true) as [->|Hn].
  - destruct (true && _ && _); lia.
  - destruct b; [congruence|]. cbn [andb]. lia.
Qed.

Lemma count_admit b w : N.of_nat (count_occ Bool.bool_dec (admit b w) true) <= b.
Proof.
  unfold admit. generalize (length w). intros n.
  assert (H : forall n k, N.of_nat (count_occ Bool.bool_dec (map (fun k => N.of_nat k <? b) (seq k n)) true)
            <= b - N.of_nat k).
  { clear. induction n as [|n IH]; intros k; cbn [seq map count_occ]; [lia|].
    specialize (IH (S k)).
    destruct (N.of_nat k <? b) eqn:E; destruct (Bool.bool_dec _ true); try discriminate; try congruence; lia. }
  specialize (H n 0%nat). lia.
Qed.

Lemma admitted_none_above x i ts : forall bs,
  Forall (fun t => x + i < t) ts -> admitted_in x i ts bs = 0.
Proof.
  induction ts as [|t ts IH]; intros bs H; [reflexivity|].
  destruct bs as [|b bs]; [reflexivity|]. inversion H; subst. cbn [admitted_in].
  rewrite IH by assumption. destruct (t <=? x + i) eqn:E; [lia|]. rewrite andb_false_r. reflexivity.
Qed.
Lemma admitted_none_below x i ts : forall bs,
  Forall (fun t => t < x) ts -> admitted_in x i ts bs = 0.
Proof.
  induction ts as [|t ts IH]; intros bs H; [reflexivity|].
  destruct bs as [|b bs]; [reflexivity|]. inversion H; subst. cbn [admitted_in].
  rewrite IH by assumption. destruct (x <=? t) eqn:E; [lia|]. rewrite andb_false_r. reflexivity.
Qed.

Lemma length_admit b w : length w = length (admit b w).
Proof. unfold admit. now rewrite map_length, seq_length. Qed.

Lemma sorted_all_ge ts t : StronglySorted N.le (t :: ts) -> Forall (fun x => t <= x) ts.
Proof. intros H. inversion H; subst. assumption. Qed.
Lemma ssorted_app_r a b : StronglySorted N.le (a ++ b) -> StronglySorted N.le b.
Proof. induction a as [|x a IH]; [auto|]. cbn. intros H. inversion H; auto. Qed.
Lemma ssorted_app_le a b x y : StronglySorted N.le (a ++ b) -> In x a -> In y b -> x <= y.
Proof.
  induction a as [|z a IH]; [intros _ []|]. cbn [app]. intros H Hx Hy. inversion H; subst.
  destruct Hx as [->|Hx]; [|auto]. rewrite Forall_forall in H3. apply H3, in_or_app. auto.
Qed.

(** If the interval starts no later than the current window, at most [b]. *)
Lemma sliding_one i b ws : forall x,
  0 < i -> windows i ws -> StronglySorted N.le (concat ws) ->
  (forall t ts ws', ws = (t :: ts) :: ws' -> x <= t) ->
  admitted_in x i (concat ws) (concat (map (admit b) ws)) <= b.
Proof.
  intros x Hi Hw Hs Hx. destruct Hw as [|t ts ws Hin Hnext Hw]; [cbn; lia|].
  cbn [concat map]. rewrite admitted_app by apply length_admit.
  specialize (Hx _ _ _ eq_refl).
  rewrite (admitted_none_above x i (concat ws)).
  - pose proof (admitted_le_trues x i (t :: ts) (admit b (t :: ts))).
    pose proof (count_admit b (t :: ts)). lia.
  - destruct Hw as [|u us ws Hin' Hnext' Hw]; [constructor|].
    cbn [concat] in *. apply ssorted_app_r in Hs.
    constructor; [lia|]. apply sorted_all_ge in Hs.
    eapply Forall_impl; [|exact Hs]. cbn. intros a Ha. lia.
Qed.

Lemma lt_decN (a b : N) : {a < b} + {~ a < b}.
Proof. destruct (a <? b) eqn:E; [left|right]; lia. Qed.

Lemma admitted_late x i b t ts : t < x -> 0 < b -> admitted_in x i (t :: ts) (admit b (t :: ts)) < b.
Proof.
  intros Hx Hb. pose proof (count_admit b (t :: ts)) as Hc. unfold admit in *. cbn [length seq map admitted_in count_occ] in *.
  replace (N.of_nat 0 <? b) with true in * by (symmetry; apply N.ltb_lt; exact Hb). replace (x <=? t) with false by (symmetry; apply N.leb_gt; exact Hx).
  cbn [andb]. destruct (Bool.bool_dec true true) as [_|H]; [|congruence].
  pose proof (admitted_le_trues x i ts (map (fun k => N.of_nat k <? b) (seq 1 (length ts)))). lia.
Qed.
Lemma sliding_two i b ws : forall x,
  0 < i -> 0 < b -> windows i ws -> StronglySorted N.le (concat ws) ->
  admitted_in x i (concat ws) (concat (map (admit b) ws)) < 2 * b.
Proof.
  intros x Hi Hb0 Hw. induction Hw as [|t ts ws Hin Hnext Hw IH]; intros Hs; [cbn; lia|].
  destruct (lt_decN t x) as [Htx|Htx].
  2:{ assert (H := sliding_one i b ((t :: ts) :: ws) x Hi (WCons i t ts ws Hin Hnext Hw) Hs). 
      assert (H' : admitted_in x i (concat ((t :: ts) :: ws)) (concat (map (admit b) ((t :: ts) :: ws))) <= b); [|lia].
      apply H. intros t0 ts0 ws0 E. injection E as <- <- <-. lia. }
  cbn [concat map]. rewrite admitted_app by apply length_admit.
  destruct (Forall_dec (fun y => y < x) (fun y => lt_decN y x) (t :: ts)) as [Hb|Hb].
  - rewrite admitted_none_below by assumption. specialize (IH (ssorted_app_r _ _ Hs)). lia.
  - assert (H1 : admitted_in x i (concat ws) (concat (map (admit b) ws)) <= b).
    { apply sliding_one; auto; [exact (ssorted_app_r _ _ Hs)|].
      intros u us ws' ->. cbn [concat] in Hs.
      apply neg_Forall_Exists_neg in Hb; [|intros y; destruct (lt_decN y x); auto].
      apply Exists_exists in Hb as [y [Hy Hyx]].
      assert (y <= u).
      { eapply ssorted_app_le; [exact Hs|exact Hy|]. apply in_or_app. left. now left. }
      lia. }
    pose proof (admitted_late x i b t ts Htx Hb0). lia.
Qed.

Lemma rl_sliding i b ts x :
  0 < i -> 0 < b < 2 ^ 32 -> clock i ts ->
  admitted_in x i ts (rl_run (rl_init i b) ts) < 2 * b.
Proof.
  intros Hi Hb Hc. destruct (rl_windows i b ts Hi Hb Hc) as [ws [<- [Hw ->]]].
  apply sliding_two; auto; [lia|]. destruct Hc as [Hs _].
  apply Sorted_StronglySorted; [|exact Hs]. intros a c d. lia.
Qed.

Lemma rl_disabled i b ts : i = 0 \/ b = 0 ->
  rl_run (rl_init i b) ts = map (fun _ => true) ts.
Proof.
  intros H. induction ts as [|t ts IH]; [reflexivity|]. cbn [rl_run map]. unfold rl_test.
  cbn [interval begin burst num rl_init].
  replace ((i =? 0) || (b =? 0)) with true by lia. f_equal. exact IH.
Qed.

Lemma rl_define_admits_all i b ts : rl_run (rl_define i b) ts = map (fun _ => true) ts.
Proof.
  induction ts as [|t ts IH]; [reflexivity|]. cbn [rl_run map]. unfold rl_test.
  cbn [interval begin burst num rl_define]. rewrite orb_true_r. f_equal. exact IH.
Qed.
Lemma rl_define_counterexample :
  exists i b ts, 0 < i /\ 0 < b < 2 ^ 32 /\ clock i ts
    /\ rl_run (rl_define i b) ts <> rl_run (rl_init i b) ts.
Proof.
  exists 10, 1, [5; 6]. split; [lia|]. split; [lia|]. split; [|discriminate].
  split; [repeat constructor; lia|]. repeat constructor.
Qed.
Lemma rl_reset_new r ts : rl_run (rl_reset r) ts = rl_run (rl_init (interval r) (burst r)) ts.
Proof. reflexivity. Qed.
