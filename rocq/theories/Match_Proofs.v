(** Proofs about match callbacks. *)
From Coq Require Import Permutation.
From Verif Require Import Base Match_Model Match_Spec.

(** ** Numbers *)
Lemma mark_nums key l : map m_num (mark key l) = map m_num l.
Proof. induction l as [|m l IH]; simpl; [auto|]. destruct (m_key m =? key); simpl; congruence. Qed.
Lemma unlink_nums key l n : In n (map m_num (unlink key l)) -> In n (map m_num l).
Proof. induction l as [|m l IH]; simpl; [auto|]. destruct (m_key m =? key); simpl; tauto. Qed.
Definition news (b b' : bus) : Prop := exists new, nums b' = nums b ++ new /\ Forall (fun n => b_next b <= n < b_next b') new /\ b_next b <= b_next b'.
Lemma news_refl b : news b b.
Proof. exists []. rewrite app_nil_r. split; [auto|]. split; [constructor|lia]. Qed.
Lemma news_trans a b c : news a b -> news b c -> news a c.
Proof.
  intros (n1 & E1 & F1 & L1) (n2 & E2 & F2 & L2). exists (n1 ++ n2). rewrite E2, E1, app_assoc. split; [auto|]. split; [|lia].
  apply Forall_app. split; (eapply Forall_impl; [|eassumption]); simpl; intros; lia.
Qed.
Lemma news_apply b o : news b (apply true b o).
Proof.
  destruct o as [key|key]; unfold apply, nums; cbn [b_list b_next].
  - exists [b_next b]. unfold nums. cbn [b_list b_next]. rewrite map_app. split; [auto|]. split; [|lia]. constructor; [lia|constructor].
  - exists []. unfold nums. cbn [b_list b_next]. rewrite map_rev, mark_nums, <- map_rev, rev_involutive, app_nil_r. split; [auto|]. split; [constructor|lia].
Qed.
Lemma news_ops os : forall b, news b (fold_left (apply true) os b).
Proof. induction os as [|o os IH]; intros b; simpl; [apply news_refl|]. eapply news_trans; [apply news_apply|apply IH]. Qed.
Lemma nth_nums b i m : nth_error (b_list b) i = Some m -> nth_error (nums b) i = Some (m_num m).
Proof. intros H. unfold nums. apply map_nth_error, H. Qed.
Lemma skipn_nth {A} (l : list A) i x : nth_error l i = Some x -> skipn i l = x :: skipn (S i) l.
Proof. revert i. induction l as [|y l IH]; intros [|i] H; simpl in *; try discriminate; [congruence|]. apply IH, H. Qed.
Lemma deliver_nums safe script : forall b i b' called fin, deliver safe script b i = (b', called, fin) ->
  news b b' /\ called = firstn (length called) (skipn i (nums b')).
Proof.
  induction script as [|[os stop] script IH]; intros b i b' called fin H; cbn [deliver] in H.
  - destruct (nth_error (b_list b) i) eqn:E; injection H as <- <- <-; split; auto using news_refl.
  - destruct (nth_error (b_list b) i) as [m|] eqn:E; [|injection H as <- <- <-; split; auto using news_refl].
    assert (Hn := news_ops os b). remember (fold_left (apply true) os b) as b1 eqn:E1.
    assert (Hm : forall b2, news b1 b2 -> nth_error (nums b2) i = Some (m_num m)).
    { intros b2 H2. destruct (news_trans _ _ _ Hn H2) as (new & En & _). rewrite En, nth_error_app1; [apply nth_nums, E|].
      unfold nums. rewrite map_length. apply nth_error_Some. congruence. }
    destruct (stop || (safe && negb (S i <? length (b_list b))%nat)).
    + injection H as <- <- <-. split; [auto|]. simpl. rewrite (skipn_nth _ _ _ (Hm b1 (news_refl b1))). reflexivity.
    + destruct (deliver safe script b1 (S i)) as [[b2 c2] f2] eqn:Ed. injection H as <- <- <-.
      destruct (IH _ _ _ _ _ Ed) as [H1 H2]. split; [eapply news_trans; eauto|]. simpl. rewrite (skipn_nth _ _ _ (Hm b2 H1)). simpl. f_equal. exact H2.
Qed.
Lemma news_length b b' : news b b' -> (length (b_list b) <= length (b_list b'))%nat.
Proof. intros (new & E & _). assert (H := f_equal (@length N) E). unfold nums in H. rewrite app_length, !map_length in H. lia. Qed.
Lemma deliver_stops safe script : forall b i b' called, deliver safe script b i = (b', called, true) ->
  (forall j, (S j < length called)%nat -> nth_error (map snd script) j = Some false)
  /\ ((i + length called < length (nums b))%nat -> exists j, S j = length called /\ nth_error (map snd script) j = Some true).
Proof.
  induction script as [|[os stop] script IH]; intros b i b' called H; cbn [deliver] in H.
  - destruct (nth_error (b_list b) i) eqn:E; [discriminate|]. injection H as <- <-. simpl. split; [lia|].
    apply nth_error_None in E. unfold nums. rewrite map_length. lia.
  - destruct (nth_error (b_list b) i) as [m|] eqn:E.
    2:{ injection H as <- <-. simpl. split; [lia|]. apply nth_error_None in E. unfold nums. rewrite map_length. lia. }
    assert (Hn := news_length _ _ (news_ops os b)). remember (fold_left (apply true) os b) as b1 eqn:E1. unfold nums. rewrite map_length.
    destruct stop; cbn [orb] in H.
    { injection H as <- <-. simpl. split; [lia|]. intros _. exists 0%nat. auto. }
    destruct (safe && negb (S i <? length (b_list b))%nat) eqn:Es.
    { injection H as <- <-. simpl. split; [lia|]. intros Hl. apply andb_true_iff in Es. destruct Es as [_ Es].
      apply negb_true_iff, Nat.ltb_ge in Es. lia. }
    destruct (deliver safe script b1 (S i)) as [[b2 c2] f2] eqn:Ed. injection H as <- <- ->.
    destruct (IH _ _ _ _ Ed) as [H1 H2]. unfold nums in H2. rewrite map_length in H2. cbn [length map snd]. split.
    + intros [|j] Hj; simpl; [auto|]. apply H1. lia.
    + intros Hl. destruct H2 as (j & Ej & Hj); [lia|]. exists (S j). split; [lia|exact Hj].
Qed.
Lemma call_order safe b script b' called : call safe b script = Some (b', called) ->
  exists new, Forall (fun n => b_next b <= n) new /\ called = firstn (length called) (nums b ++ new)
    /\ (forall j, (S j < length called)%nat -> nth_error (map snd script) j = Some false)
    /\ ((length called < length (nums b))%nat -> exists j, S j = length called /\ nth_error (map snd script) j = Some true).
Proof.
  unfold call. destruct (deliver safe script b 0) as [[b1 c1] f1] eqn:E. destruct f1; [|discriminate]. intros H. injection H as <- <-.
  destruct (deliver_nums _ _ _ _ _ _ _ E) as [(new & En & Hf & _) Hc]. destruct (deliver_stops _ _ _ _ _ _ E) as [H1 H2].
  exists new. rewrite <- En. split; [|split; [exact Hc|split; [exact H1|exact H2]]].
  eapply Forall_impl; [|exact Hf]. simpl. intros; lia.
Qed.

(** ** Gone registrations *)
Definition gone (n : N) (b : bus) : Prop := ~ In n (nums b) /\ n < b_next b.
Lemma in_firstn {A} (x : A) k l : In x (firstn k l) -> In x l.
Proof. revert k. induction l as [|y l IH]; intros [|k]; simpl; try tauto. intros [->|H]; eauto. Qed.
Lemma in_skipn {A} (x : A) k l : In x (skipn k l) -> In x l.
Proof. revert k. induction l as [|y l IH]; intros [|k]; simpl; try tauto. eauto. Qed.
Lemma gone_step safe n b e b' called : gone n b -> step safe b e = Some (b', called) -> ~ In n called /\ gone n b'.
Proof.
  intros [Hn Hl] H. destruct e as [script|o]; simpl in H.
  - unfold call in H. destruct (deliver safe script b 0) as [[b1 c1] f1] eqn:E. destruct f1; [|discriminate]. injection H as <- <-.
    destruct (deliver_nums _ _ _ _ _ _ _ E) as [(new & En & Hf & Hx) Hc].
    assert (Hb : ~ In n (nums b1)).
    { rewrite En, in_app_iff. rewrite Forall_forall in Hf. intros [H|H]; [auto|]. specialize (Hf n H). lia. }
    split; [rewrite Hc; intros H; apply Hb; apply in_firstn in H; exact H|]. split; [|unfold sweep; simpl; lia].
    unfold sweep, nums. cbn [b_list]. intros H. apply Hb. apply in_map_iff in H. destruct H as (m & Em & Hm). apply filter_In in Hm.
    unfold nums. rewrite <- Em. apply in_map. tauto.
  - injection H as <- <-. split; [auto|]. destruct o as [key|key]; split; unfold apply, nums in *; cbn [b_list b_next].
    + rewrite map_app, in_app_iff. simpl. intros [H|[H|[]]]; [auto|lia].
    + lia.
    + rewrite map_rev, <- in_rev. intros H. apply unlink_nums in H. rewrite map_rev, <- in_rev in H. auto.
    + exact Hl.
Qed.
Lemma gone_run safe n es : forall b b' tr, gone n b -> run safe b es = Some (b', tr) -> ~ In n tr /\ gone n b'.
Proof.
  induction es as [|e es IH]; intros b b' tr Hg H; cbn [run] in H.
  - injection H as <- <-. auto.
  - destruct (step safe b e) as [[b1 c1]|] eqn:E; [|discriminate]. destruct (run safe b1 es) as [[b2 c2]|] eqn:Er; [|discriminate]. injection H as <- <-.
    destruct (gone_step safe n b e b1 c1 Hg E) as [H1 H2]. destruct (IH _ _ _ H2 Er) as [H3 H4]. split; [|auto]. rewrite in_app_iff. tauto.
Qed.
Lemma never_again safe n es b b' tr : ~ In n (nums b) -> n < b_next b -> run safe b es = Some (b', tr) -> ~ In n tr.
Proof. intros H1 H2 H. apply (gone_run safe n es b b' tr (conj H1 H2) H). Qed.

(** ** Keys *)
Definition vis (l : list match_) : list N := map m_key (filter (fun m => negb (m_removed m)) l).
Lemma vis_app a b : vis (a ++ b) = vis a ++ vis b.
Proof. unfold vis. rewrite filter_app, map_app. auto. Qed.
Lemma without_app key ks ks' ys : without_last key ks ks' -> ~ In key ys -> without_last key (ks ++ ys) (ks' ++ ys).
Proof.
  intros [[H1 ->]|(a & c & -> & H & ->)] Hy; [left; split; [rewrite in_app_iff; tauto|auto]|].
  right. exists a, (c ++ ys). rewrite <- !app_assoc. simpl. split; [auto|]. split; [rewrite in_app_iff; tauto|auto].
Qed.
Lemma mark_vis key l : (forall m, In m l -> m_removed m = true -> m_key m <> key) -> without_last key (vis l) (vis (rev (mark key (rev l)))).
Proof.
  induction l as [|m l IH] using rev_ind; intros Hr; [left; auto|]. rewrite rev_app_distr. simpl.
  destruct (N.eqb_spec (m_key m) key) as [E|E].
  - simpl. rewrite rev_involutive, !vis_app. right. exists (vis l), []. rewrite app_nil_r.
    assert (Hm : m_removed m = false).
    { destruct (m_removed m) eqn:Em; [|auto]. exfalso. apply (Hr m); auto. apply in_app_iff. simpl. auto. }
    unfold vis at 2. simpl. rewrite Hm. simpl. rewrite E. split; [auto|]. split; [auto|]. rewrite app_nil_r. auto.
  - simpl. rewrite !vis_app. apply without_app.
    + apply IH. intros x Hx. apply Hr. apply in_app_iff. auto.
    + unfold vis. simpl. destruct (negb (m_removed m)); simpl; tauto.
Qed.
Lemma mark_removed key l m : In m (mark key l) -> m_removed m = true -> m_key m = key \/ In m l.
Proof. induction l as [|x l IH]; simpl; [tauto|]. destruct (N.eqb_spec (m_key x) key); simpl; intros [<-|H] Hr; auto. destruct (IH H Hr); auto. Qed.
Lemma unlink_keys key l : without_last key (map m_key l) (map m_key (rev (unlink key (rev l)))).
Proof.
  induction l as [|m l IH] using rev_ind; [left; auto|]. rewrite rev_app_distr, map_app. simpl.
  destruct (N.eqb_spec (m_key m) key) as [E|E].
  - rewrite rev_involutive. right. exists (map m_key l), []. rewrite app_nil_r, E. auto.
  - simpl. rewrite map_app. apply without_app; [auto|]. simpl. tauto.
Qed.
Lemma after_app os1 : forall os2 a b c, after os1 a b -> after os2 b c -> after (os1 ++ os2) a c.
Proof.
  induction os1 as [|o os IH]; intros os2 a b c H1 H2; inversion H1; subst; simpl; [auto| |].
  - constructor. eapply IH; eauto.
  - econstructor; [eassumption|]. eapply IH; eauto.
Qed.
Definition marked_in (R : list N) (l : list match_) : Prop := forall m, In m l -> m_removed m = true -> In (m_key m) R.
Lemma ops_vis os : forall b R, marked_in R (b_list b) -> NoDup (removals os ++ R) ->
  after os (vis (b_list b)) (vis (b_list (fold_left (apply true) os b))) /\ marked_in (removals os ++ R) (b_list (fold_left (apply true) os b)).
Proof.
  induction os as [|[key|key] os IH]; intros b R Hm Hd; cbn [fold_left removals app] in *.
  - split; [constructor|exact Hm].
  - destruct (IH (apply true b (Add key)) R) as [H1 H2]; [|auto|].
    + intros m. unfold apply. cbn [b_list]. rewrite in_app_iff. intros [H|[<-|[]]]; [apply Hm, H|discriminate].
    + split; [|exact H2]. constructor. unfold apply in H1 at 1. cbn [b_list] in H1. rewrite vis_app in H1. exact H1.
  - inversion Hd as [|? ? Hk Hd']; subst. rewrite in_app_iff in Hk.
    destruct (IH (apply true b (Remove key)) (key :: R)) as [H1 H2].
    + intros m. unfold apply. cbn [b_list]. rewrite <- in_rev. intros H Hr. destruct (mark_removed _ _ _ H Hr) as [->|H']; [simpl; auto|].
      right. apply Hm; [|auto]. apply in_rev, H'.
    + apply NoDup_Add with (a := key) (l := removals os ++ R); [apply Add_app|]. split; [auto|]. rewrite in_app_iff. tauto.
    + split.
      * eapply after_remove; [|exact H1]. unfold apply. cbn [b_list]. apply mark_vis. intros m Hi Hr E. apply Hk. right. rewrite <- E. apply Hm; auto.
      * intros m Hi Hr. specialize (H2 m Hi Hr). simpl. rewrite in_app_iff in *. simpl in H2. tauto.
Qed.
Lemma removals_app a b : removals (a ++ b) = removals a ++ removals b.
Proof. induction a as [|[k|k] a IH]; simpl; [auto|auto|]. rewrite IH. auto. Qed.
Lemma deliver_keys safe script : forall b i b' called fin R, deliver safe script b i = (b', called, fin) -> marked_in R (b_list b) ->
  NoDup (removals (done script (length called)) ++ R) -> after (done script (length called)) (vis (b_list b)) (vis (b_list b')).
Proof.
  induction script as [|[os stop] script IH]; intros b i b' called fin R H Hm Hd; cbn [deliver] in H.
  - destruct (nth_error (b_list b) i); injection H as <- <- <-; constructor.
  - destruct (nth_error (b_list b) i) as [m|]; [|injection H as <- <- <-; constructor].
    assert (Hops := ops_vis os b R Hm).
    destruct (stop || (safe && negb (S i <? length (b_list b))%nat)).
    + injection H as <- <- <-. unfold done in *. cbn [firstn map concat fst length] in *. rewrite app_nil_r in *. apply Hops, Hd.
    + destruct (deliver safe script (fold_left (apply true) os b) (S i)) as [[b2 c2] f2] eqn:Ed. injection H as <- <- <-.
      unfold done in *. cbn [firstn map concat fst length] in *. rewrite removals_app in Hd. rewrite <- app_assoc in Hd.
      assert (Hd1 : NoDup (removals os ++ R)).
      { clear -Hd. revert Hd. generalize (removals (concat (map fst (firstn (length c2) script)))). intros X.
        rewrite app_assoc. intros H. induction (removals os) as [|y l IHl]; simpl in *; [|inversion H; subst; constructor].
        - induction X as [|x X IHX]; simpl in *; [auto|]. inversion H; auto.
        - rewrite !in_app_iff in *. tauto.
        - auto. }
      destruct (Hops Hd1) as [H1 H2]. eapply after_app; [exact H1|]. eapply IH; [exact Ed|exact H2|].
      clear -Hd. revert Hd. generalize (removals (concat (map fst (firstn (length c2) script)))), (removals os). intros X Y H.
      apply (Permutation.Permutation_NoDup (l := Y ++ X ++ R)); [|exact H]. rewrite !app_assoc. apply Permutation.Permutation_app_tail, Permutation.Permutation_app_comm.
Qed.
Definition clean (b : bus) : Prop := Forall (fun m => m_removed m = false) (b_list b).
Lemma clean_vis l : Forall (fun m => m_removed m = false) l -> vis l = map m_key l.
Proof. unfold vis. induction 1 as [|m l Hm _ IH]; simpl; [auto|]. rewrite Hm. simpl. congruence. Qed.
Lemma clean_step safe b e b' called : clean b -> step safe b e = Some (b', called) -> clean b'.
Proof.
  intros Hc H. destruct e as [script|o]; simpl in H.
  - unfold call in H. destruct (deliver safe script b 0) as [[b1 c1] f1]. destruct f1; [|discriminate]. injection H as <- <-.
    unfold clean, sweep. cbn [b_list]. apply Forall_forall. intros m Hm. apply filter_In in Hm. apply negb_true_iff, Hm.
  - injection H as <- <-. unfold clean in *. destruct o as [key|key]; unfold apply; cbn [b_list].
    + apply Forall_app. auto.
    + rewrite Forall_forall in *. intros m Hm. rewrite <- in_rev in Hm. apply Hc.
      assert (Hu : forall l, In m (unlink key l) -> In m l).
      { induction l as [|x l IH]; simpl; [auto|]. destruct (m_key x =? key); simpl; tauto. }
      apply in_rev, Hu, Hm.
Qed.
Lemma clean_run safe es : forall b b' tr, clean b -> run safe b es = Some (b', tr) -> clean b'.
Proof.
  induction es as [|e es IH]; intros b b' tr Hc H; cbn [run] in H; [injection H as <- <-; auto|].
  destruct (step safe b e) as [[b1 c1]|] eqn:E; [|discriminate]. destruct (run safe b1 es) as [[b2 c2]|] eqn:Er; [|discriminate]. injection H as <- <-.
  eapply IH; [|exact Er]. eapply clean_step; eauto.
Qed.
Lemma call_keys safe es b tr script b' called : run safe init es = Some (b, tr) -> call safe b script = Some (b', called) ->
  NoDup (removals (done script (length called))) -> after (done script (length called)) (keys b) (keys b').
Proof.
  intros Hr H Hd. assert (Hc : clean b) by (eapply clean_run; [|exact Hr]; constructor).
  unfold call in H. destruct (deliver safe script b 0) as [[b1 c1] f1] eqn:E. destruct f1; [|discriminate]. injection H as <- <-.
  assert (Hk := deliver_keys safe script b 0 b1 c1 true [] E). unfold keys, sweep. cbn [b_list]. rewrite <- (clean_vis _ Hc). apply Hk.
  - intros m Hm Hrm. unfold clean in Hc. rewrite Forall_forall in Hc. rewrite (Hc m Hm) in Hrm. discriminate.
  - rewrite app_nil_r. exact Hd.
Qed.
Lemma user_keys b o : after [o] (keys b) (keys (apply false b o)).
Proof.
  destruct o as [key|key]; unfold keys, apply; cbn [b_list].
  - rewrite map_app. constructor. constructor.
  - eapply after_remove; [apply unlink_keys|constructor].
Qed.
Lemma without_count key ks ks' : without_last key ks ks' -> count_occ N.eq_dec ks' key = pred (count_occ N.eq_dec ks key).
Proof.
  intros [[H ->]|(a & c & -> & _ & ->)].
  - apply (count_occ_not_In N.eq_dec) in H. rewrite H. auto.
  - rewrite !count_occ_app. simpl. destruct (N.eq_dec key key); [lia|contradiction].
Qed.
Lemma twice_count key ks ks' : after [Remove key; Remove key] ks ks' -> count_occ N.eq_dec ks' key = pred (pred (count_occ N.eq_dec ks key)).
Proof.
  intros H. inversion H as [|?|? ? ? ? ? W1 H1]; subst. inversion H1 as [|?|? ? ? ? ? W2 H2]; subst. inversion H2; subst.
  rewrite (without_count _ _ _ W2), (without_count _ _ _ W1). auto.
Qed.
