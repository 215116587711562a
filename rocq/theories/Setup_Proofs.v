From Verif Require Import Base Setup_Model Setup_Spec.

Lemma E64 : two64 = 18446744073709551616. Proof. reflexivity. Qed.
(** The counter is the number of unanswered requests plus the lost ones. *)
Definition counted (u : setup) (n : N) : Prop := u_cnt u = wrap64 (lenN (u_wait u) + n).
Lemma wrap_add a b : wrap64 (wrap64 a + b) = wrap64 (a + b).
Proof. unfold wrap64. apply N.add_mod_idemp_l. discriminate. Qed.
Lemma wrap_full a : wrap64 (a + 1 + (two64 - 1)) = wrap64 a.
Proof. unfold wrap64. replace (a + 1 + (two64 - 1)) with (a + 1 * two64) by (rewrite E64; lia). apply N.mod_add. discriminate. Qed.
Lemma counted_request u n k : counted u n -> counted (request u k) n.
Proof.
  unfold counted. intros H. simpl. rewrite H, wrap_add, lenN_app. change (lenN [k]) with 1. f_equal. lia.
Qed.
Lemma counted_ready u n : counted u n -> counted (try_ready u) n.
Proof. unfold counted, try_ready. destruct (u_run u); [auto|]. destruct (0 <? u_cnt u); [auto|]. destruct (u_p2p u); auto. Qed.
Lemma counted_answered u n k l : counted u n -> u_wait u = k :: l -> counted (answered (set_wait u l)) n.
Proof.
  unfold counted. intros H Hw. simpl. rewrite H, Hw, wrap_add, lenN_cons.
  replace (1 + lenN l + n) with (lenN l + n + 1) by lia. apply wrap_full.
Qed.
Lemma counted_step u n e : counted u n -> counted (step u e) (n + match e with Failed => lenN (u_wait u) | _ => 0 end).
Proof.
  intros H. destruct e; simpl.
  - rewrite N.add_0_r. apply counted_ready, counted_request, H.
  - rewrite N.add_0_r. destruct (u_wait u) as [|k l] eqn:Ew; [exact H|].
    assert (Ha := counted_answered _ _ _ _ H Ew). destruct k.
    + apply counted_ready. destruct (a_p2p a); simpl; destruct (a_wfd a && _); repeat apply counted_request; exact Ha.
    + apply counted_ready, Ha.
    + apply counted_ready. destruct (a_peer a); [exact Ha|apply counted_request, Ha|exact Ha].
    + apply counted_ready. destruct (a_ok a); exact Ha.
  - unfold counted in *. simpl. rewrite H. f_equal. change (lenN []) with 0. lia.
Qed.
Lemma counted_run es : forall u n, counted u n -> counted (run u es) (n + lost u es).
Proof.
  induction es as [|e es IH]; intros u n H; simpl; [rewrite N.add_0_r; exact H|].
  rewrite N.add_assoc. apply IH, counted_step, H.
Qed.
Lemma lost_app es es' : forall u, lost u (es ++ es') = lost u es + lost (run u es) es'.
Proof. induction es as [|e es IH]; intros u; simpl; [lia|]. rewrite IH. unfold run. simpl. lia. Qed.
Lemma lost_replies rs : Forall is_reply rs -> forall u, lost u rs = 0.
Proof. induction 1 as [|e rs He _ IH]; intros u; simpl; [auto|]. destruct e; try contradiction. rewrite IH. reflexivity. Qed.

(** Ready exactly when the counter is 0, once started. *)
Definition settled (u : setup) : Prop := u_run u = true <-> u_cnt u = 0.
Lemma settled_ready u : u_run u = false \/ u_cnt u = 0 -> settled (try_ready u).
Proof.
  unfold settled, try_ready. intros H. destruct (u_run u) eqn:Er.
  - rewrite Er. destruct H as [H|H]; [discriminate|]. tauto.
  - destruct (N.ltb_spec 0 (u_cnt u)) as [Hc|Hc]; [rewrite Er; split; [discriminate|lia]|]. simpl. destruct (u_p2p u); simpl; split; auto; lia.
Qed.

(** ** Steps of one process *)
Definition weight (k : kind) : nat := match k with KStatus => 4 | _ => 1 end.
Fixpoint work (l : list kind) : nat := match l with [] => 0 | k :: l => weight k + work l end.
Lemma work_app a b : work (a ++ b) = (work a + work b)%nat.
Proof. induction a as [|k a IH]; simpl; lia. Qed.
Lemma work_len l : lenN l <= N.of_nat (work l).
Proof. induction l as [|k l IH]; simpl; [reflexivity|]. rewrite lenN_cons. destruct k; simpl weight; lia. Qed.
Lemma ready_wait u : u_wait (try_ready u) = u_wait u.
Proof. unfold try_ready. destruct (u_run u), (0 <? u_cnt u), (u_p2p u); reflexivity. Qed.
Lemma reply_work u a : (work (u_wait (step u (Reply a))) + (if is_more (Reply a) then 0 else 1) <= Nat.max (work (u_wait u)) 1)%nat
  /\ (work (u_wait (step u (Reply a))) <= work (u_wait u))%nat.
Proof.
  simpl. destruct (u_wait u) as [|k l] eqn:Ew; [rewrite Ew; simpl; destruct (a_peer a); lia|].
  destruct k; simpl; unfold status_fn, freq_fn, peer_fn, display_fn; rewrite ready_wait.
  - destruct (a_p2p a); simpl; destruct (a_wfd a && _); simpl; rewrite ?work_app; simpl; destruct (a_peer a); lia.
  - simpl. destruct (a_peer a); lia.
  - destruct (a_peer a); simpl; rewrite ?work_app; simpl; lia.
  - destruct (a_ok a); simpl; destruct (a_peer a); lia.
Qed.
Lemma reply_settled u a n : counted u n -> lenN (u_wait u) + n < two64 -> settled u -> settled (step u (Reply a)).
Proof.
  intros Hc Hb Hs. simpl. destruct (u_wait u) as [|k l] eqn:Ew; [exact Hs|].
  assert (Hr : u_run u = false).
  { destruct (u_run u) eqn:Er; [|auto]. apply Hs in Er. unfold counted, wrap64 in Hc. rewrite Ew, N.mod_small in Hc by auto. rewrite lenN_cons in Hc. lia. }
  destruct k; apply settled_ready; left.
  - simpl. destruct (a_p2p a); simpl; destruct (a_wfd a && _); simpl; exact Hr.
  - exact Hr.
  - destruct (a_peer a); exact Hr.
  - destruct (a_ok a); exact Hr.
Qed.
Lemma replies_settled rs : Forall is_reply rs -> forall u n, counted u n -> settled u -> (work (u_wait u) <= 4)%nat -> n + 4 < two64 ->
  settled (run u rs) /\ counted (run u rs) n /\ (work (u_wait (run u rs)) <= 4)%nat.
Proof.
  induction 1 as [|e rs He _ IH]; intros u n Hc Hs Hw Hn; [simpl; auto|]. destruct e as [|a|]; try contradiction.
  unfold run. cbn [fold_left]. destruct (reply_work u a) as [_ Hw']. apply IH; [|apply (reply_settled u a n); auto|lia|auto].
  - assert (H := counted_step u n (Reply a) Hc). simpl match _ with _ => _ end in H. rewrite N.add_0_r in H. exact H.
  - assert (Hl := work_len (u_wait u)). lia.
Qed.
Lemma start_idle es : at_start es -> u_wait (run fresh es) = [] /\ u_run (run fresh es) = false.
Proof. intros [->|[es' ->]]; [simpl; auto|]. unfold run. rewrite fold_left_app. simpl. auto. Qed.
Lemma started_phase es : at_start es -> counted (run fresh (es ++ [Started])) (lost fresh es) /\ settled (run fresh (es ++ [Started]))
  /\ u_wait (run fresh (es ++ [Started])) = [KStatus].
Proof.
  intros Ha. destruct (start_idle es Ha) as [Hw Hr]. unfold run in *. rewrite fold_left_app. simpl.
  assert (Hc := counted_run es fresh 0 eq_refl). unfold run in Hc. rewrite N.add_0_l in Hc.
  split; [apply counted_ready, counted_request, Hc|]. split; [apply settled_ready; left; exact Hr|].
  unfold started. rewrite ready_wait. simpl. rewrite Hw. reflexivity.
Qed.
Lemma ready_iff es rs : at_start es -> Forall is_reply rs -> lost fresh es + 4 < two64 -> u_wait (run fresh (es ++ Started :: rs)) = [] ->
  (u_run (run fresh (es ++ Started :: rs)) = true <-> lost fresh es = 0).
Proof.
  intros Ha Hr Hb. change (Started :: rs) with ([Started] ++ rs). rewrite app_assoc. unfold run. rewrite fold_left_app. intros Hw.
  destruct (started_phase es Ha) as (Hc & Hs & Hk). unfold run in *.
  destruct (replies_settled rs Hr _ _ Hc Hs) as (S1 & C1 & _); [rewrite Hk; simpl; lia|auto|]. unfold run in *.
  unfold settled in S1. rewrite S1. unfold counted, wrap64 in C1. rewrite Hw, N.mod_small in C1 by (change (lenN []) with 0; lia). change (lenN []) with 0 in C1. lia.
Qed.
Lemma not_ready_before es rs : at_start es -> Forall is_reply rs -> lost fresh es + 4 < two64 -> u_wait (run fresh (es ++ Started :: rs)) <> [] ->
  u_run (run fresh (es ++ Started :: rs)) = false.
Proof.
  intros Ha Hr Hb. change (Started :: rs) with ([Started] ++ rs). rewrite app_assoc. unfold run. rewrite fold_left_app. intros Hw.
  destruct (started_phase es Ha) as (Hc & Hs & Hk). unfold run in *.
  destruct (replies_settled rs Hr _ _ Hc Hs) as (S1 & C1 & W1); [rewrite Hk; simpl; lia|auto|]. unfold run in *.
  destruct (u_run _) eqn:Er; [|auto]. apply S1 in Er. unfold counted, wrap64 in C1. rewrite Er in C1.
  assert (Hl := work_len (u_wait (fold_left step rs (fold_left step (es ++ [Started]) fresh)))).
  destruct (u_wait (fold_left step rs (fold_left step (es ++ [Started]) fresh))) as [|k l]; [congruence|].
  rewrite N.mod_small in C1 by lia. rewrite lenN_cons in C1. lia.
Qed.
Lemma filter_le {A} (f : A -> bool) l : (length (filter f l) <= length l)%nat.
Proof. induction l as [|x l IH]; simpl; [lia|]. destruct (f x); simpl; lia. Qed.
Lemma replies_finish rs : Forall is_reply rs -> forall u, (work (u_wait u) + length (filter is_more rs) <= length rs)%nat -> u_wait (run u rs) = [].
Proof.
  induction 1 as [|e rs He _ IH]; intros u Hw.
  - simpl in *. destruct (u_wait u) as [|k l]; [auto|]. simpl in Hw. destruct k; simpl in Hw; lia.
  - destruct e as [|a|]; try contradiction. unfold run. cbn [fold_left]. fold (run (step u (Reply a)) rs).
    destruct (reply_work u a) as [H1 H2].
    assert (Hl := filter_le is_more rs).
    cbn [filter] in Hw. destruct (is_more (Reply a)); cbn [length] in Hw; apply IH; [lia|].
    destruct (work (u_wait u)) as [|w] eqn:E; [|lia].
    assert (work (u_wait (step u (Reply a))) = 0)%nat by lia. lia.
Qed.
Lemma setup_finishes es rs : at_start es -> Forall is_reply rs -> (4 + length (filter is_more rs) <= length rs)%nat ->
  u_wait (run fresh (es ++ Started :: rs)) = [].
Proof.
  intros Ha Hr Hw. change (Started :: rs) with ([Started] ++ rs). rewrite app_assoc. unfold run. rewrite fold_left_app.
  destruct (started_phase es Ha) as (_ & _ & Hk). unfold run in Hk. apply (replies_finish rs Hr). rewrite Hk. simpl. lia.
Qed.

(** P2P support is that of the first process that has it. *)
Lemma ready_p2p v : u_p2p (try_ready v) = u_p2p v.
Proof. unfold try_ready. destruct (u_run v); [auto|]. destruct (0 <? u_cnt v); [auto|]. destruct (u_p2p v) eqn:E; simpl; rewrite ?E; auto. Qed.
Lemma p2p_keeps u e : u_p2p u = true -> u_p2p (step u e) = true.
Proof.
  intros H. destruct e; simpl; [unfold started; rewrite ready_p2p; exact H| |exact H].
  destruct (u_wait u) as [|k l]; [exact H|]. destruct k; unfold status_fn, freq_fn, peer_fn, display_fn; rewrite ready_p2p.
  - simpl. destruct (a_p2p a); simpl; destruct (a_wfd a && _); simpl; auto.
  - exact H.
  - destruct (a_peer a); exact H.
  - destruct (a_ok a); exact H.
Qed.
Lemma p2p_replies rs : Forall is_reply rs -> forall u, ~ In KStatus (u_wait u) -> u_p2p (run u rs) = u_p2p u.
Proof.
  induction 1 as [|e rs He _ IH]; intros u Hn; [reflexivity|]. destruct e as [|a|]; try contradiction.
  unfold run. cbn [fold_left]. fold (run (step u (Reply a)) rs).
  assert (H : u_p2p (step u (Reply a)) = u_p2p u /\ ~ In KStatus (u_wait (step u (Reply a)))).
  { simpl. destruct (u_wait u) as [|k l] eqn:Ew; [rewrite Ew; auto|]. simpl in Hn.
    destruct k; unfold freq_fn, peer_fn, display_fn; rewrite ?ready_p2p, ?ready_wait; [tauto| | |].
    - simpl. tauto.
    - destruct (a_peer a); simpl; try tauto. split; [auto|]. rewrite in_app_iff. simpl. intros [Hi|[Hi|[]]]; [tauto|discriminate].
    - destruct (a_ok a); simpl; tauto. }
  destruct H as [H1 H2]. rewrite IH by auto. exact H1.
Qed.
Lemma first_p2p es a rs : at_start es -> Forall is_reply rs -> u_p2p (run fresh es) = false ->
  u_p2p (run fresh (es ++ Started :: Reply a :: rs)) = a_p2p a.
Proof.
  intros Ha Hr Hp. destruct (start_idle es Ha) as [Hw _]. unfold run in *. rewrite fold_left_app. cbn [fold_left].
  remember (fold_left step es fresh) as u eqn:Eu. clear Eu.
  assert (Hs : u_wait (step u Started) = [KStatus]) by (simpl; unfold started; rewrite ready_wait; simpl; rewrite Hw; reflexivity).
  assert (Hq : u_p2p (step u Started) = false) by (simpl; unfold started; rewrite ready_p2p; exact Hp).
  remember (step u Started) as v eqn:Ev. clear Ev.
  fold (run (step v (Reply a)) rs). rewrite (p2p_replies rs Hr).
  - simpl. rewrite Hs. unfold status_fn. rewrite ready_p2p. simpl. destruct (a_p2p a); simpl; destruct (a_wfd a && _); simpl; auto.
  - simpl. rewrite Hs. unfold status_fn. rewrite ready_wait. simpl. destruct (a_p2p a); simpl; destruct (a_wfd a && _); simpl; intuition discriminate.
Qed.

(** ** Wi-Fi display *)
Definition wfd_p2p (u : setup) : Prop := u_wfd u = true -> u_p2p u = true.
Lemma ready_wfd v : wfd_p2p v -> u_wfd (try_ready v) = u_wfd v.
Proof.
  unfold wfd_p2p, try_ready. destruct (u_run v); [auto|]. destruct (0 <? u_cnt v); [auto|]. destruct (u_p2p v); simpl; [auto|].
  destruct (u_wfd v); [|auto]. intros H. discriminate (H eq_refl).
Qed.
Lemma wfd_p2p_ready v : wfd_p2p v -> wfd_p2p (try_ready v).
Proof. intros H. unfold wfd_p2p. rewrite ready_wfd, ready_p2p by exact H. exact H. Qed.
Lemma wfd_p2p_step u e : wfd_p2p u -> wfd_p2p (step u e).
Proof.
  intros H. destruct e; simpl; [apply wfd_p2p_ready; exact H| |exact H].
  destruct (u_wait u) as [|k l]; [exact H|]. destruct k; apply wfd_p2p_ready; unfold wfd_p2p in *.
  - destruct (a_p2p a); simpl; destruct (a_wfd a); simpl; auto. destruct (u_p2p u) eqn:E; simpl; rewrite ?E; auto.
  - exact H.
  - destruct (a_peer a); exact H.
  - destruct (a_ok a); simpl; [exact H|discriminate].
Qed.
Lemma wfd_p2p_run es : forall u, wfd_p2p u -> wfd_p2p (run u es).
Proof. induction es as [|e es IH]; intros u H; [exact H|]. apply (IH (step u e)), wfd_p2p_step, H. Qed.
Definition no_display (l : list kind) : Prop := ~ In KStatus l /\ ~ In KDisplay l.
Lemma wfd_kept rs : forall u, wfd_p2p u -> no_display (u_wait u) -> u_wfd (run u (map Reply rs)) = u_wfd u.
Proof.
  induction rs as [|a rs IH]; intros u Hu Hn; [reflexivity|]. unfold run. cbn [map fold_left]. fold (run (step u (Reply a)) (map Reply rs)).
  assert (H : u_wfd (step u (Reply a)) = u_wfd u /\ no_display (u_wait (step u (Reply a)))).
  { unfold no_display in *. simpl. destruct (u_wait u) as [|k l] eqn:Ew; [rewrite Ew; auto|]. simpl in Hn.
    destruct k; unfold freq_fn, peer_fn; [tauto| | |tauto].
    - rewrite ready_wfd, ready_wait by exact Hu. simpl. tauto.
    - rewrite ready_wfd, ready_wait by (destruct (a_peer a); exact Hu).
      destruct (a_peer a); simpl; try tauto. split; [auto|]. rewrite !in_app_iff. simpl. intuition discriminate. }
  destruct H as [H1 H2]. rewrite IH; [exact H1|apply wfd_p2p_step, Hu|exact H2].
Qed.
Lemma status_wait v a : u_wait v = [KStatus] -> u_p2p v = false ->
  u_wait (step v (Reply a)) = (if a_p2p a then [KFreq; KPeer] ++ (if a_wfd a then [KDisplay] else []) else [])
  /\ (wfd_p2p v -> u_wfd (step v (Reply a)) = a_p2p a && a_wfd a).
Proof.
  intros Hs Hp. simpl. rewrite Hs. unfold status_fn. rewrite ready_wait. split.
  - simpl. destruct (a_p2p a); simpl; destruct (a_wfd a); simpl; rewrite ?Hp; reflexivity.
  - intros Hw. assert (Hf : u_wfd v = false) by (destruct (u_wfd v) eqn:E; [rewrite (Hw E) in Hp; discriminate|auto]).
    rewrite ready_wfd; simpl; destruct (a_p2p a); simpl; destruct (a_wfd a); simpl; rewrite ?Hp; simpl; unfold wfd_p2p; simpl; auto.
Qed.
Lemma first_wfd es a rs : at_start es -> u_p2p (run fresh es) = false ->
  u_wait (run fresh (es ++ Started :: Reply a :: map Reply rs)) = [] ->
  u_wfd (run fresh (es ++ Started :: Reply a :: map Reply rs)) = a_p2p a && a_wfd a && match nth_error rs 2 with Some d => a_ok d | None => false end.
Proof.
  intros Ha Hp. destruct (start_idle es Ha) as [Hw _]. assert (Hi : wfd_p2p (run fresh es)) by (apply wfd_p2p_run; discriminate).
  unfold run in *. rewrite fold_left_app. cbn [fold_left].
  remember (fold_left step es fresh) as u eqn:Eu. clear Eu.
  assert (Hs : u_wait (step u Started) = [KStatus]) by (simpl; unfold started; rewrite ready_wait; simpl; rewrite Hw; reflexivity).
  assert (Hq : u_p2p (step u Started) = false) by (simpl; unfold started; rewrite ready_p2p; exact Hp).
  assert (Hv := wfd_p2p_step u Started Hi). remember (step u Started) as v eqn:Ev. clear Ev.
  destruct (status_wait v a Hs Hq) as [H1 H2]. specialize (H2 Hv). assert (H3 := wfd_p2p_step v (Reply a) Hv).
  remember (step v (Reply a)) as w eqn:Ew. clear Ew Hs Hq Hv v. fold (run w (map Reply rs)).
  destruct (a_p2p a); simpl andb in *.
  2:{ intros _. rewrite wfd_kept; [exact H2|exact H3|]. rewrite H1. unfold no_display. simpl. tauto. }
  destruct (a_wfd a); cbn [app] in H1.
  2:{ intros _. rewrite wfd_kept; [exact H2|exact H3|]. rewrite H1. unfold no_display. simpl. intuition discriminate. }
  assert (S1 : forall x r, u_wait (step w (Reply x)) = [KPeer; KDisplay] /\ u_wait (step (step w (Reply x)) (Reply r)) = KDisplay :: (match a_peer r with PMore => [KPeer] | _ => [] end)).
  { intros x r. assert (E : u_wait (step w (Reply x)) = [KPeer; KDisplay]) by (simpl; rewrite H1; unfold freq_fn; rewrite ready_wait; reflexivity).
    split; [exact E|]. simpl in E |- *. rewrite H1 in *. unfold step. rewrite E. unfold peer_fn. rewrite ready_wait. destruct (a_peer r); reflexivity. }
  destruct rs as [|x rs]; [simpl; rewrite H1; discriminate|]. destruct rs as [|r rs]; [destruct (S1 x x) as [E _]; cbn [map run fold_left]; rewrite E; discriminate|].
  destruct (S1 x r) as [_ E]. assert (H4 := wfd_p2p_step _ (Reply r) (wfd_p2p_step w (Reply x) H3)). cbn [map run fold_left].
  remember (step (step w (Reply x)) (Reply r)) as v eqn:Ev.
  destruct rs as [|d rs]; [cbn [map fold_left]; rewrite E; discriminate|]. intros _. cbn [map fold_left nth_error]. fold (run (step v (Reply d)) (map Reply rs)).
  assert (Hv : u_wfd v = true).
  { rewrite Ev. destruct (S1 x r) as [E1 _]. assert (Hx : u_wfd (step w (Reply x)) = true).
    { simpl. rewrite H1. unfold freq_fn. rewrite ready_wfd by exact H3. exact H2. }
    unfold step at 1. rewrite E1. unfold peer_fn. rewrite ready_wfd; [|destruct (a_peer r); apply (wfd_p2p_step w (Reply x) H3)].
    destruct (a_peer r); exact Hx. }
  assert (H5 := wfd_p2p_step v (Reply d) H4).
  rewrite wfd_kept; [|exact H5|].
  - simpl. rewrite E. unfold display_fn. rewrite ready_wfd; destruct (a_ok d); simpl; auto. discriminate.
  - simpl. rewrite E. unfold display_fn. rewrite ready_wait. destruct (a_ok d), (a_peer r); unfold no_display; simpl; intuition discriminate.
Qed.
