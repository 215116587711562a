(** Proofs about the RTSP bus: the order of what is written, and what happens to
    calls. *)
From Coq Require Import Sorted.
From Verif Require Import Base RtspMsg_Model RtspBus_Model RtspBus_Spec.

Lemma put_nth_len l : forall id c, Datatypes.length (put_nth l id c) = Datatypes.length l.
Proof. induction l as [|x l IH]; intros [|id] c; cbn; auto. Qed.
Lemma put_nth_same l : forall id c c', nth_error l id = Some c -> nth_error (put_nth l id c') id = Some c'.
Proof. induction l as [|x l IH]; intros [|id] c c'; cbn; try discriminate; auto. apply IH. Qed.
Lemma put_nth_other l : forall id id' c, id' <> id -> nth_error (put_nth l id c) id' = nth_error l id'.
Proof. induction l as [|x l IH]; intros [|id] [|id'] c H; cbn; auto; try congruence. Qed.
Lemma get_put_same b id c c' : get b id = Some c -> get (put b id c') id = Some c'.
Proof. apply put_nth_same. Qed.
Lemma get_put_other b id id' c : id' <> id -> get (put b id c) id' = get b id'.
Proof. apply put_nth_other. Qed.
Lemma calls_put b id c : Datatypes.length (b_calls (put b id c)) = Datatypes.length (b_calls b).
Proof. apply put_nth_len. Qed.
Lemma get_lt b id c : get b id = Some c -> (id < Datatypes.length (b_calls b))%nat.
Proof. intros H. apply nth_error_Some. unfold get in H. congruence. Qed.
Lemma get_some b id : (id < Datatypes.length (b_calls b))%nat -> exists c, get b id = Some c.
Proof. intros H. apply nth_error_Some in H. unfold get. destruct (nth_error (b_calls b) id); [eauto|congruence]. Qed.

(** ** What is written *)
(** The queue part of two states is the same. *)
Definition same_call (c c' : call) : Prop :=
  c_msg c' = c_msg c /\ c_cb c' = c_cb c /\ c_sent c' = c_sent c /\ c_out c' = c_out c /\ c_sending c' = c_sending c.
Definition same_q (b b' : bus) : Prop :=
  b_out b' = b_out b /\ Datatypes.length (b_calls b') = Datatypes.length (b_calls b)
  /\ forall id c, get b id = Some c -> exists c', get b' id = Some c' /\ same_call c c'.
Lemma same_call_refl c : same_call c c.
Proof. unfold same_call. auto. Qed.
Lemma same_q_refl b : same_q b b.
Proof. split; [|split]; eauto using same_call_refl. Qed.
Lemma same_q_trans a b c : same_q a b -> same_q b c -> same_q a c.
Proof.
  intros (O1 & L1 & H1) (O2 & L2 & H2). split; [|split]; try congruence. intros id x E.
  apply H1 in E as (y & E & (? & ? & ? & ? & ?)). apply H2 in E as (z & E & (? & ? & ? & ? & ?)). exists z. unfold same_call. intuition congruence.
Qed.
Lemma same_q_put b id c c' : get b id = Some c -> same_call c c' -> same_q b (put b id c').
Proof.
  intros E S. split; [reflexivity|]. split; [apply calls_put|]. intros i x Ex. destruct (Nat.eq_dec i id) as [->|N].
  - rewrite E in Ex. injection Ex as <-. exists c'. split; [eapply get_put_same; eauto|exact S].
  - exists x. rewrite get_put_other by assumption. auto using same_call_refl.
Qed.
Lemma same_q_table b l : same_q b (set_table b l).
Proof. split; [reflexivity|]. split; [reflexivity|]. intros id c E. exists c. auto using same_call_refl. Qed.
Lemma same_q_event b e d : same_q b (set_event b e d).
Proof. split; [reflexivity|]. split; [reflexivity|]. intros id c E. exists c. auto using same_call_refl. Qed.
Lemma table_remove_q b ck pk b' : table_remove b ck pk = Ok b' -> same_q b b' /\ b_calls b' = b_calls b.
Proof.
  unfold table_remove. destruct (table_find b ck pk) as [[id|]|]; cbn [bind]; intros [= <-]; auto using same_q_refl, same_q_table.
Qed.
Lemma unlink_waiting_q b id pk b' x : unlink_waiting b id pk = Ok (b', x) -> same_q b b'.
Proof.
  unfold unlink_waiting. destruct (get b id) as [c|] eqn:E; [|discriminate]. destruct (c_wait c); [|intros [= <- <-]; apply same_q_refl].
  destruct (table_remove b (c_cookie c) pk) as [b1|] eqn:E1; cbn [bind]; [|discriminate]. intros [= <- <-].
  apply table_remove_q in E1 as (S & C). eapply same_q_trans; [exact S|]. apply same_q_put with c; [|repeat split]. unfold get in *. now rewrite C.
Qed.
Lemma set_timers_q l : forall b on b', set_timers b l on = Ok b' -> same_q b b'.
Proof.
  induction l as [|id l IH]; intros b on b'; cbn [set_timers]; [intros [= <-]; apply same_q_refl|].
  destruct (get b id) as [c|] eqn:E; [|discriminate]. destruct (live c); [|discriminate]. intros H. apply IH in H. eapply same_q_trans; [|exact H].
  destruct (on && negb (c_cb c)); [apply same_q_refl|]. eapply same_q_put; [exact E|]. repeat split.
Qed.

(** Taking an untouched message out of the queue. *)
Definition removed (b : bus) (id : nat) (b' : bus) : Prop :=
  exists c, get b id = Some c /\ c_out c = true /\ c_sending c = false
    /\ b' = put (set_out b (remove Nat.eq_dec id (b_out b))) id (c_set_out c false false).
Lemma drop_q b id pk b' : drop b id pk = Ok b' -> same_q b b' \/ removed b id b'.
Proof.
  unfold drop. destruct (get b id) as [c|] eqn:E; [|discriminate]. destruct (c_sending c) eqn:Es; cbn [bind].
  - destruct (unlink_waiting b id pk) as [[b1 x]|] eqn:E1; cbn [bind fst]; [|discriminate]. intros [= <-]. left. eapply unlink_waiting_q; eauto.
  - unfold unlink_outgoing. rewrite E. destruct (c_out c) eqn:Eo; cbn [bind].
    + intros [= <-]. right. exists c. auto.
    + destruct (unlink_waiting b id pk) as [[b1 x]|] eqn:E1; cbn [bind fst]; [|discriminate]. intros [= <-]. left. eapply unlink_waiting_q; eauto.
Qed.

Record queue (b : bus) (done : list nat) (w : list byte) : Prop := {
  q_sorted : StronglySorted lt (done ++ b_out b);
  q_range : Forall (fun id => (id < Datatypes.length (b_calls b))%nat) (done ++ b_out b);
  q_out : forall id c, get b id = Some c -> (In id (b_out b) <-> c_out c = true);
  q_sending : forall id c, get b id = Some c -> c_sending c = true -> exists l, b_out b = id :: l;
  q_sent : forall id c, get b id = Some c -> c_out c = true -> c_sending c = false -> c_sent c = 0;
  q_most : forall id c, get b id = Some c -> c_sent c <= lenN (c_raw c);
  q_wire : w = flat_map (raw_of b) done ++ current b }.

Lemma raw_same b b' id : same_q b b' -> (id < Datatypes.length (b_calls b))%nat -> raw_of b' id = raw_of b id.
Proof. intros (_ & _ & H) L. destruct (get_some b id L) as (c & E). destruct (H _ _ E) as (c' & E' & M & _). unfold raw_of, c_raw. now rewrite E, E', M. Qed.
Lemma raws_same b b' l : same_q b b' -> Forall (fun id => (id < Datatypes.length (b_calls b))%nat) l -> flat_map (raw_of b') l = flat_map (raw_of b) l.
Proof. intros S F. induction F as [|x l L F IH]; [reflexivity|]. cbn. now rewrite (raw_same b b' x S L), IH. Qed.
Lemma current_same b b' : same_q b b' -> Forall (fun id => (id < Datatypes.length (b_calls b))%nat) (b_out b) -> current b' = current b.
Proof.
  intros S F. unfold current. destruct S as (O & _ & H). rewrite O. destruct (b_out b) as [|id l]; [reflexivity|]. inversion F; subst.
  destruct (get_some b id H2) as (c & E). destruct (H _ _ E) as (c' & E' & M & _ & Sn & _). unfold c_raw. now rewrite E, E', M, Sn.
Qed.
Lemma same_q_get b b' id c' : same_q b b' -> get b' id = Some c' -> exists c, get b id = Some c /\ same_call c c'.
Proof.
  intros (_ & L & H) E. destruct (get_some b id) as (c & E'). { rewrite <- L. eapply get_lt; eauto. }
  exists c. split; [exact E'|]. apply H in E' as (c2 & E2 & S). congruence.
Qed.
Lemma queue_same b b' done w : same_q b b' -> queue b done w -> queue b' done w.
Proof.
  intros S Q. assert (S0 := S). destruct Q as [Qs Qr Qo Qg Qn Qm Qw]. destruct S as (O & L & H). constructor; rewrite ?O.
  - exact Qs.
  - rewrite L. exact Qr.
  - intros id c' E. destruct (same_q_get b b' id c' S0 E) as (c & Ec & (_ & _ & _ & Eo & _)). rewrite Eo. eauto.
  - intros id c' E. destruct (same_q_get b b' id c' S0 E) as (c & Ec & (_ & _ & _ & _ & Eg)). rewrite Eg. eauto.
  - intros id c' E. destruct (same_q_get b b' id c' S0 E) as (c & Ec & (_ & _ & Es & Eo & Eg)). rewrite Eg, Eo, Es. eauto.
  - intros id c' E. destruct (same_q_get b b' id c' S0 E) as (c & Ec & (M & _ & Es & _)). unfold c_raw. rewrite M, Es. eapply Qm; eauto.
  - rewrite (raws_same b b'), (current_same b b'); auto; apply Forall_app in Qr; tauto.
Qed.

Lemma remove_keep (l : list nat) id : ~ In id l -> remove Nat.eq_dec id l = l.
Proof. apply notin_remove. Qed.
Lemma sorted_app_r (l l' : list nat) : StronglySorted lt (l ++ l') -> StronglySorted lt l'.
Proof. induction l as [|x l IH]; [auto|]. cbn. intros H. inversion H; auto. Qed.
Lemma sorted_app_l (l l' : list nat) : StronglySorted lt (l ++ l') -> StronglySorted lt l.
Proof.
  induction l as [|x l IH]; cbn; intros H; [constructor|]. inversion H as [|? ? A B]; subst. constructor; auto. apply Forall_app in B. tauto.
Qed.
Lemma sorted_nodup (l : list nat) : StronglySorted lt l -> NoDup l.
Proof. induction 1 as [|x l S IH F]; constructor; auto. intros I. rewrite Forall_forall in F. apply F in I. lia. Qed.
Lemma sorted_remove (l l' : list nat) id : StronglySorted lt (l ++ l') -> StronglySorted lt (l ++ remove Nat.eq_dec id l').
Proof.
  induction l as [|x l IH]; cbn; intros H.
  - induction H as [|y l' S IH F]; cbn; [constructor|]. destruct (Nat.eq_dec id y); [assumption|]. constructor; [assumption|].
    rewrite Forall_forall in *. intros z Hz. apply in_remove in Hz as (Hz & _). auto.
  - inversion H as [|? ? A B]; subst. constructor; auto. rewrite Forall_forall in *. intros z Hz. apply B. apply in_app_iff in Hz as [Hz|Hz]; apply in_app_iff; auto.
    apply in_remove in Hz. tauto.
Qed.

Lemma get_set_out b l id : get (set_out b l) id = get b id.
Proof. reflexivity. Qed.
Lemma raw_removed b id b' i : removed b id b' -> raw_of b' i = raw_of b i.
Proof.
  intros (c & E & _ & _ & ->). unfold raw_of. destruct (Nat.eq_dec i id) as [->|N].
  - rewrite (get_put_same _ id c) by exact E. now rewrite E.
  - now rewrite get_put_other, get_set_out.
Qed.
Lemma untouched_current b done w : queue b done w -> (forall id l c, b_out b = id :: l -> get b id = Some c -> c_sent c = 0) -> current b = [].
Proof.
  intros _ H. unfold current. destruct (b_out b) as [|id l]; [reflexivity|]. destruct (get b id) as [c|] eqn:E; [|reflexivity].
  rewrite (H id l c eq_refl E). reflexivity.
Qed.
Lemma queue_removed b id b' done w : removed b id b' -> queue b done w -> queue b' done w.
Proof.
  intros R Q. assert (R0 := R). assert (Q0 := Q). destruct R as (c & E & Eo & Eg & ->). destruct Q as [Qs Qr Qo Qg Qn Qm Qw].
  set (b' := put _ _ _) in *.
  assert (G : forall i x, get b' i = Some x -> i = id /\ x = c_set_out c false false \/ i <> id /\ get b i = Some x).
  { intros i x Ex. destruct (Nat.eq_dec i id) as [->|N].
    - unfold b' in Ex. rewrite (get_put_same _ id c) in Ex by exact E. injection Ex as <-. auto.
    - unfold b' in Ex. rewrite get_put_other in Ex by assumption. auto. }
  assert (O : b_out b' = remove Nat.eq_dec id (b_out b)) by reflexivity.
  assert (L : Datatypes.length (b_calls b') = Datatypes.length (b_calls b)) by exact (calls_put (set_out b (remove Nat.eq_dec id (b_out b))) id _).
  constructor; rewrite ?O, ?L.
  - now apply sorted_remove.
  - rewrite Forall_forall in *. intros z Hz. apply Qr. apply in_app_iff in Hz as [Hz|Hz]; apply in_app_iff; auto. apply in_remove in Hz. tauto.
  - intros i x Ex. apply G in Ex as [(-> & ->)|(N & Ex)].
    + cbn. split; [|discriminate]. intros I. apply in_remove in I. tauto.
    + rewrite <- (Qo i x Ex). split; [intros I; apply in_remove in I; tauto|]. intros I. apply in_in_remove; auto.
  - intros i x Ex Es. apply G in Ex as [(-> & ->)|(N & Ex)]; [discriminate|]. destruct (Qg _ _ Ex Es) as (l & El). rewrite El. cbn [remove].
    destruct (Nat.eq_dec id i); [congruence|]. eauto.
  - intros i x Ex. apply G in Ex as [(-> & ->)|(N & Ex)]; [discriminate|]. eauto.
  - intros i x Ex. apply G in Ex as [(-> & ->)|(N & Ex)]; [|eauto]. exact (Qm _ _ E).
  - rewrite Qw. f_equal. { clear -R0. induction done as [|x l IH]; [reflexivity|]. cbn. now rewrite (raw_removed _ _ _ x R0), IH. }
    assert (Eid : In id (b_out b)) by (apply (Qo id c E); exact Eo).
    unfold current. rewrite O. destruct (b_out b) as [|h t] eqn:Eb; [contradiction|]. cbn [remove]. destruct (Nat.eq_dec id h) as [->|N].
    + rewrite E, (Qn _ _ E Eo Eg). rewrite takeN_0. apply sorted_app_r in Qs. apply sorted_nodup in Qs. inversion Qs as [|? ? Nh Nt]; subst. rewrite remove_keep by assumption.
      destruct t as [|h2 t]; [reflexivity|]. assert (N2 : h2 <> h) by (intros ->; apply Nh; now left).
      unfold b'. rewrite get_put_other, get_set_out by assumption. destruct (get b h2) as [c2|] eqn:E2; [|reflexivity].
      assert (O2 : c_out c2 = true) by (apply (Qo h2 c2 E2); right; now left).
      destruct (c_sending c2) eqn:S2. { destruct (Qg _ _ E2 S2) as (l & [= ? ?]). congruence. }
      rewrite (Qn _ _ E2 O2 S2). now rewrite takeN_0.
    + unfold b'. rewrite get_put_other, get_set_out by congruence. reflexivity.
Qed.

(** Adding a message. *)
Definition added (b b' : bus) : Prop :=
  exists c, b_calls b' = b_calls b ++ [c] /\ b_out b' = b_out b ++ [Datatypes.length (b_calls b)]
    /\ c_out c = true /\ c_sending c = false /\ c_sent c = 0.
Lemma get_added b b' id x : added b b' -> get b' id = Some x ->
  get b id = Some x \/ id = Datatypes.length (b_calls b) /\ c_out x = true /\ c_sending x = false /\ c_sent x = 0.
Proof.
  intros (c & C & _ & F1 & F2 & F3) E. unfold get in *. rewrite C in E. destruct (Nat.lt_ge_cases id (Datatypes.length (b_calls b))) as [L|L].
  - rewrite nth_error_app1 in E by assumption. auto.
  - right. rewrite nth_error_app2 in E by assumption. destruct (id - Datatypes.length (b_calls b))%nat as [|k] eqn:Ek; cbn in E; [|destruct k; discriminate].
    injection E as <-. split; [lia|]. auto.
Qed.
Lemma get_added_old b b' id : added b b' -> (id < Datatypes.length (b_calls b))%nat -> get b' id = get b id.
Proof. intros (c & C & _) L. unfold get. rewrite C. now apply nth_error_app1. Qed.
Lemma queue_added b b' done w : added b b' -> queue b done w -> queue b' done w.
Proof.
  intros A Q. assert (A0 := A). destruct A as (c & C & O & F1 & F2 & F3). destruct Q as [Qs Qr Qo Qg Qn Qm Qw].
  assert (L : Datatypes.length (b_calls b') = Datatypes.S (Datatypes.length (b_calls b))) by (rewrite C, app_length; cbn; lia).
  constructor.
  - rewrite O, app_assoc. clear -Qs Qr. induction (done ++ b_out b) as [|x l IH]; cbn; [repeat constructor|]. inversion Qs; inversion Qr; subst.
    constructor; auto. apply Forall_app. auto.
  - rewrite O, L, app_assoc. apply Forall_app. split; [|repeat constructor; lia]. eapply Forall_impl; [|exact Qr]. cbn. intros. lia.
  - intros id x Ex. rewrite O, in_app_iff. apply (get_added b b' _ _ A0) in Ex as [Ex|(-> & -> & _)].
    + rewrite <- (Qo id x Ex). split; [|auto]. intros [I|[I|[]]]; auto. apply get_lt in Ex. lia.
    + split; [auto|]. intros _. right. now left.
  - intros id x Ex Es. rewrite O. apply (get_added b b' _ _ A0) in Ex as [Ex|(-> & _ & Eg & _)]; [|congruence]. destruct (Qg _ _ Ex Es) as (l & ->). cbn. eauto.
  - intros id x Ex. apply (get_added b b' _ _ A0) in Ex as [Ex|(-> & _ & _ & ->)]; eauto.
  - intros id x Ex. apply (get_added b b' _ _ A0) in Ex as [Ex|(-> & _ & _ & ->)]; eauto. lia.
  - rewrite Qw. apply Forall_app in Qr as (Qd & Qr). f_equal.
    + clear -Qd A0. induction Qd as [|x l Lx F IH]; [reflexivity|]. cbn. unfold raw_of at 1 3. now rewrite (get_added_old b b' x A0 Lx), IH.
    + unfold current. rewrite O. destruct (b_out b) as [|h t]; cbn [app].
      * destruct (get b' (Datatypes.length (b_calls b))) as [x|] eqn:Ex; [|reflexivity]. apply (get_added b b' _ _ A0) in Ex as [Ex|(_ & _ & _ & ->)]; [apply get_lt in Ex; lia|]. now rewrite takeN_0.
      * inversion Qr; subst. now rewrite (get_added_old b b' h A0).
Qed.

(** Writing some bytes of the first message. *)
Lemma queue_write b done w id c n rest : queue b done w -> b_out b = id :: rest -> get b id = Some c ->
  n <= lenN (c_raw c) - c_sent c ->
  queue (put b id (c_set_sent (c_set_out c (c_out c) true) (c_sent c + n))) done (w ++ takeN n (dropN (c_sent c) (c_raw c))).
Proof.
  intros [Qs Qr Qo Qg Qn Qm Qw] Eb E Ln. set (c' := c_set_sent _ _). set (b' := put b id c').
  assert (Eo : c_out c = true) by (apply (Qo id c E); rewrite Eb; now left).
  assert (G : forall i x, get b' i = Some x -> i = id /\ x = c' \/ i <> id /\ get b i = Some x).
  { intros i x Ex. destruct (Nat.eq_dec i id) as [->|N].
    - unfold b' in Ex. rewrite (get_put_same _ id c) in Ex by exact E. injection Ex as <-. auto.
    - unfold b' in Ex. rewrite get_put_other in Ex by assumption. auto. }
  assert (R : forall i, raw_of b' i = raw_of b i).
  { intros i. unfold raw_of. destruct (get b' i) as [x|] eqn:Ex.
    - apply G in Ex as [(-> & ->)|(_ & ->)]; [rewrite E|]; reflexivity.
    - unfold b' in Ex. destruct (Nat.eq_dec i id) as [->|N]; [rewrite (get_put_same _ id c) in Ex by exact E; discriminate|]. rewrite get_put_other in Ex by assumption. now rewrite Ex. }
  constructor.
  - exact Qs.
  - unfold b'. rewrite calls_put. exact Qr.
  - intros i x Ex. change (b_out b') with (b_out b). apply G in Ex as [(-> & ->)|(_ & Ex)]; [|eauto]. exact (Qo id c E).
  - intros i x Ex Es. change (b_out b') with (b_out b). apply G in Ex as [(-> & ->)|(_ & Ex)]; eauto.
  - intros i x Ex. apply G in Ex as [(-> & ->)|(_ & Ex)]; [discriminate|eauto].
  - intros i x Ex. apply G in Ex as [(-> & ->)|(_ & Ex)]; [|eauto]. cbn. change (c_raw c') with (c_raw c). pose proof (Qm _ _ E). lia.
  - rewrite Qw, <- app_assoc. f_equal. { clear -R. induction done as [|x l IH]; [reflexivity|]. cbn. now rewrite R, IH. }
    unfold current. change (b_out b') with (b_out b). rewrite Eb, E. unfold b'. rewrite (get_put_same _ id c) by exact E.
    change (c_raw c') with (c_raw c). change (c_sent c') with (c_sent c + n). pose proof (Qm _ _ E). rewrite <- (takeN_dropN (c_sent c) (c_raw c)) at 3. rewrite takeN_app. len. rewrite N.min_l by lia. replace (c_sent c + n - c_sent c) with n by lia. f_equal. rewrite takeN_takeN. f_equal. lia.
Qed.
(** The first message is written. *)
Lemma queue_done b done w id c rest : queue b done w -> b_out b = id :: rest -> get b id = Some c -> lenN (c_raw c) <= c_sent c ->
  queue (put (set_out b (remove Nat.eq_dec id (b_out b))) id (c_set_out c false false)) (done ++ [id]) w
  /\ remove Nat.eq_dec id (b_out b) = rest.
Proof.
  intros [Qs Qr Qo Qg Qn Qm Qw] Eb E Ln. set (b' := put _ _ _).
  assert (N : NoDup (b_out b)) by (eapply sorted_nodup, sorted_app_r; exact Qs).
  assert (O : b_out b' = rest). { cbn. rewrite Eb in *. inversion N; subst. cbn. destruct (Nat.eq_dec id id); [|congruence]. now apply notin_remove. }
  split; [|exact O]. rewrite Eb in *. inversion N as [|? ? Nh Nt]; subst x l.
  assert (G : forall i x, get b' i = Some x -> i = id /\ x = c_set_out c false false \/ i <> id /\ get b i = Some x).
  { intros i x Ex. destruct (Nat.eq_dec i id) as [->|Ni].
    - unfold b' in Ex. rewrite (get_put_same _ id c) in Ex by exact E. injection Ex as <-. auto.
    - unfold b' in Ex. rewrite get_put_other in Ex by assumption. auto. }
  assert (L : Datatypes.length (b_calls b') = Datatypes.length (b_calls b)) by (unfold b'; rewrite calls_put; reflexivity).
  assert (R : forall i, raw_of b' i = raw_of b i).
  { intros i. unfold raw_of. destruct (get b' i) as [x|] eqn:Ex.
    - apply G in Ex as [(-> & ->)|(_ & ->)]; [rewrite E|]; reflexivity.
    - unfold b' in Ex. destruct (Nat.eq_dec i id) as [->|Ni]; [rewrite (get_put_same _ id c) in Ex by exact E; discriminate|]. rewrite get_put_other, get_set_out in Ex by assumption. now rewrite Ex. }
  constructor; rewrite ?O, ?L.
  - rewrite <- app_assoc. exact Qs.
  - rewrite <- app_assoc. exact Qr.
  - intros i x Ex. apply G in Ex as [(-> & ->)|(Ni & Ex)]; [cbn; split; [contradiction|discriminate]|]. rewrite <- (Qo i x Ex). cbn. split; [auto|]. intros [?|?]; congruence || auto.
  - intros i x Ex Es. apply G in Ex as [(-> & ->)|(Ni & Ex)]; [discriminate|]. destruct (Qg _ _ Ex Es) as (l & [= ? ?]). congruence.
  - intros i x Ex. apply G in Ex as [(-> & ->)|(Ni & Ex)]; [discriminate|eauto].
  - intros i x Ex. apply G in Ex as [(-> & ->)|(Ni & Ex)]; [|eauto]. exact (Qm _ _ E).
  - rewrite Qw, flat_map_app, <- app_assoc. f_equal. { clear -R. induction done as [|x l IH]; [reflexivity|]. cbn. now rewrite R, IH. }
    unfold current. rewrite O, Eb, E. cbn [flat_map app]. rewrite R, app_nil_r. unfold raw_of at 1. rewrite E, takeN_all by assumption.
    destruct rest as [|h2 t]; [now rewrite app_nil_r|]. assert (N2 : h2 <> id) by (intros ->; apply Nh; now left).
    unfold b'. rewrite get_put_other, get_set_out by assumption. destruct (get b h2) as [c2|] eqn:E2; [|now rewrite app_nil_r].
    assert (O2 : c_out c2 = true) by (apply (Qo h2 c2 E2); right; now left).
    destruct (c_sending c2) eqn:S2. { destruct (Qg _ _ E2 S2) as (l & [= ? ?]). congruence. }
    rewrite (Qn _ _ E2 O2 S2). now rewrite takeN_0, app_nil_r.
Qed.

Lemma call_async_q b m cb b' m' e : call_async b m cb = Ok (b', m', e) -> same_q b b' \/ added b b'.
Proof.
  unfold call_async. destruct (b_dead b || (m_cookie m =? 0)); [intros [= <- <- <-]; left; apply same_q_refl|].
  destruct (m_used m); [intros [= <- <- <-]; left; apply same_q_refl|].
  destruct (seal (b_ck b) m) as [[[ck m1] [e1|]]|]; cbn [bind]; [|destruct (m_raw m1)|discriminate].
  - intros [= <- <- <-]. left. split; [reflexivity|]. split; [reflexivity|]. intros id c E. exists c. auto using same_call_refl.
  - destruct (if has_flag _ then _ else _).
    + intros [= <- <- <-]. right. eexists. split; [reflexivity|]. auto.
    + intros [= <- <- <-]. left. split; [reflexivity|]. split; [reflexivity|]. intros id c E. exists c. auto using same_call_refl.
  - intros [= <- <- <-]. left. split; [reflexivity|]. split; [reflexivity|]. intros id c E. exists c. auto using same_call_refl.
Qed.
Lemma attach_q b b' : attach b = Ok b' -> same_q b b'.
Proof.
  unfold attach. destruct (b_dead b || b_event b); [intros [= <-]; apply same_q_refl|]. intros H. apply set_timers_q in H.
  eapply same_q_trans; [|exact H]. apply same_q_event.
Qed.
Lemma detach_q b b' : detach b = Ok b' -> same_q b b'.
Proof.
  unfold detach. destruct (b_event b); [|intros [= <-]; apply same_q_refl]. destruct (set_timers b (b_table b) false) as [b1|] eqn:E; cbn [bind]; [|discriminate].
  intros [= <-]. apply set_timers_q in E. eapply same_q_trans; [exact E|]. apply same_q_event.
Qed.

Definition all_there (b : bus) (done : list nat) : Prop := done ++ b_out b = seq 0 (Datatypes.length (b_calls b)).
Lemma all_there_same b b' done : same_q b b' -> all_there b done -> all_there b' done.
Proof. intros (O & L & _) H. unfold all_there. now rewrite O, L. Qed.

Lemma drop_queue b id pk b' done w : drop b id pk = Ok b' -> queue b done w -> queue b' done w.
Proof. intros H Q. apply drop_q in H as [S|R]; eauto using queue_same, queue_removed. Qed.

Lemma step_queue b e b' o done w : step b e = Ok (b', o) -> queue b done w ->
  exists done', queue b' done' (w ++ wire_bytes o) /\ (dropping e = false -> all_there b done -> all_there b' done').
Proof.
  intros H Q.
  assert (Same : same_q b b' -> wire_bytes o = [] -> exists done', queue b' done' (w ++ wire_bytes o) /\ (dropping e = false -> all_there b done -> all_there b' done')).
  { intros S ->. exists done. rewrite app_nil_r. split; [eapply queue_same; eauto|]. intros _. now apply all_there_same. }
  destruct e as [m cb|cookie pk pk'|id|m pk pk'|id pk|r pk| | |]; cbn [step] in H.
  - destruct (call_async b m cb) as [[[b1 m1] e1]|] eqn:E; cbn [bind fst] in H; [|discriminate]. injection H as <- <-.
    apply call_async_q in E as [S|A]; [now apply Same|]. exists done. cbn [wire_bytes flat_map]. rewrite app_nil_r. split; [eapply queue_added; eauto|].
    intros _ T. destruct A as (c & C & O & _). unfold all_there in *. rewrite C, O, app_assoc, T, app_length. cbn [Datatypes.length]. rewrite Nat.add_1_r, seq_S. reflexivity.
  - unfold cancel in H. destruct (cookie =? 0); [injection H as <- <-; apply Same; [apply same_q_refl|reflexivity]|].
    destruct (table_find b cookie pk) as [[id|]|]; cbn [bind] in H; [|injection H as <- <-; apply Same; [apply same_q_refl|reflexivity]|discriminate].
    destruct (get b id) as [c|]; [|discriminate]. destruct (drop b id pk') as [b1|] eqn:E; cbn [bind] in H; [|discriminate]. injection H as <- <-.
    exists done. cbn. rewrite app_nil_r. split; [eapply drop_queue; eauto|discriminate].
  - injection H as <- <-. apply Same; [|reflexivity]. unfold user_unref. destruct (get b id) as [c|] eqn:E; [|apply same_q_refl]. eapply same_q_put; [exact E|repeat split].
  - unfold incoming in H. assert (D : dropping (EIncoming m pk pk') = is_reply m) by reflexivity. unfold is_reply in D. destruct (m_start m) as [| |code ph|]; try (injection H as <- <-; apply Same; [apply same_q_refl|reflexivity]).
    unfold call_reply in H. destruct (table_find b (without_flag (m_cookie m)) pk) as [[id|]|]; cbn [bind] in H; [|injection H as <- <-; apply Same; [apply same_q_refl|reflexivity]|discriminate].
    destruct (get b id) as [c|]; [|discriminate]. destruct (drop b id pk') as [b1|] eqn:E; cbn [bind] in H; [|discriminate]. injection H as <- <-.
    exists done. split; [|rewrite D; discriminate]. destruct (c_cb c); cbn; rewrite app_nil_r; eapply drop_queue; eauto.
  - unfold timer in H. destruct (get b id) as [c|] eqn:Ec; [|injection H as <- <-; apply Same; [apply same_q_refl|reflexivity]].
    destruct (c_timer c); [|injection H as <- <-; apply Same; [apply same_q_refl|reflexivity]].
    destruct (drop _ id pk) as [b1|] eqn:E; cbn [bind] in H; [|discriminate]. injection H as <- <-. exists done. split; [|discriminate].
    assert (Q' : queue b1 done w). { eapply drop_queue; [exact E|]. eapply queue_same; [|exact Q]. eapply same_q_put; [exact Ec|repeat split]. }
    destruct (c_cb c); cbn; rewrite app_nil_r; exact Q'.
  - unfold write in H. destruct (b_out b) as [|id rest] eqn:Eb; [injection H as <- <-; apply Same; [apply same_q_refl|reflexivity]|].
    destruct (get b id) as [c|] eqn:Ec; [|discriminate].
    assert (Z : exists done', queue (put b id (c_set_out c (c_out c) true)) done' (w ++ []) /\ (dropping (EWrite r pk) = false -> all_there b done -> all_there (put b id (c_set_out c (c_out c) true)) done')).
    { exists done. split.
      - pose proof (queue_write b done w id c 0 rest Q Eb Ec (N.le_0_l _)) as Z. rewrite takeN_0 in Z. replace (c_set_sent (c_set_out c (c_out c) true) (c_sent c + 0)) with (c_set_out c (c_out c) true) in Z; [exact Z|].
        unfold c_set_sent, c_set_out. cbn. now rewrite N.add_0_r.
      - intros _ T. unfold all_there. now rewrite calls_put. }
    destruct r as [n| |]; [|injection H as <- <-; exact Z|injection H as <- <-; exact Z]. clear Z.
    cbv zeta in H. set (c0 := c_set_out c (c_out c) true) in *. change (c_raw c0) with (c_raw c) in H. change (c_sent c0) with (c_sent c) in H.
    set (n' := N.min n (lenN (c_raw c) - c_sent c)) in *. set (c1 := c_set_sent c0 (c_sent c + n')) in *.
    assert (P : put (put b id c0) id c1 = put b id c1).
    { unfold put, set_calls. cbn [b_calls b_ck b_dead b_event b_out b_table]. f_equal. clear. generalize (b_calls b). intros l. revert id. induction l as [|x l IH]; intros [|i]; cbn; auto. now rewrite IH. }
    rewrite P in H. clear P.
    assert (Q1 : queue (put b id c1) done (w ++ takeN n' (dropN (c_sent c) (c_raw c)))).
    { apply (queue_write b done w id c n' rest Q Eb Ec). unfold n'. lia. }
    assert (E1 : get (put b id c1) id = Some c1) by (eapply get_put_same; eauto).
    assert (B1 : b_out (put b id c1) = id :: rest) by exact Eb.
    assert (T1 : all_there b done -> all_there (put b id c1) done) by (intros T; unfold all_there; now rewrite calls_put).
    set (b1 := put b id c1) in *. clearbody b1. change (c_raw c1) with (c_raw c) in H. change (c_cb c1) with (c_cb c) in H.
    assert (Fin : forall b2, same_q b1 b2 -> lenN (c_raw c) <= c_sent c1 -> (do r0 <- unlink_outgoing b2 id; Ok (fst r0, [Wire (takeN n' (dropN (c_sent c) (c_raw c)))])) = Ok (b', o) ->
       exists done', queue b' done' (w ++ wire_bytes o) /\ (dropping (EWrite (Sent n) pk) = false -> all_there b done -> all_there b' done')).
    { intros b2 S2 Ln H2. destruct S2 as (O2 & L2 & G2). destruct (G2 _ _ E1) as (c2 & E2 & (M2 & _ & Sn2 & Eo2 & _)).
      assert (S2 : same_q b1 b2) by (split; [|split]; auto). assert (Q2 := queue_same _ _ _ _ S2 Q1).
      unfold unlink_outgoing in H2. rewrite E2 in H2.
      assert (Out : c_out c2 = true). { apply (q_out _ _ _ Q2 id c2 E2). rewrite O2, B1. now left. }
      rewrite Out in H2. cbn [bind fst] in H2. injection H2 as <- <-.
      destruct (queue_done b2 done _ id c2 rest Q2) as (Q3 & R3); [congruence|exact E2| |].
      { unfold c_raw in *. rewrite M2, Sn2. exact Ln. }
      exists (done ++ [id]). cbn [wire_bytes flat_map]. rewrite app_nil_r. split; [exact Q3|]. intros _ T. specialize (T1 T). unfold all_there in *. rewrite calls_put.
      cbn [b_calls set_out]. rewrite L2, <- T1, B1. change (b_out (put (set_out b2 (remove Nat.eq_dec id (b_out b2))) id (c_set_out c2 false false))) with (remove Nat.eq_dec id (b_out b2)).
      rewrite R3, <- app_assoc. reflexivity. }
    destruct (N.leb_spec (lenN (c_raw c)) (c_sent c1)) as [Ln|Ln].
    + destruct (c_cb c); cbn [bind] in H; [apply (Fin b1); auto using same_q_refl|].
      destruct (unlink_waiting b1 id pk) as [[b2 []]|] eqn:E2; cbn [bind] in H; [|apply (Fin b2); eauto using unlink_waiting_q|discriminate].
      injection H as <- <-. apply unlink_waiting_q in E2. exists done. cbn [wire_bytes flat_map]. rewrite app_nil_r. split; [eapply queue_same; eauto|].
      intros _ T. eapply all_there_same; eauto.
    + injection H as <- <-. exists done. cbn [wire_bytes flat_map]. rewrite app_nil_r. auto.
  - destruct (attach b) as [b1|] eqn:E; cbn [bind] in H; [|discriminate]. injection H as <- <-. apply attach_q in E. now apply Same.
  - destruct (detach b) as [b1|] eqn:E; cbn [bind] in H; [|discriminate]. injection H as <- <-. apply detach_q in E. now apply Same.
  - unfold hup in H. destruct (b_dead b); [injection H as <- <-; apply Same; [apply same_q_refl|reflexivity]|].
    destruct (detach b) as [b1|] eqn:E; cbn [bind] in H; [|discriminate]. injection H as <- <-. apply detach_q in E. apply Same; [|reflexivity].
    eapply same_q_trans; [exact E|apply same_q_event].
Qed.

Lemma run_queue es : forall b b' o done w, run b es = Ok (b', o) -> queue b done w ->
  exists done', queue b' done' (w ++ wire_bytes o) /\ (forallb (fun e => negb (dropping e)) es = true -> all_there b done -> all_there b' done').
Proof.
  induction es as [|e es IH]; intros b b' o done w; cbn [run].
  - intros [= <- <-] Q. exists done. cbn. rewrite app_nil_r. auto.
  - destruct (step b e) as [[b1 o1]|] eqn:E; cbn [bind fst snd]; [|discriminate]. destruct (run b1 es) as [[b2 o2]|] eqn:E2; cbn [bind fst snd]; [|discriminate].
    intros [= <- <-] Q. destruct (step_queue _ _ _ _ _ _ E Q) as (d1 & Q1 & T1). destruct (IH _ _ _ _ _ E2 Q1) as (d2 & Q2 & T2).
    exists d2. unfold wire_bytes in *. rewrite flat_map_app, app_assoc. split; [exact Q2|]. cbn [forallb]. rewrite Bool.andb_true_iff, Bool.negb_true_iff. intros (A & B) T. auto.
Qed.
Lemma open_queue : queue bus_open [] [].
Proof. constructor; [apply SSorted_nil|apply Forall_nil| | | | |reflexivity]; intros [|]; discriminate. Qed.

(** The whole run. *)
Lemma written_in_order es b log : run bus_open es = Ok (b, log) ->
  exists done, StronglySorted lt (done ++ b_out b)
    /\ wire_bytes log = flat_map (raw_of b) done ++ current b
    /\ (forallb (fun e => negb (dropping e)) es = true -> done ++ b_out b = seq 0 (Datatypes.length (b_calls b))).
Proof.
  intros H. destruct (run_queue _ _ _ _ _ _ H open_queue) as (done & Q & T). exists done. split; [apply Q|]. split; [exact (q_wire _ _ _ Q)|]. intros A. apply T; auto. reflexivity.
Qed.

(** ** What happens to calls *)
Record waiting (b : bus) : Prop := {
  w_nodup : NoDup (b_table b);
  w_table : forall id, In id (b_table b) <-> exists c, get b id = Some c /\ c_wait c = true;
  w_timer : forall id c, get b id = Some c -> c_timer c = true -> c_wait c = true;
  w_distinct : forall i j c d, get b i = Some c -> get b j = Some d -> c_wait c = true -> c_wait d = true -> c_cookie c = c_cookie d -> i = j }.

Lemma find_unique b ck pk : waiting b ->
  table_find b ck pk = Ok None /\ (forall id c, get b id = Some c -> c_wait c = true -> c_cookie c <> ck)
  \/ exists id c, table_find b ck pk = Ok (Some id) /\ get b id = Some c /\ c_wait c = true /\ c_cookie c = ck.
Proof.
  intros [Wn Wt Wm Wd]. unfold table_find. destruct (filter (matches b ck) (b_table b)) as [|x l] eqn:F.
  - left. split; [reflexivity|]. intros id c E W K. assert (I : In id (filter (matches b ck) (b_table b))).
    { apply filter_In. split; [apply Wt; eauto|]. unfold matches. rewrite E. now apply N.eqb_eq. }
    rewrite F in I. contradiction.
  - right. set (id := nth pk (x :: l) x). assert (I : In id (x :: l)). { destruct (nth_in_or_default pk (x :: l) x) as [H|H]; [exact H|]. unfold id. rewrite H. now left. }
    rewrite <- F in I. apply filter_In in I as (I & M). apply Wt in I as (c & E & W). exists id, c. rewrite E. unfold live. rewrite W, Bool.orb_true_r. cbn [orb].
    unfold matches in M. rewrite E in M. apply N.eqb_eq in M. auto.
Qed.
Lemma find_waiting b id c pk : waiting b -> get b id = Some c -> c_wait c = true -> table_find b (c_cookie c) pk = Ok (Some id).
Proof.
  intros W E Wc. destruct (find_unique b (c_cookie c) pk W) as [(_ & H)|(i & d & F & Ed & Wd & K)]; [exfalso; eapply H; eauto|].
  rewrite F. do 2 f_equal. eapply (w_distinct b W); eauto.
Qed.

(** Waiting is changed for one call only. *)
Lemma waiting_put b id c c' : waiting b -> get b id = Some c -> c_msg c' = c_msg c -> c_wait c' = c_wait c -> (c_timer c' = true -> c_wait c = true) -> waiting (put b id c').
Proof.
  intros [Wn Wt Wm Wd] E M Ew Et.
  assert (G : forall i x, get (put b id c') i = Some x -> exists y, get b i = Some y /\ c_msg x = c_msg y /\ c_wait x = c_wait y /\ (c_timer x = true -> c_wait y = true)).
  { intros i x Ex. destruct (Nat.eq_dec i id) as [->|N].
    - rewrite (get_put_same _ id c) in Ex by exact E. injection Ex as <-. exists c. auto.
    - rewrite get_put_other in Ex by assumption. exists x. eauto 6. }
  constructor; [exact Wn| | |].
  - intros i. change (b_table (put b id c')) with (b_table b). rewrite Wt. split; intros (x & Ex & Wx).
    + destruct (Nat.eq_dec i id) as [->|N]; [exists c'|exists x]; [rewrite (get_put_same _ id c) by exact E|rewrite get_put_other by assumption]; split; auto; congruence.
    + apply G in Ex as (y & Ey & _ & Wy & _). exists y. split; congruence.
  - intros i x Ex Tx. apply G in Ex as (y & Ey & _ & Wy & Ty). rewrite Wy. auto.
  - intros i j x y Ex Ey Wx Wy K. apply G in Ex as (x0 & Ex & Mx & Wx0 & _). apply G in Ey as (y0 & Ey & My & Wy0 & _). unfold c_cookie in *.
    apply (Wd i j x0 y0 Ex Ey); congruence.
Qed.
Lemma waiting_ext b b' : waiting b -> b_calls b' = b_calls b -> b_table b' = b_table b -> waiting b'.
Proof. intros [Wn Wt Wm Wd] C T. constructor; unfold get in *; rewrite ?C, ?T; auto. Qed.
(** The end of waiting. *)
Lemma unlink_waiting_ok b id c pk : waiting b -> get b id = Some c -> c_wait c = true ->
  unlink_waiting b id pk = Ok (put (set_table b (remove Nat.eq_dec id (b_table b))) id (c_set_wait c false false), true)
  /\ waiting (put (set_table b (remove Nat.eq_dec id (b_table b))) id (c_set_wait c false false)).
Proof.
  intros W E Wc. unfold unlink_waiting, table_remove. rewrite E, Wc, (find_waiting b id c pk W E Wc). cbn [bind]. split; [reflexivity|].
  destruct W as [Wn Wt Wm Wd]. set (b' := put _ _ _).
  assert (G : forall i x, get b' i = Some x -> i = id /\ x = c_set_wait c false false \/ i <> id /\ get b i = Some x).
  { intros i x Ex. destruct (Nat.eq_dec i id) as [->|N].
    - unfold b' in Ex. rewrite (get_put_same _ id c) in Ex by exact E. injection Ex as <-. auto.
    - unfold b' in Ex. rewrite get_put_other in Ex by assumption. auto. }
  constructor.
  - change (NoDup (remove Nat.eq_dec id (b_table b))). clear -Wn. induction Wn as [|x l Nx N IH]; cbn; [constructor|]. destruct (Nat.eq_dec id x); [exact IH|].
    constructor; [|exact IH]. intros I. apply in_remove in I. tauto.
  - intros i. change (b_table b') with (remove Nat.eq_dec id (b_table b)). split.
    + intros I. apply in_remove in I as (I & N). apply Wt in I as (x & Ex & Wx). exists x. unfold b'. rewrite get_put_other by assumption. auto.
    + intros (x & Ex & Wx). apply G in Ex as [(-> & ->)|(N & Ex)]; [discriminate|]. apply in_in_remove; [exact N|]. apply Wt. eauto.
  - intros i x Ex. apply G in Ex as [(-> & ->)|(N & Ex)]; [discriminate|eauto].
  - intros i j x y Ex Ey Wx Wy K. apply G in Ex as [(-> & ->)|(Nx & Ex)]; [discriminate|]. apply G in Ey as [(-> & ->)|(Ny & Ey)]; [discriminate|]. eapply Wd; eauto.
Qed.

(** A hit: the message leaves the queue if it was untouched, else it waits no more. *)
Definition dropped (b : bus) (id : nat) (c : call) : bus :=
  if queued c then put (set_out b (remove Nat.eq_dec id (b_out b))) id (c_set_out c false false)
  else put (set_table b (remove Nat.eq_dec id (b_table b))) id (c_set_wait c false false).
Lemma drop_ok b id c pk : waiting b -> get b id = Some c -> c_wait c = true ->
  drop b id pk = Ok (dropped b id c) /\ waiting (dropped b id c).
Proof.
  intros W E Wc. unfold drop, dropped, queued. rewrite E. destruct (unlink_waiting_ok b id c pk W E Wc) as (U & W').
  destruct (c_sending c) eqn:Es; cbn [bind andb negb]; [rewrite Bool.andb_false_r, U; auto|]. rewrite Bool.andb_true_r.
  unfold unlink_outgoing. rewrite E. destruct (c_out c) eqn:Eo; cbn [bind]; [|rewrite U; auto]. split; [reflexivity|].
  refine (waiting_put (set_out b (remove Nat.eq_dec id (b_out b))) id c (c_set_out c false false) (waiting_ext b (set_out b (remove Nat.eq_dec id (b_out b))) W eq_refl eq_refl) E eq_refl eq_refl (fun _ => Wc)).
Qed.
Lemma set_timers_ok l : forall b on, waiting b -> (forall id, In id l -> exists c, get b id = Some c /\ c_wait c = true) -> exists b', set_timers b l on = Ok b' /\ waiting b'
   /\ b_out b' = b_out b /\ Datatypes.length (b_calls b') = Datatypes.length (b_calls b)
   /\ forall id c, get b id = Some c -> exists t, get b' id = Some (c_set_timer c t).
Proof.
  induction l as [|id l IH]; intros b on W H; cbn [set_timers].
  { exists b. split; [reflexivity|]. split; [exact W|]. split; [reflexivity|]. split; [reflexivity|]. intros id c E. exists (c_timer c). now destruct c. }
  destruct (H id) as (c & E & Wc); [now left|]. rewrite E. unfold live. rewrite Wc, Bool.orb_true_r. cbn [orb].
  set (b1 := if on && negb (c_cb c) then b else put b id (c_set_timer c on)).
  assert (W1 : waiting b1). { unfold b1. destruct (on && negb (c_cb c)); [exact W|]. eapply waiting_put; eauto. }
  assert (G1 : forall i x, get b i = Some x -> exists t, get b1 i = Some (c_set_timer x t)).
  { intros i x Ex. unfold b1. destruct (on && negb (c_cb c)); [exists (c_timer x); rewrite Ex; now destruct x|].
    destruct (Nat.eq_dec i id) as [->|N]; [rewrite E in Ex; injection Ex as <-; exists on; eapply get_put_same; eauto|]. rewrite get_put_other by assumption. exists (c_timer x). rewrite Ex. now destruct x. }
  destruct (IH b1 on W1) as (b' & E' & W' & O' & L' & G').
  { intros i I. destruct (H i) as (x & Ex & Wx); [now right|]. apply G1 in Ex as (t & Ex). exists (c_set_timer x t). auto. }
  exists b'. split; [exact E'|]. split; [exact W'|]. split; [rewrite O'; unfold b1; now destruct (on && negb (c_cb c))|].
  split; [rewrite L'; unfold b1; destruct (on && negb (c_cb c)); [reflexivity|apply calls_put]|].
  intros i x Ex. apply G1 in Ex as (t & Ex). apply G' in Ex as (t' & Ex). exists t'. exact Ex.
Qed.

Definition onward (b b' : bus) : Prop :=
  forall id c, get b id = Some c -> exists c', get b' id = Some c' /\ (c_out c = false -> c_out c' = false) /\ (c_wait c = false -> c_wait c' = false).
Lemma onward_refl b : onward b b.
Proof. intros id c E. exists c. auto. Qed.
Lemma onward_trans a b c : onward a b -> onward b c -> onward a c.
Proof. intros H1 H2 id x E. apply H1 in E as (y & E & O1 & W1). apply H2 in E as (z & E & O2 & W2). exists z. auto. Qed.
Lemma onward_put b id c c' : get b id = Some c -> (c_out c = false -> c_out c' = false) -> (c_wait c = false -> c_wait c' = false) -> onward b (put b id c').
Proof.
  intros E O W i x Ex. destruct (Nat.eq_dec i id) as [->|N].
  - rewrite E in Ex. injection Ex as <-. exists c'. split; [eapply get_put_same; eauto|auto].
  - exists x. rewrite get_put_other by assumption. auto.
Qed.
Lemma onward_ext b b' : b_calls b' = b_calls b -> onward b b'.
Proof. intros C id c E. exists c. unfold get in *. rewrite C. auto. Qed.
Lemma onward_drop b id c : get b id = Some c -> onward b (dropped b id c).
Proof.
  intros E. unfold dropped. destruct (queued c).
  - apply (onward_put (set_out b (remove Nat.eq_dec id (b_out b))) id c); auto.
  - apply (onward_put (set_table b (remove Nat.eq_dec id (b_table b))) id c); auto.
Qed.
(** What is observed of a call in one step. *)
Definition hit_ok (b : bus) (o : list obs) (b' : bus) : Prop :=
  forall id, hits id o = [] \/ exists c c', get b id = Some c /\ c_wait c = true /\ get b' id = Some c'
    /\ hits id o = [queued c] /\ (if queued c then c_out c' = false else c_wait c' = false).
Lemma hit_none b o b' : (forall id, hits id o = []) -> hit_ok b o b'.
Proof. intros H id. left. apply H. Qed.
Lemma hit_one b0 b id c c0 o : get b id = Some c -> get b0 id = Some c0 -> c_wait c0 = true -> queued c0 = queued c ->
  (forall i, hits i o = [] \/ i = id /\ hits i o = [queued c]) -> hit_ok b0 o (dropped b id c).
Proof.
  intros E E0 W Q H i. destruct (H i) as [Hi|(-> & Hi)]; [now left|right]. rewrite <- Q in *.
  unfold dropped. rewrite <- Q. destruct (queued c0) eqn:Eq.
  - exists c0, (c_set_out c false false). rewrite Eq. split; [exact E0|]. split; [exact W|]. split; [apply (get_put_same (set_out b (remove Nat.eq_dec id (b_out b))) id c); exact E|]. auto.
  - exists c0, (c_set_wait c false false). rewrite Eq. split; [exact E0|]. split; [exact W|]. split; [apply (get_put_same (set_table b (remove Nat.eq_dec id (b_table b))) id c); exact E|]. auto.
Qed.
Lemma hits_single i id q o : o = [] \/ (exists r, o = [Callback id r q]) \/ o = [Cancelled id q] -> hits i o = [] \/ i = id /\ hits i o = [q].
Proof.
  intros [->|[(r & ->)| ->]]; [now left| |]; cbn; destruct (Nat.eqb_spec id i) as [->|]; auto.
Qed.

Lemma call_async_ok b m cb b' m' e : waiting b -> distinct b (ECall m cb) -> call_async b m cb = Ok (b', m', e) -> waiting b' /\ onward b b'.
Proof.
  intros W D. unfold call_async. destruct (b_dead b || (m_cookie m =? 0)); [intros [= <- <- <-]; auto using onward_refl|].
  destruct (m_used m); [intros [= <- <- <-]; auto using onward_refl|].
  destruct (seal (b_ck b) m) as [[[ck m1] e1]|] eqn:Es; cbn [bind]; [|discriminate]. specialize (D _ _ _ Es).
  assert (S : forall ck, waiting (mkBus ck (b_dead b) (b_event b) (b_calls b) (b_out b) (b_table b)) /\ onward b (mkBus ck (b_dead b) (b_event b) (b_calls b) (b_out b) (b_table b))).
  { intros k. split; [eapply waiting_ext; eauto|now apply onward_ext]. }
  destruct e1 as [e1|]; [intros [= <- <- <-]; apply S|]. destruct (m_raw m1); [|intros [= <- <- <-]; apply S].
  destruct (if has_flag _ then _ else _); [|intros [= <- <- <-]; apply S]. intros [= <- <- <-]. clear S. cbn [b_ck b_dead b_event b_calls b_out b_table].
  set (c := mkCall _ _ _ _ _ _ _ _). set (b' := mkBus _ _ _ _ _ _). set (n := Datatypes.length (b_calls b)).
  assert (G : forall i x, get b' i = Some x -> get b i = Some x \/ i = n /\ x = c).
  { intros i x Ex. unfold get, b' in *. cbn [b_calls] in Ex. destruct (Nat.lt_ge_cases i n) as [L|L].
    - rewrite nth_error_app1 in Ex by assumption. auto.
    - right. rewrite nth_error_app2 in Ex by assumption. fold n in Ex. destruct (i - n)%nat as [|k] eqn:Ek; cbn in Ex; [|destruct k; discriminate]. injection Ex as <-. split; [lia|reflexivity]. }
  assert (Gold : forall i x, get b i = Some x -> get b' i = Some x).
  { intros i x Ex. unfold get, b' in *. cbn [b_calls]. rewrite nth_error_app1; [exact Ex|]. apply nth_error_Some. congruence. }
  assert (Gn : get b' n = Some c). { unfold get, b'. cbn [b_calls]. rewrite nth_error_app2 by (unfold n; lia). unfold n. now rewrite Nat.sub_diag. }
  split; [|intros i x Ex; exists x; auto]. destruct W as [Wn Wt Wm Wd].
  assert (Old : forall i, In i (b_table b) -> (i < n)%nat). { intros i I. apply Wt in I as (x & Ex & _). eapply get_lt; eauto. }
  constructor; change (b_table b') with (b_table b ++ [n]).
  - clear -Wn Old. induction Wn as [|x l Nx N IH]; cbn; [repeat constructor; auto|]. constructor.
    + intros I. apply in_app_iff in I as [I|[I|[]]]; [auto|]. specialize (Old x (or_introl eq_refl)). lia.
    + apply IH. intros i I. apply Old. now right.
  - intros i. rewrite in_app_iff. split.
    + intros [I|[<-|[]]]; [apply Wt in I as (x & Ex & Wx); eauto|]. exists c. auto.
    + intros (x & Ex & Wx). apply G in Ex as [Ex|(-> & ->)]; [left; apply Wt; eauto|right; now left].
  - intros i x Ex. apply G in Ex as [Ex|(-> & ->)]; [eauto|reflexivity].
  - intros i j x y Ex Ey Wx Wy K. apply G in Ex as [Ex|(-> & ->)]; apply G in Ey as [Ey|(-> & ->)]; auto.
    + eapply Wd; eauto.
    + exfalso. eapply D; eauto.
    + exfalso. eapply D; eauto.
Qed.

Lemma step_calls b e done w : waiting b -> queue b done w -> distinct b e ->
  (exists b' o, step b e = Ok (b', o) /\ waiting b' /\ onward b b' /\ hit_ok b o b') \/ (exists m cb, e = ECall m cb /\ seal (b_ck b) m = UB).
Proof.
  intros W Q D. assert (Wt := w_table b W).
  destruct e as [m cb|cookie pk pk'|id|m pk pk'|id pk|r pk| | |]; cbn [step].
  - destruct (seal (b_ck b) m) as [x|] eqn:Es; [|right; eauto]. left.
    destruct (call_async b m cb) as [[[b1 m1] e1]|] eqn:E.
    + cbn [bind fst]. destruct (call_async_ok _ _ _ _ _ _ W D E). exists b1, []. split; [reflexivity|]. split; [assumption|]. split; [assumption|]. now apply hit_none.
    + exfalso. unfold call_async in E. destruct (b_dead b || (m_cookie m =? 0)); [discriminate|]. destruct (m_used m); [discriminate|]. rewrite Es in E. destruct x as [[? ?] [?|]]; cbn [bind] in E; [discriminate|].
      destruct (m_raw m0); [|discriminate]. destruct (if has_flag _ then _ else _); discriminate.
  - left. unfold cancel. destruct (cookie =? 0); [exists b, []; auto using onward_refl, hit_none|].
    destruct (find_unique b cookie pk W) as [(F & _)|(id & c & F & E & Wc & K)]; rewrite F; cbn [bind]; [exists b, []; auto using onward_refl, hit_none|].
    rewrite E. destruct (drop_ok b id c pk' W E Wc) as (Ed & Wd). rewrite Ed. cbn [bind]. do 2 eexists. split; [reflexivity|]. split; [exact Wd|]. split; [now apply onward_drop|].
    eapply hit_one; eauto. intros i. apply hits_single. auto.
  - left. do 2 eexists. split; [reflexivity|]. unfold user_unref. destruct (get b id) as [c|] eqn:E; [|auto using onward_refl, hit_none].
    split; [|split; [|now apply hit_none]].
    + eapply waiting_put; eauto. exact (w_timer b W id c E).
    + eapply onward_put; eauto.
  - left. unfold incoming. destruct (m_start m) as [| |code ph|]; try (do 2 eexists; split; [reflexivity|]; split; [exact W|]; split; [apply onward_refl|now apply hit_none]).
    unfold call_reply. destruct (find_unique b (without_flag (m_cookie m)) pk W) as [(F & _)|(id & c & F & E & Wc & K)]; rewrite F; cbn [bind]; [exists b, []; auto using onward_refl, hit_none|].
    rewrite E. destruct (drop_ok b id c pk' W E Wc) as (Ed & Wd). rewrite Ed. cbn [bind]. do 2 eexists. split; [reflexivity|]. split; [exact Wd|]. split; [now apply onward_drop|].
    eapply hit_one; eauto. intros i. apply hits_single. destruct (c_cb c); eauto.
  - left. unfold timer. destruct (get b id) as [c|] eqn:E; [|exists b, []; auto using onward_refl, hit_none].
    destruct (c_timer c) eqn:T; [|exists b, []; auto using onward_refl, hit_none].
    assert (Wc := w_timer b W id c E T). set (c1 := c_set_timer c false).
    assert (W1 : waiting (put b id c1)) by (eapply waiting_put; eauto).
    assert (E1 : get (put b id c1) id = Some c1) by (eapply get_put_same; eauto).
    destruct (drop_ok (put b id c1) id c1 pk W1 E1 Wc) as (Ed & Wd). rewrite Ed. cbn [bind]. do 2 eexists. split; [reflexivity|]. split; [exact Wd|].
    split; [eapply onward_trans; [eapply (onward_put b id c c1); eauto|now apply onward_drop]|].
    eapply hit_one; eauto. intros i. apply hits_single. destruct (c_cb c); eauto.
  - left. unfold write. destruct (b_out b) as [|id rest] eqn:Eb; [exists b, []; auto using onward_refl, hit_none|].
    assert (L : (id < Datatypes.length (b_calls b))%nat). { pose proof (q_range _ _ _ Q) as R. rewrite Eb in R. apply Forall_app in R as (_ & R). now inversion R. }
    destruct (get_some b id L) as (c & E). rewrite E. cbv zeta. set (c0 := c_set_out c (c_out c) true).
    assert (W0 : waiting (put b id c0)). { eapply waiting_put; eauto. exact (w_timer b W id c E). }
    assert (N0 : onward b (put b id c0)) by (eapply onward_put; eauto).
    assert (E0 : get (put b id c0) id = Some c0) by (eapply get_put_same; eauto).
    destruct r as [n| |]; [|exists (put b id c0), []; auto using hit_none|exists (put b id c0), []; auto using hit_none].
    set (n' := N.min n _). set (c1 := c_set_sent c0 _). set (b0 := put b id c0) in *.
    assert (W1 : waiting (put b0 id c1)). { eapply waiting_put; eauto. exact (w_timer b0 W0 id c0 E0). }
    assert (N1 : onward b (put b0 id c1)) by (eapply onward_trans; [exact N0|]; eapply onward_put; eauto).
    assert (E1 : get (put b0 id c1) id = Some c1) by (eapply get_put_same; eauto).
    set (b1 := put b0 id c1) in *. clearbody b1. assert (Hn : forall l, forall i, hits i [Wire l] = []) by reflexivity.
    assert (Fin : exists b' o, (do r <- unlink_outgoing b1 id; Ok (fst r, [Wire (takeN n' (dropN (c_sent c0) (c_raw c0)))])) = Ok (b', o) /\ waiting b' /\ onward b b' /\ hit_ok b o b').
    { unfold unlink_outgoing. rewrite E1. destruct (c_out c1); cbn [bind fst].
      - do 2 eexists. split; [reflexivity|]. split; [|split; [|apply hit_none, Hn]].
        + apply (waiting_put (set_out b1 (remove Nat.eq_dec id (b_out b1))) id c1 (c_set_out c1 false false)); [|exact E1|reflexivity|reflexivity|exact (w_timer b1 W1 id c1 E1)].
          eapply waiting_ext; [exact W1|reflexivity|reflexivity].
        + eapply onward_trans; [exact N1|]. apply (onward_put (set_out b1 (remove Nat.eq_dec id (b_out b1))) id c1); auto.
      - do 2 eexists. split; [reflexivity|]. split; [exact W1|]. split; [exact N1|]. apply hit_none, Hn. }
    destruct (lenN (c_raw c1) <=? c_sent c1); [|do 2 eexists; split; [reflexivity|]; split; [exact W1|]; split; [exact N1|]; apply hit_none, Hn].
    destruct (c_cb c1); cbn [bind]; [exact Fin|]. destruct (c_wait c1) eqn:Wc.
    + destruct (unlink_waiting_ok b1 id c1 pk W1 E1 Wc) as (U & W2). rewrite U. cbn [bind]. do 2 eexists. split; [reflexivity|]. split; [exact W2|]. split; [|apply hit_none, Hn].
      eapply onward_trans; [exact N1|]. apply (onward_put (set_table b1 (remove Nat.eq_dec id (b_table b1))) id c1); auto.
    + unfold unlink_waiting. rewrite E1, Wc. cbn [bind]. exact Fin.
  - left. unfold attach. destruct (b_dead b || b_event b); [exists b, []; cbn [bind]; auto using onward_refl, hit_none|].
    destruct (set_timers_ok (b_table b) (set_event b true false) true) as (b' & E & W' & _ & _ & G').
    { eapply waiting_ext; eauto. } { intros i I. apply Wt in I. exact I. }
    rewrite E. cbn [bind]. exists b', []. split; [reflexivity|]. split; [exact W'|]. split; [|now apply hit_none]. intros i x Ex. destruct (G' i x Ex) as (t & Et). exists (c_set_timer x t). auto.
  - left. unfold detach. destruct (b_event b); [|exists b, []; cbn [bind]; auto using onward_refl, hit_none].
    destruct (set_timers_ok (b_table b) b false W) as (b' & E & W' & _ & _ & G'). { intros i I. apply Wt in I. exact I. }
    rewrite E. cbn [bind]. do 2 eexists. split; [reflexivity|]. split; [eapply waiting_ext; eauto|]. split; [|now apply hit_none].
    intros i x Ex. destruct (G' i x Ex) as (t & Et). exists (c_set_timer x t). auto.
  - left. unfold hup, detach. destruct (b_dead b); [exists b, []; auto using onward_refl, hit_none|].
    destruct (b_event b); cbn [bind].
    + destruct (set_timers_ok (b_table b) b false W) as (b' & E & W' & _ & _ & G'). { intros i I. apply Wt in I. exact I. }
      rewrite E. cbn [bind]. do 2 eexists. split; [reflexivity|]. split; [eapply waiting_ext; eauto|]. split; [|now apply hit_none].
      intros i x Ex. destruct (G' i x Ex) as (t & Et). exists (c_set_timer x t). auto.
    + do 2 eexists. split; [reflexivity|]. split; [eapply waiting_ext; eauto|]. split; [now apply onward_ext|now apply hit_none].
Qed.

(** The story of a call so far. *)
Definition fate (b : bus) (log : list obs) : Prop :=
  forall id, hits id log = []
    \/ exists c, get b id = Some c /\ (hits id log = [true] /\ c_out c = false \/ (hits id log = [false] \/ hits id log = [true; false]) /\ c_wait c = false).
Lemma hits_app id a b : hits id (a ++ b) = hits id a ++ hits id b.
Proof. apply flat_map_app. Qed.
Lemma fate_step b log b' o : fate b log -> onward b b' -> hit_ok b o b' -> fate b' (log ++ o).
Proof.
  intros F O H id. rewrite hits_app. destruct (H id) as [->|(c & c' & E & W & E' & -> & A)].
  - rewrite app_nil_r. destruct (F id) as [->|(c & E & K)]; [now left|right]. destruct (O _ _ E) as (c' & E' & O' & W'). exists c'. split; [exact E'|]. destruct K as [(K & ?)|(K & ?)]; [left|right]; auto.
  - right. exists c'. split; [exact E'|]. destruct (F id) as [->|(c0 & E0 & K)].
    + cbn [app]. destruct (queued c); auto.
    + rewrite E in E0. injection E0 as <-. destruct K as [(-> & Oc)|(_ & Wc)]; [|congruence].
      assert (Eq : queued c = false) by (unfold queued; now rewrite Oc). rewrite Eq in *. cbn [app]. auto.
Qed.
Lemma run_calls es : forall b done w log, waiting b -> queue b done w -> fate b log -> distinct_run b es ->
  match run b es with
  | Ok (b', o) => waiting b' /\ fate b' (log ++ o)
  | UB => exists es1 m cb es2 b1 o1, es = es1 ++ ECall m cb :: es2 /\ run b es1 = Ok (b1, o1) /\ seal (b_ck b1) m = UB
  end.
Proof.
  induction es as [|e es IH]; intros b done w log W Q F; cbn [run distinct_run].
  - intros _. rewrite app_nil_r. auto.
  - intros (D & R). destruct (step_calls b e done w W Q D) as [(b1 & o1 & E & W1 & O1 & H1)|(m & cb & -> & Es)].
    + rewrite E in *. cbn [bind fst snd]. destruct (step_queue _ _ _ _ _ _ E Q) as (d1 & Q1 & _). assert (F1 := fate_step _ _ _ _ F O1 H1).
      specialize (IH b1 d1 _ _ W1 Q1 F1 R). destruct (run b1 es) as [[b2 o2]|] eqn:E2; cbn [bind fst snd].
      * rewrite app_assoc. exact IH.
      * destruct IH as (es1 & m & cb & es2 & b3 & o3 & -> & E3 & E4). exists (e :: es1), m, cb, es2, b3, (o1 ++ o3). split; [reflexivity|]. split; [|exact E4]. cbn [run]. rewrite E. cbn [bind fst snd]. now rewrite E3.
    + destruct (step b (ECall m cb)) as [[b1 o1]|] eqn:E; cbn [bind fst snd].
      2: { exists [], m, cb, es, b, []. auto. }
      assert (b1 = b /\ o1 = []) as (-> & ->).
      { cbn [step] in E. unfold call_async in E. rewrite Es in E. destruct (b_dead b || (m_cookie m =? 0)); [injection E as <- <-; auto|]. destruct (m_used m); [injection E as <- <-; auto|discriminate]. }
      specialize (IH b done w log W Q F R). destruct (run b es) as [[b2 o2]|] eqn:E2; cbn [bind fst snd app]; [exact IH|].
      destruct IH as (es1 & m' & cb' & es2 & b3 & o3 & -> & E3 & E4). exists (ECall m cb :: es1), m', cb', es2, b3, o3. split; [reflexivity|]. split; [|exact E4]. cbn [run]. rewrite E. cbn [bind fst snd]. now rewrite E3.
Qed.
Lemma open_waiting : waiting bus_open.
Proof.
  constructor; [apply NoDup_nil| | |].
  - intros id. split; [contradiction|]. intros (c & E & _). destruct id; discriminate.
  - intros [|]; discriminate.
  - intros [|]; discriminate.
Qed.
Lemma open_fate : fate bus_open [].
Proof. intros id. now left. Qed.

Lemma calls_fate es b log id : distinct_run bus_open es -> run bus_open es = Ok (b, log) ->
  In (hits id log) [[]; [false]; [true]; [true; false]].
Proof.
  intros D R. pose proof (run_calls es bus_open [] [] [] open_waiting open_queue open_fate D) as H. rewrite R in H. destruct H as (_ & F). cbn [app] in F.
  destruct (F id) as [->|(c & _ & [(-> & _)|([->| ->] & _)])]; cbn; auto.
Qed.
Lemma calls_safe es : distinct_run bus_open es -> run bus_open es = UB ->
  exists es1 m cb es2 b1 o1, es = es1 ++ ECall m cb :: es2 /\ run bus_open es1 = Ok (b1, o1) /\ seal (b_ck b1) m = UB.
Proof.
  intros D R. pose proof (run_calls es bus_open [] [] [] open_waiting open_queue open_fate D) as H. now rewrite R in H.
Qed.
Lemma table_live es b log : distinct_run bus_open es -> run bus_open es = Ok (b, log) ->
  forall id, In id (b_table b) -> exists c, get b id = Some c /\ live c = true.
Proof.
  intros D R id I. pose proof (run_calls es bus_open [] [] [] open_waiting open_queue open_fate D) as H. rewrite R in H. destruct H as (W & _).
  apply (w_table b W) in I as (c & E & Wc). exists c. unfold live. rewrite Wc, Bool.orb_true_r. auto.
Qed.

(** Callbacks are some of the hits. *)
Definition ran (id : nat) (log : list obs) : list bool :=
  flat_map (fun o => match o with Callback i _ q => if Nat.eqb i id then [q] else [] | _ => [] end) log.
Lemma callbacks_ran id log : Datatypes.length (callbacks id log) = Datatypes.length (ran id log).
Proof.
  unfold callbacks, ran. induction log as [|o log IH]; [reflexivity|]. cbn. rewrite !app_length, IH. destruct o as [|i r q| |]; cbn; auto. now destruct (Nat.eqb i id).
Qed.
Lemma callbacks_hits id log : (Datatypes.length (callbacks id log) <= Datatypes.length (hits id log))%nat.
Proof.
  unfold callbacks, hits. induction log as [|o log IH]; [reflexivity|]. cbn. rewrite !app_length. destruct o as [|i r q|i q|]; cbn; auto; destruct (Nat.eqb i id); cbn; lia.
Qed.
(** Completed at most twice, and a second time only after a first hit while the
    message was untouched in the queue. *)
Lemma completes es b log id : distinct_run bus_open es -> run bus_open es = Ok (b, log) ->
  (Datatypes.length (callbacks id log) <= 2)%nat /\ (~ In true (hits id log) -> (Datatypes.length (callbacks id log) <= 1)%nat).
Proof.
  intros D R. pose proof (callbacks_hits id log) as L. pose proof (calls_fate es b log id D R) as H.
  cbn in H. destruct H as [H|[H|[H|[H|[]]]]]; rewrite <- H in *; cbn in *; split; try lia; intros K; exfalso; auto.
Qed.
(** After a cancellation of a message that is being or has been sent nothing runs;
    after one of a queued message at most one callback. *)
Lemma cancelled_done es b a c q id : distinct_run bus_open es -> run bus_open es = Ok (b, a ++ Cancelled id q :: c) ->
  (q = false -> callbacks id c = []) /\ (Datatypes.length (callbacks id c) <= 1)%nat.
Proof.
  intros D R. pose proof (calls_fate es b _ id D R) as H. rewrite hits_app in H. cbn [hits flat_map] in H. rewrite Nat.eqb_refl in H. fold (hits id c) in H.
  pose proof (callbacks_hits id c) as L. cbn in H.
  assert (T : hits id c = [] \/ q = true /\ exists x, hits id c = [x]).
  { destruct (hits id a) as [|x [|y [|z l]]]; cbn in H; destruct H as [H|[H|[H|[H|[]]]]]; inversion H; subst; eauto. }
  destruct T as [T|(-> & x & T)]; rewrite T in L; cbn in L; split; try lia; try discriminate.
  intros _. destruct (callbacks id c); [reflexivity|cbn in L; lia].
Qed.

(** ** Which reply completes which call *)
Definition msgs (b : bus) : list message := map c_msg (b_calls b).
Definition own (m : message) : Prop := is_reply m = true -> has_flag (m_cookie m) = true.
Lemma msgs_put b id c c' : get b id = Some c -> c_msg c' = c_msg c -> msgs (put b id c') = msgs b.
Proof.
  unfold get, msgs, put. cbn [set_calls b_calls]. generalize (b_calls b). intros l. revert id. induction l as [|x l IH]; intros [|id]; cbn; try discriminate.
  - intros [= ->] ->. reflexivity.
  - intros E M. f_equal. now apply IH.
Qed.
Lemma msgs_remove b ck pk b' : table_remove b ck pk = Ok b' -> b_calls b' = b_calls b.
Proof. intros H. now apply table_remove_q in H. Qed.
Lemma msgs_unlink_waiting b id pk b' x : unlink_waiting b id pk = Ok (b', x) -> msgs b' = msgs b.
Proof.
  unfold unlink_waiting. destruct (get b id) as [c|] eqn:E; [|discriminate]. destruct (c_wait c); [|now intros [= <- <-]].
  destruct (table_remove b (c_cookie c) pk) as [b1|] eqn:E1; cbn [bind]; [|discriminate]. intros [= <- <-]. apply msgs_remove in E1.
  rewrite (msgs_put b1 id c); [unfold msgs; now rewrite E1|unfold get in *; now rewrite E1|reflexivity].
Qed.
Lemma msgs_unlink_outgoing b id b' x : unlink_outgoing b id = Ok (b', x) -> msgs b' = msgs b.
Proof.
  unfold unlink_outgoing. destruct (get b id) as [c|] eqn:E; [|discriminate]. destruct (c_out c); [|now intros [= <- <-]]. intros [= <- <-].
  apply (msgs_put (set_out b (remove Nat.eq_dec id (b_out b))) id c); auto.
Qed.
Lemma msgs_drop b id pk b' : drop b id pk = Ok b' -> msgs b' = msgs b.
Proof.
  unfold drop. destruct (get b id) as [c|] eqn:E; [|discriminate]. destruct (c_sending c); cbn [bind].
  - destruct (unlink_waiting b id pk) as [[b1 x]|] eqn:E1; cbn [bind fst]; [|discriminate]. intros [= <-]. eapply msgs_unlink_waiting; eauto.
  - destruct (unlink_outgoing b id) as [[b1 x]|] eqn:E1; cbn [bind]; [|discriminate]. apply msgs_unlink_outgoing in E1. destruct x; [intros [= <-]; exact E1|].
    destruct (unlink_waiting b1 id pk) as [[b2 x]|] eqn:E2; cbn [bind fst]; [|discriminate]. intros [= <-]. apply msgs_unlink_waiting in E2. congruence.
Qed.
Lemma msgs_timers l : forall b on b', set_timers b l on = Ok b' -> msgs b' = msgs b.
Proof.
  induction l as [|id l IH]; intros b on b'; cbn [set_timers]; [now intros [= <-]|]. destruct (get b id) as [c|] eqn:E; [|discriminate]. destruct (live c); [|discriminate].
  intros H. apply IH in H. rewrite H. destruct (on && negb (c_cb c)); [reflexivity|]. eapply msgs_put; eauto.
Qed.
Lemma msgs_step b e b' o : step b e = Ok (b', o) -> msgs b' = msgs b \/ exists m, own m /\ msgs b' = msgs b ++ [m].
Proof.
  destruct e as [m cb|cookie pk pk'|id|m pk pk'|id pk|r pk| | |]; cbn [step]; intros H.
  - destruct (call_async b m cb) as [[[b1 m1] e1]|] eqn:E; cbn [bind fst] in H; [|discriminate]. injection H as <- <-. revert E. unfold call_async.
    destruct (b_dead b || (m_cookie m =? 0)); [intros [= <- <- <-]; auto|]. destruct (m_used m); [intros [= <- <- <-]; auto|].
    destruct (seal (b_ck b) m) as [[[ck m2] [e2|]]|]; cbn [bind]; [intros [= <- <- <-]; auto| |discriminate]. destruct (m_raw m2); [|intros [= <- <- <-]; auto].
    destruct (if has_flag _ then _ else _) eqn:F; intros [= <- <- <-]; [|auto]. right. exists (set_used m2). split.
    + intros R. destruct (has_flag (m_cookie (set_used m2))); [reflexivity|]. rewrite R in F. discriminate.
    + unfold msgs. cbn [b_calls]. rewrite map_app. reflexivity.
  - left. unfold cancel in H. destruct (cookie =? 0); [now injection H as <- <-|]. destruct (table_find b cookie pk) as [[id|]|]; cbn [bind] in H; [|now injection H as <- <-|discriminate].
    destruct (get b id); [|discriminate]. destruct (drop b id pk') as [b1|] eqn:E; cbn [bind] in H; [|discriminate]. injection H as <- <-. eapply msgs_drop; eauto.
  - left. injection H as <- <-. unfold user_unref. destruct (get b id) as [c|] eqn:E; [|reflexivity]. eapply msgs_put; eauto.
  - left. unfold incoming in H. destruct (m_start m); try now injection H as <- <-. unfold call_reply in H.
    destruct (table_find b (without_flag (m_cookie m)) pk) as [[id|]|]; cbn [bind] in H; [|now injection H as <- <-|discriminate].
    destruct (get b id); [|discriminate]. destruct (drop b id pk') as [b1|] eqn:E; cbn [bind] in H; [|discriminate]. injection H as <- <-. eapply msgs_drop; eauto.
  - left. unfold timer in H. destruct (get b id) as [c|] eqn:Ec; [|now injection H as <- <-]. destruct (c_timer c); [|now injection H as <- <-].
    destruct (drop _ id pk) as [b1|] eqn:E; cbn [bind] in H; [|discriminate]. injection H as <- <-. apply msgs_drop in E. rewrite E. eapply msgs_put; eauto.
  - left. unfold write in H. destruct (b_out b) as [|id rest]; [now injection H as <- <-|]. destruct (get b id) as [c|] eqn:Ec; [|discriminate].
    cbv zeta in H. set (c0 := c_set_out c (c_out c) true) in *. assert (M0 : msgs (put b id c0) = msgs b) by (eapply msgs_put; eauto).
    assert (E0 : get (put b id c0) id = Some c0) by (eapply get_put_same; eauto). set (b0 := put b id c0) in *. clearbody b0.
    destruct r as [n| |]; [|now injection H as <- <-|now injection H as <- <-]. set (c1 := c_set_sent c0 _) in *.
    assert (M1 : msgs (put b0 id c1) = msgs b) by (rewrite <- M0; eapply msgs_put; eauto). set (b1 := put b0 id c1) in *. clearbody b1.
    destruct (lenN (c_raw c1) <=? c_sent c1); [|now injection H as <- <-].
    destruct (c_cb c1); cbn [bind] in H.
    + destruct (unlink_outgoing b1 id) as [[b2 x]|] eqn:E; cbn [bind fst] in H; [|discriminate]. injection H as <- <-. apply msgs_unlink_outgoing in E. congruence.
    + destruct (unlink_waiting b1 id pk) as [[b2 x]|] eqn:E; cbn [bind] in H; [|discriminate]. apply msgs_unlink_waiting in E. destruct x; [injection H as <- <-; congruence|].
      destruct (unlink_outgoing b2 id) as [[b3 x]|] eqn:E2; cbn [bind fst] in H; [|discriminate]. injection H as <- <-. apply msgs_unlink_outgoing in E2. congruence.
  - left. destruct (attach b) as [b1|] eqn:E; cbn [bind] in H; [|discriminate]. injection H as <- <-. unfold attach in E. destruct (b_dead b || b_event b); [now injection E as <-|]. now apply msgs_timers in E.
  - left. destruct (detach b) as [b1|] eqn:E; cbn [bind] in H; [|discriminate]. injection H as <- <-. unfold detach in E. destruct (b_event b); [|now injection E as <-].
    destruct (set_timers b (b_table b) false) as [b2|] eqn:E2; cbn [bind] in E; [|discriminate]. injection E as <-. now apply msgs_timers in E2.
  - left. unfold hup in H. destruct (b_dead b); [now injection H as <- <-|]. destruct (detach b) as [b1|] eqn:E; cbn [bind] in H; [|discriminate]. injection H as <- <-. unfold detach in E. destruct (b_event b); [|now injection E as <-].
    destruct (set_timers b (b_table b) false) as [b2|] eqn:E2; cbn [bind] in E; [|discriminate]. injection E as <-. now apply msgs_timers in E2.
Qed.

(** A callback with a reply. *)
Definition answered (b : bus) (o : list obs) : Prop :=
  forall id r q, In (Callback id (Some r) q) o ->
    is_reply r = true /\ exists m, nth_error (msgs b) id = Some m /\ is_reply m = false /\ m_cookie m = without_flag (m_cookie r).
Lemma answered_step b e b' o : Forall own (msgs b) -> step b e = Ok (b', o) -> answered b o.
Proof.
  intros F H id r q I.
  destruct e as [m cb|cookie pk pk'|i|m pk pk'|i pk|s pk| | |]; cbn [step] in H.
  - destruct (call_async b m cb) as [x|]; cbn [bind] in H; [|discriminate]. injection H as <- <-. contradiction.
  - unfold cancel in H. destruct (cookie =? 0); [injection H as <- <-; contradiction|]. destruct (table_find b cookie pk) as [[i|]|]; cbn [bind] in H; [|injection H as <- <-; contradiction|discriminate].
    destruct (get b i); [|discriminate]. destruct (drop b i pk'); cbn [bind] in H; [|discriminate]. injection H as <- <-. destruct I as [I|[]]; discriminate.
  - injection H as <- <-. contradiction.
  - unfold incoming in H. destruct (m_start m) as [| |code ph|] eqn:Es; try (injection H as <- <-; destruct I as [I|[]]; discriminate). unfold call_reply in H.
    destruct (table_find b (without_flag (m_cookie m)) pk) as [[i|]|] eqn:T; cbn [bind] in H; [|injection H as <- <-; contradiction|discriminate].
    destruct (get b i) as [c|] eqn:E; [|discriminate]. destruct (drop b i pk'); cbn [bind] in H; [|discriminate]. injection H as <- <-. destruct (c_cb c); [|contradiction]. destruct I as [[= -> -> <-]|[]].
    split; [unfold is_reply; now rewrite Es|]. exists (c_msg c).
    assert (K : c_cookie c = without_flag (m_cookie r)).
    { unfold table_find in T. destruct (filter _ _) as [|x l] eqn:Fl; [discriminate|]. destruct (nth_in_or_default pk (x :: l) x) as [Hn|Hn].
      - assert (J : In id (filter (matches b (without_flag (m_cookie r))) (b_table b))). { rewrite Fl. set (k := nth pk (x :: l) x) in *. destruct (get b k) as [d|]; [|discriminate]. destruct (live d); [|discriminate]. injection T as <-. exact Hn. }
        apply filter_In in J as (_ & J). unfold matches in J. rewrite E in J. now apply N.eqb_eq.
      - rewrite Hn in T. destruct (get b x) as [d|] eqn:Ed; [|discriminate]. destruct (live d); [|discriminate]. injection T as ->.
        assert (J : In id (filter (matches b (without_flag (m_cookie r))) (b_table b))) by (rewrite Fl; now left). apply filter_In in J as (_ & J). unfold matches in J. rewrite E in J. now apply N.eqb_eq. }
    split; [unfold msgs; unfold get in E; rewrite nth_error_map, E; reflexivity|]. split; [|exact K].
    destruct (is_reply (c_msg c)) eqn:R; [|reflexivity]. rewrite Forall_forall in F. assert (O : own (c_msg c)). { apply F. unfold msgs. apply in_map. eapply nth_error_In. exact E. }
    apply O in R. unfold has_flag in R. apply N.leb_le in R. unfold c_cookie in K. rewrite K in R. unfold without_flag in R. pose proof (N.mod_lt (m_cookie r) remote_flag) as L. assert (remote_flag <> 0) by discriminate. specialize (L H). lia.
  - unfold timer in H. destruct (get b i); [|injection H as <- <-; contradiction]. destruct (c_timer c); [|injection H as <- <-; contradiction].
    destruct (drop _ i pk); cbn [bind] in H; [|discriminate]. injection H as <- <-. destruct (c_cb c); [|contradiction]. destruct I as [I|[]]; discriminate.
  - unfold write in H. destruct (b_out b) as [|i rest]; [injection H as <- <-; contradiction|]. destruct (get b i) as [c|]; [|discriminate]. cbv zeta in H.
    destruct s as [n| |]; [|injection H as <- <-; contradiction|injection H as <- <-; contradiction].
    destruct (_ <=? _); [|injection H as <- <-; destruct I as [I|[]]; discriminate].
    destruct (if c_cb _ then _ else _) as [[b2 []]|]; cbn [bind] in H; [injection H as <- <-; destruct I as [I|[]]; discriminate| |discriminate].
    destruct (unlink_outgoing b2 i); cbn [bind] in H; [|discriminate]. injection H as <- <-. destruct I as [I|[]]; discriminate.
  - destruct (attach b); cbn [bind] in H; [|discriminate]. injection H as <- <-. contradiction.
  - destruct (detach b); cbn [bind] in H; [|discriminate]. injection H as <- <-. contradiction.
  - unfold hup in H. destruct (b_dead b); [injection H as <- <-; contradiction|]. destruct (detach b); cbn [bind] in H; [|discriminate]. injection H as <- <-. destruct I as [I|[]]; discriminate.
Qed.
Lemma run_answered es : forall b b' o, Forall own (msgs b) -> run b es = Ok (b', o) -> answered b' o /\ exists l, msgs b' = msgs b ++ l.
Proof.
  induction es as [|e es IH]; intros b b' o F; cbn [run]; [intros [= <- <-]; split; [intros id r q []|exists []; now rewrite app_nil_r]|].
  destruct (step b e) as [[b1 o1]|] eqn:E; cbn [bind fst snd]; [|discriminate]. destruct (run b1 es) as [[b2 o2]|] eqn:E2; cbn [bind fst snd]; [|discriminate]. intros [= <- <-].
  assert (A1 := answered_step _ _ _ _ F E).
  assert (M1 : Forall own (msgs b1) /\ exists l, msgs b1 = msgs b ++ l).
  { apply msgs_step in E as [->|(m & O & ->)]; [split; [exact F|exists []; now rewrite app_nil_r]|]. split; [apply Forall_app; auto|eauto]. }
  destruct M1 as (F1 & l1 & M1). destruct (IH _ _ _ F1 E2) as (A2 & l2 & M2). split; [|exists (l1 ++ l2); rewrite M2, M1; now rewrite app_assoc].
  intros id r q I. apply in_app_iff in I as [I|I]; [|now apply A2 in I]. apply A1 in I as (R & m & Em & K). split; [exact R|]. exists m. split; [|exact K].
  rewrite M2, M1, <- app_assoc. rewrite nth_error_app1; [exact Em|]. apply nth_error_Some. congruence.
Qed.
Lemma replies_matched es b log id r q : run bus_open es = Ok (b, log) -> In (Callback id (Some r) q) log ->
  is_reply r = true /\ exists c, get b id = Some c /\ is_reply (c_msg c) = false /\ c_cookie c = without_flag (m_cookie r).
Proof.
  intros R I. destruct (run_answered es bus_open b log) as (A & _); [constructor|exact R|]. apply A in I as (Rr & m & Em & K1 & K2). split; [exact Rr|].
  unfold msgs in Em. rewrite nth_error_map in Em. unfold get. destruct (nth_error (b_calls b) id) as [c|]; [|discriminate]. injection Em as <-. exists c. auto.
Qed.
(** The reply to a waiting call completes it; others change nothing. *)
Lemma reply_completes es b log r pk pk' : distinct_run bus_open es -> run bus_open es = Ok (b, log) -> is_reply r = true ->
  (forall id c, get b id = Some c -> c_wait c = true -> c_cb c = true -> c_cookie c = without_flag (m_cookie r) ->
     exists b', step b (EIncoming r pk pk') = Ok (b', [Callback id (Some r) (queued c)]))
  /\ ((forall id c, get b id = Some c -> c_wait c = true -> c_cookie c <> without_flag (m_cookie r)) -> step b (EIncoming r pk pk') = Ok (b, [])).
Proof.
  intros D R Hr. pose proof (run_calls es bus_open [] [] [] open_waiting open_queue open_fate D) as H. rewrite R in H. destruct H as (W & _).
  unfold is_reply in Hr. cbn [step]. unfold incoming. destruct (m_start r); try discriminate. unfold call_reply. split.
  - intros id c E Wc Cb K. rewrite <- K, (find_waiting b id c pk W E Wc). cbn [bind]. rewrite E. destruct (drop_ok b id c pk' W E Wc) as (-> & _). cbn [bind]. rewrite Cb. eauto.
  - intros N. destruct (find_unique b (without_flag (m_cookie r)) pk W) as [(-> & _)|(id & c & _ & E & Wc & K)]; [reflexivity|]. exfalso. eapply N; eauto.
Qed.

(** ** Acceptance *)
Lemma call_accepted b m cb ck m' : b_dead b = false -> m_cookie m <> 0 -> m_used m = false -> seal (b_ck b) m = Ok (ck, m', None) ->
  m_raw m' <> None -> is_reply m' = false -> has_flag (m_cookie m') = false ->
  exists b', call_async b m cb = Ok (b', set_used m', None).
Proof.
  intros D C U S R Rp F. unfold call_async. rewrite D. cbn [orb]. apply N.eqb_neq in C. rewrite C, U, S. cbn [bind].
  destruct (m_raw m') as [raw|]; [|congruence]. change (m_cookie (set_used m')) with (m_cookie m'). rewrite F. change (is_reply (set_used m')) with (is_reply m'). rewrite Rp. cbn [negb]. eauto.
Qed.
Lemma call_rejected b m cb : m_cookie m = 0 -> call_async b m cb = Ok (b, m, Some EINVAL).
Proof. intros E. unfold call_async. now rewrite E, Bool.orb_true_r. Qed.

(** ** A lost connection *)
Lemma dead_remove b ck pk b' : table_remove b ck pk = Ok b' -> b_dead b' = b_dead b.
Proof. unfold table_remove. destruct (table_find b ck pk) as [[id|]|]; cbn [bind]; [| |discriminate]; now intros [= <-]. Qed.
Lemma dead_unlink_waiting b id pk b' x : unlink_waiting b id pk = Ok (b', x) -> b_dead b' = b_dead b.
Proof.
  unfold unlink_waiting. destruct (get b id) as [c|]; [|discriminate]. destruct (c_wait c); [|now intros [= <- <-]].
  destruct (table_remove b (c_cookie c) pk) as [b1|] eqn:E1; cbn [bind]; [|discriminate]. intros [= <- <-]. apply dead_remove in E1. exact E1.
Qed.
Lemma dead_unlink_outgoing b id b' x : unlink_outgoing b id = Ok (b', x) -> b_dead b' = b_dead b.
Proof. unfold unlink_outgoing. destruct (get b id) as [c|]; [|discriminate]. destruct (c_out c); now intros [= <- <-]. Qed.
Lemma dead_drop b id pk b' : drop b id pk = Ok b' -> b_dead b' = b_dead b.
Proof.
  unfold drop. destruct (get b id) as [c|]; [|discriminate]. destruct (c_sending c); cbn [bind].
  - destruct (unlink_waiting b id pk) as [[b1 x]|] eqn:E1; cbn [bind fst]; [|discriminate]. intros [= <-]. eapply dead_unlink_waiting; eauto.
  - destruct (unlink_outgoing b id) as [[b1 x]|] eqn:E1; cbn [bind]; [|discriminate]. apply dead_unlink_outgoing in E1. destruct x; [intros [= <-]; exact E1|].
    destruct (unlink_waiting b1 id pk) as [[b2 x]|] eqn:E2; cbn [bind fst]; [|discriminate]. intros [= <-]. apply dead_unlink_waiting in E2. congruence.
Qed.
Lemma dead_timers l : forall b on b', set_timers b l on = Ok b' -> b_dead b' = b_dead b.
Proof.
  induction l as [|id l IH]; intros b on b'; cbn [set_timers]; [now intros [= <-]|]. destruct (get b id) as [c|]; [|discriminate]. destruct (live c); [|discriminate].
  intros H. apply IH in H. rewrite H. now destruct (on && negb (c_cb c)).
Qed.
Lemma dead_detach b b' : detach b = Ok b' -> b_dead b' = b_dead b.
Proof.
  unfold detach. destruct (b_event b); [|now intros [= <-]]. destruct (set_timers b (b_table b) false) as [b2|] eqn:E2; cbn [bind]; [|discriminate]. intros [= <-]. now apply dead_timers in E2.
Qed.
Lemma losses_nil : losses [] = O. Proof. reflexivity. Qed.
Lemma losses_one o : (forall m, o <> Forward m) -> losses [o] = O.
Proof. intros H. unfold losses. destruct o as [| | |m]; try reflexivity. exfalso. now apply (H m). Qed.
Lemma dead_step b e b' o : step b e = Ok (b', o) ->
  b_dead b' = b_dead b || is_hup e /\ losses o = (if negb (b_dead b) && is_hup e then 1 else 0)%nat.
Proof.
  assert (K : b_dead b' = b_dead b /\ losses o = O /\ is_hup e = false -> b_dead b' = b_dead b || is_hup e /\ losses o = (if negb (b_dead b) && is_hup e then 1 else 0)%nat).
  { intros (H1 & H2 & H3). rewrite H3, Bool.orb_false_r, Bool.andb_false_r. auto. }
  destruct e as [m cb|cookie pk pk'|id|m pk pk'|id pk|r pk| | |]; cbn [step]; intros H.
  - apply K. destruct (call_async b m cb) as [[[b1 m1] e1]|] eqn:E; cbn [bind fst] in H; [|discriminate]. injection H as <- <-. split; [|auto]. revert E. unfold call_async.
    destruct (b_dead b || (m_cookie m =? 0)); [now intros [= <- <- <-]|]. destruct (m_used m); [now intros [= <- <- <-]|].
    destruct (seal (b_ck b) m) as [[[ck m2] [e2|]]|]; cbn [bind]; [now intros [= <- <- <-]| |discriminate]. destruct (m_raw m2); [|now intros [= <- <- <-]].
    destruct (if has_flag _ then _ else _) eqn:F; now intros [= <- <- <-].
  - apply K. unfold cancel in H. destruct (cookie =? 0); [now injection H as <- <-|]. destruct (table_find b cookie pk) as [[id|]|]; cbn [bind] in H; [|now injection H as <- <-|discriminate].
    destruct (get b id); [|discriminate]. destruct (drop b id pk') as [b1|] eqn:E; cbn [bind] in H; [|discriminate]. injection H as <- <-. apply dead_drop in E. auto.
  - apply K. injection H as <- <-. unfold user_unref. destruct (get b id) as [c|]; auto.
  - apply K. unfold incoming in H. destruct (m_start m); try now injection H as <- <-. unfold call_reply in H.
    destruct (table_find b (without_flag (m_cookie m)) pk) as [[id|]|]; cbn [bind] in H; [|now injection H as <- <-|discriminate].
    destruct (get b id) as [c|]; [|discriminate]. destruct (drop b id pk') as [b1|] eqn:E; cbn [bind] in H; [|discriminate]. apply dead_drop in E. injection H as <- <-. destruct (c_cb c); auto.
  - apply K. unfold timer in H. destruct (get b id) as [c|]; [|now injection H as <- <-]. destruct (c_timer c); [|now injection H as <- <-].
    destruct (drop _ id pk) as [b1|] eqn:E; cbn [bind] in H; [|discriminate]. apply dead_drop in E. injection H as <- <-. destruct (c_cb c); auto.
  - apply K. unfold write in H. destruct (b_out b) as [|id rest]; [now injection H as <- <-|]. destruct (get b id) as [c|]; [|discriminate].
    cbv zeta in H. set (c0 := c_set_out c (c_out c) true) in *. assert (M0 : b_dead (put b id c0) = b_dead b) by reflexivity. set (b0 := put b id c0) in *. clearbody b0.
    destruct r as [n| |]; [|now injection H as <- <-|now injection H as <- <-]. set (c1 := c_set_sent c0 _) in *.
    assert (M1 : b_dead (put b0 id c1) = b_dead b) by (exact M0). set (b1 := put b0 id c1) in *. clearbody b1.
    destruct (lenN (c_raw c1) <=? c_sent c1); [|now injection H as <- <-].
    destruct (c_cb c1); cbn [bind] in H.
    + destruct (unlink_outgoing b1 id) as [[b2 x]|] eqn:E; cbn [bind fst] in H; [|discriminate]. injection H as <- <-. apply dead_unlink_outgoing in E. split; [congruence|auto].
    + destruct (unlink_waiting b1 id pk) as [[b2 x]|] eqn:E; cbn [bind] in H; [|discriminate]. apply dead_unlink_waiting in E. destruct x; [injection H as <- <-; split; [congruence|auto]|].
      destruct (unlink_outgoing b2 id) as [[b3 x]|] eqn:E2; cbn [bind fst] in H; [|discriminate]. injection H as <- <-. apply dead_unlink_outgoing in E2. split; [congruence|auto].
  - apply K. destruct (attach b) as [b1|] eqn:E; cbn [bind] in H; [|discriminate]. injection H as <- <-. unfold attach in E. destruct (b_dead b) eqn:D; cbn [orb] in E; [injection E as <-; auto|]. destruct (b_event b); [injection E as <-; auto|].
    apply dead_timers in E. auto.
  - apply K. destruct (detach b) as [b1|] eqn:E; cbn [bind] in H; [|discriminate]. injection H as <- <-. apply dead_detach in E. auto.
  - cbn [is_hup]. rewrite Bool.orb_true_r, Bool.andb_true_r. unfold hup in H. destruct (b_dead b) eqn:D; [injection H as <- <-; auto|]. destruct (detach b) as [b1|]; cbn [bind] in H; [|discriminate]. injection H as <- <-. auto.
Qed.
Lemma losses_app a b : losses (a ++ b) = (losses a + losses b)%nat.
Proof. unfold losses. now rewrite filter_app, app_length. Qed.
Lemma dead_run es : forall b b' o, run b es = Ok (b', o) ->
  b_dead b' = b_dead b || existsb is_hup es /\ losses o = (if negb (b_dead b) && existsb is_hup es then 1 else 0)%nat.
Proof.
  induction es as [|e es IH]; intros b b' o; cbn [run existsb].
  - intros [= <- <-]. rewrite Bool.orb_false_r, Bool.andb_false_r. auto.
  - destruct (step b e) as [[b1 o1]|] eqn:E; cbn [bind fst snd]; [|discriminate]. destruct (run b1 es) as [[b2 o2]|] eqn:R; cbn [bind fst snd]; [|discriminate]. intros [= <- <-].
    apply dead_step in E as (D1 & L1). apply IH in R as (D2 & L2). rewrite losses_app, L1, L2, D2, D1. destruct (b_dead b), (is_hup e), (existsb is_hup es); auto.
Qed.
Lemma dead_call b m cb : b_dead b = true -> call_async b m cb = Ok (b, m, Some EINVAL).
Proof. intros D. unfold call_async. now rewrite D. Qed.
Lemma connection_lost es b log : run bus_open es = Ok (b, log) ->
  losses log = (if existsb is_hup es then 1 else 0)%nat
  /\ (In EHup es -> forall m cb, call_async b m cb = Ok (b, m, Some EINVAL)).
Proof.
  intros H. apply dead_run in H as (D & L). split; [exact L|]. intros I m cb. apply dead_call. rewrite D. apply Bool.orb_true_iff. right. apply existsb_exists. exists EHup. auto.
Qed.

(** ** Numbering *)
Definition ck_kept (m : message) (r : res (message * option err)) : Prop := forall m' e, r = Ok (m', e) -> m_cookie m' = m_cookie m.
Lemma ck_store m p h : m_cookie (store m p h) = m_cookie m.
Proof. unfold store, set_array. now destruct (p_body p). Qed.
Lemma ck_guard m k : ck_kept m k -> ck_kept m (guard m k).
Proof. intros H m' e. unfold guard. destruct (is_data m); [now intros [= <- <-]|]. destruct (m_sealed m); [now intros [= <- <-]|apply H]. Qed.
Lemma ck_append_header m key value n m' x : append_header m key value n = Ok (m', x) -> m_cookie m' = m_cookie m.
Proof.
  unfold append_header. destruct (is_data m); [now intros [= <- <-]|]. destruct (grow _) as [a|]; cbn [bind]; [|discriminate].
  destruct (if n =? 0 then _ else _) as [h|e]; [|intros [= <- <-]; unfold set_array; now destruct (m_iter_body m)].
  intros [= <- <-]. unfold set_array. destruct (m_iter_body m); [reflexivity|]. repeat match goal with |- context [if ?c then _ else _] => destruct c end; reflexivity.
Qed.
Lemma ck_append_basic m o : ck_kept m (append_basic m o).
Proof.
  unfold append_basic. apply ck_guard. destruct o as [s|name| | | |s|].
  - destruct (m_iter_header m) as [p|] eqn:I.
    + intros m' e. destruct (deref m p) as [h|]; cbn [bind]; [|discriminate]. destruct (set_value h s (lenN s) false); intros [= <- <-]; [apply ck_store|reflexivity].
    + unfold append_line. apply ck_guard. rewrite I. cbn [no_ptr negb]. intros m' e. unfold append_header_line. destruct (split_line s) as [[key value] n].
      destruct (append_header m key value n) as [[m1 [p|e1]]|] eqn:E; cbn [bind]; [| |discriminate]; apply ck_append_header in E.
      * destruct (deref m1 p); cbn [bind fst snd]; [|discriminate]. intros [= <- <-]. now rewrite ck_store.
      * now intros [= <- <-].
  - unfold open_header. destruct name; [now intros m' e [= <- <-]|]. apply ck_guard. destruct (negb (no_ptr (m_iter_header m))); [now intros m' e [= <- <-]|]. intros m' e.
    destruct (append_header m _ _ _) as [[m1 [p|e1]]|] eqn:E; cbn [bind]; [| |discriminate]; apply ck_append_header in E; now intros [= <- <-].
  - unfold close_header. apply ck_guard. destruct (m_iter_header m) as [p|]; [|now intros m' e [= <- <-]]. intros m' e. destruct (deref m p); cbn [bind]; [|discriminate]. intros [= <- <-]. apply (ck_store m p).
  - unfold open_body. apply ck_guard. destruct (_ || _); now intros m' e [= <- <-].
  - unfold close_body. apply ck_guard. destruct (negb (m_iter_body m)); [now intros m' e [= <- <-]|]. destruct (negb (no_ptr (m_iter_header m))); now intros m' e [= <- <-].
  - destruct (m_iter_header m) as [p|]; [|now intros m' e [= <- <-]]. intros m' e. destruct (deref m p) as [h|]; cbn [bind]; [|discriminate]. destruct (append_token h s); intros [= <- <-]; [apply ck_store|reflexivity].
  - now intros m' e [= <- <-].
Qed.
Lemma ck_append_ops l : forall m, ck_kept m (append_ops m l).
Proof.
  induction l as [|o l IH]; intros m m' e; cbn [append_ops]; [now intros [= <- <-]|]. destruct (append_basic m o) as [[m1 [e1|]]|] eqn:E; cbn [bind]; [| |discriminate]; apply ck_append_basic in E.
  - now intros [= <- <-].
  - intros H. apply IH in H. congruence.
Qed.
Lemma ck_known m p add name v : ck_kept m (set_known_header m p add name v).
Proof.
  unfold set_known_header. destruct p as [p|].
  - intros m' e. destruct (deref m p) as [h|]; cbn [bind]; [|discriminate]. destruct (set_value h v (lenN v) true); intros [= <- <-]; [apply ck_store|reflexivity].
  - destruct add; [|now intros m' e [= <- <-]]. unfold append. apply ck_guard, ck_append_ops.
Qed.
Lemma ck_serialize m : ck_kept m (serialize_common m).
Proof.
  intros m' e. unfold serialize_common. destruct (match m_body m with Some b => _ | None => _ end) as [body|]; cbn [bind]; [|discriminate].
  set (r1 := match m_clen m with Some _ => _ | None => _ end). assert (K1 : ck_kept m r1) by (unfold r1; destruct (m_clen m); apply ck_known). clearbody r1.
  destruct r1 as [[m1 [e1|]]|]; cbn [bind]; [intros [= <- <-]; eapply K1; reflexivity| |discriminate]. specialize (K1 _ _ eq_refl).
  set (r2 := match a_used (m_body_headers m1) with [] => _ | _ => _ end). assert (K2 : ck_kept m1 r2) by (unfold r2; destruct (a_used (m_body_headers m1)); [now intros m2 e2 [= <- <-]|apply ck_known]). clearbody r2.
  destruct r2 as [[m2 [e2|]]|]; cbn [bind]; [intros [= <- <-]; rewrite <- K1; eapply K2; reflexivity| |discriminate]. specialize (K2 _ _ eq_refl).
  destruct (set_known_header m2 _ _ _ _) as [[m3 [e3|]]|] eqn:E3; cbn [bind]; [| |discriminate]; apply ck_known in E3.
  - intros [= <- <-]. congruence.
  - destruct (lines _) as [hs|]; cbn [bind]; [|discriminate]. intros [= <- <-]. change (m_cookie m3 = m_cookie m). congruence.
Qed.
Lemma seal_numbered ck m ck' m' : seal ck m = Ok (ck', m', None) -> m_sealed m = false -> m_cookie m = 0 ->
  ck' = next_cookie ck /\ m_cookie m' = if is_reply m then with_flag (next_cookie ck) else next_cookie ck.
Proof.
  unfold seal. intros H S C. rewrite S, C in H. destruct (_ || _); [discriminate|]. change (0 =? 0) with true in H. cbv iota in H.
  set (m1 := set_cookie' m (next_cookie ck)) in *. assert (R : is_reply m1 = is_reply m) by reflexivity. rewrite R in H.
  set (m2 := if is_reply m then set_cookie' m1 (with_flag (m_cookie m1)) else m1) in *.
  assert (C2 : m_cookie m2 = if is_reply m then with_flag (next_cookie ck) else next_cookie ck) by (unfold m2; now destruct (is_reply m)). clearbody m2.
  set (r := match m_start m2 with Data c p => _ | _ => _ end) in *.
  assert (K : ck_kept m2 r) by (unfold r; destruct (m_start m2); try apply ck_serialize; now intros m3 e3 [= <- <-]). clearbody r.
  destruct r as [[m3 [e3|]]|]; cbn [bind] in H; [discriminate| |discriminate]. injection H as <- <-. split; [reflexivity|]. rewrite <- C2. exact (K _ _ eq_refl).
Qed.
Lemma next_small ck : ck + 1 < 9223372036854775808 -> next_cookie ck = ck + 1.
Proof.
  intros H. unfold next_cookie. unfold wrap64. rewrite N.mod_small by (change two64 with 18446744073709551616; lia). destruct (N.eqb_spec (ck + 1) 0); lia.
Qed.
Lemma seals_numbered ms ms' : forall ck, seals ck ms ms' -> Forall (fun m => m_sealed m = false /\ m_cookie m = 0) ms -> ck + lenN ms < 2 ^ 63 ->
  forall i m', nth_error ms' i = Some m' -> without_flag (m_cookie m') = ck + 1 + N.of_nat i.
Proof.
  intros ck S. assert (E63 : 2 ^ 63 = 9223372036854775808) by reflexivity. rewrite E63. induction S as [|ck ck' m m' ms ms' E S IH]; intros F B [|i] x; cbn [nth_error]; try discriminate; rewrite lenN_cons in B; inversion F as [|? ? (F1 & F2) F']; subst;
    destruct (seal_numbered ck m ck' m' E F1 F2) as (-> & C); assert (Nx : next_cookie ck = ck + 1) by (apply next_small; lia).
  - intros [= <-]. rewrite C, Nx. unfold without_flag, with_flag, remote_flag. rewrite E63. change (N.of_nat 0) with 0. destruct (is_reply m).
    + rewrite (N.mod_small (ck + 1)) by lia. replace (ck + 1 + 9223372036854775808) with (ck + 1 + 1 * 9223372036854775808) by lia. rewrite N.mod_add by lia. rewrite N.mod_small by lia. lia.
    + rewrite N.mod_small by lia. lia.
  - intros H. rewrite (IH F' ltac:(rewrite Nx; lia) i x H), Nx. lia.
Qed.
Lemma open_numbered ms ms' i m' : seals (b_ck bus_open) ms ms' -> Forall (fun m => m_sealed m = false /\ m_cookie m = 0) ms -> lenN ms < 2 ^ 63 ->
  nth_error ms' i = Some m' -> without_flag (m_cookie m') = N.of_nat i + 1.
Proof. intros S F B H. rewrite (seals_numbered ms ms' _ S F B i m' H). cbn [bus_open b_ck]. lia. Qed.

(** ** Timers without an event loop *)
Definition no_more_timers (b b' : bus) : Prop :=
  b_event b' = b_event b /\ forall id c', get b' id = Some c' -> c_timer c' = true -> exists c, get b id = Some c /\ c_timer c = true.
Lemma nmt_refl b : no_more_timers b b.
Proof. split; [reflexivity|eauto]. Qed.
Lemma nmt_trans a b c : no_more_timers a b -> no_more_timers b c -> no_more_timers a c.
Proof. intros (E & H) (E' & H'). split; [congruence|]. intros id x G T. destruct (H' _ _ G T) as (y & Gy & Ty). eauto. Qed.
Lemma nmt_put b id c c' : get b id = Some c -> (c_timer c' = true -> c_timer c = true) -> no_more_timers b (put b id c').
Proof.
  intros E H. split; [reflexivity|]. intros i x G T. destruct (Nat.eq_dec i id) as [->|Ne].
  - rewrite (get_put_same _ _ _ _ E) in G. injection G as <-. eauto.
  - rewrite get_put_other in G by assumption. eauto.
Qed.
Lemma nmt_ext b b' : b_calls b' = b_calls b -> b_event b' = b_event b -> no_more_timers b b'.
Proof. intros E V. split; [exact V|]. intros id c. unfold get. rewrite E. eauto. Qed.
Lemma nmt_remove b ck pk b' : table_remove b ck pk = Ok b' -> b_calls b' = b_calls b /\ b_event b' = b_event b.
Proof. unfold table_remove. destruct (table_find b ck pk) as [[i|]|]; cbn [bind]; intros [= <-]; auto. Qed.
Lemma nmt_unlink_waiting b id pk b' x : unlink_waiting b id pk = Ok (b', x) -> no_more_timers b b'.
Proof.
  unfold unlink_waiting. destruct (get b id) as [c|] eqn:E; [|discriminate]. destruct (c_wait c); [|intros [= <- <-]; apply nmt_refl].
  destruct (table_remove b (c_cookie c) pk) as [b1|] eqn:R; cbn [bind]; [|discriminate]. intros [= <- <-].
  destruct (nmt_remove _ _ _ _ R) as (C & V). eapply nmt_trans; [apply (nmt_ext b b1 C V)|]. eapply nmt_put; [unfold get in *; rewrite C; exact E|discriminate].
Qed.
Lemma nmt_unlink_outgoing b id b' x : unlink_outgoing b id = Ok (b', x) -> no_more_timers b b'.
Proof.
  unfold unlink_outgoing. destruct (get b id) as [c|] eqn:E; [|discriminate]. destruct (c_out c); intros [= <- <-]; [|apply nmt_refl].
  eapply nmt_trans; [apply (nmt_ext b (set_out b (remove Nat.eq_dec id (b_out b)))); reflexivity|]. eapply nmt_put; [exact E|auto].
Qed.
Lemma nmt_drop b id pk b' : drop b id pk = Ok b' -> no_more_timers b b'.
Proof.
  unfold drop. destruct (get b id) as [c|]; [|discriminate].
  assert (R : forall r : bus * bool, (if c_sending c then Ok (b, false) else unlink_outgoing b id) = Ok r -> no_more_timers b (fst r)).
  { intros [b1 x]. destruct (c_sending c); [intros [= <- <-]; apply nmt_refl|]. apply nmt_unlink_outgoing. }
  destruct (if c_sending c then _ else _) as [[b1 x]|] eqn:E; cbn [bind]; [|discriminate]. specialize (R _ eq_refl). cbn [fst] in R.
  destruct x; [intros [= <-]; exact R|]. destruct (unlink_waiting b1 id pk) as [[b2 y]|] eqn:U; cbn [bind fst]; [|discriminate]. intros [= <-].
  eapply nmt_trans; [exact R|]. eapply nmt_unlink_waiting; eauto.
Qed.
(** The loop of detach stops the timers of all calls in the table. *)
Lemma timers_off l : forall b b', set_timers b l false = Ok b' ->
  b_event b' = b_event b /\ forall id c', get b' id = Some c' -> c_timer c' = true -> exists c, get b id = Some c /\ c_timer c = true /\ c_wait c = c_wait c' /\ ~ In id l.
Proof.
  induction l as [|id l IH]; intros b b'; cbn [set_timers].
  - intros [= <-]. split; [reflexivity|]. intros id c' G T. exists c'. auto.
  - destruct (get b id) as [c|] eqn:E; [|discriminate]. destruct (live c); [|discriminate]. cbn [andb]. intros H. destruct (IH _ _ H) as (V & K). split; [exact V|].
    intros i c' G T. destruct (K _ _ G T) as (x & Gx & Tx & Wx & Nx). destruct (Nat.eq_dec i id) as [->|Ne].
    + rewrite (get_put_same _ _ _ _ E) in Gx. injection Gx as <-. discriminate.
    + rewrite get_put_other in Gx by assumption. exists x. repeat split; auto. intros [->|I]; auto.
Qed.
Definition untimed (b : bus) : Prop := b_event b = false -> forall id c, get b id = Some c -> c_timer c = false.
Lemma nmt_untimed b b' : no_more_timers b b' -> untimed b -> untimed b'.
Proof.
  intros (V & H) U E id c G. destruct (c_timer c) eqn:T; [|reflexivity]. destruct (H _ _ G T) as (x & Gx & Tx).
  rewrite V in E. rewrite (U E _ _ Gx) in Tx. discriminate.
Qed.
Lemma detach_untimed b b' : waiting b -> untimed b -> detach b = Ok b' -> untimed b' /\ b_event b' = false.
Proof.
  intros W U. unfold detach. destruct (b_event b) eqn:V; [|intros [= <-]; auto].
  destruct (set_timers b (b_table b) false) as [b1|] eqn:E; cbn [bind]; [|discriminate]. intros [= <-]. split; [|reflexivity].
  intros _ id c G. destruct (c_timer c) eqn:T; [|reflexivity]. exfalso. destruct (timers_off _ _ _ E) as (_ & K).
  destruct (K id c G T) as (x & Gx & Tx & _ & Nx). apply Nx. apply (w_table b W). exists x. split; [exact Gx|]. exact (w_timer b W _ _ Gx Tx).
Qed.
Lemma step_untimed b e b' o : waiting b -> untimed b -> step b e = Ok (b', o) -> untimed b'.
Proof.
  intros W U. destruct e as [m cb|cookie pk pk'|id|m pk pk'|id pk|r pk| | |]; cbn [step].
  - destruct (call_async b m cb) as [[[b1 m1] e1]|] eqn:E; cbn [bind fst]; [|discriminate]. intros [= <- <-]. revert E. unfold call_async.
    destruct (b_dead b || (m_cookie m =? 0)); [intros [= <- <- <-]; exact U|]. destruct (m_used m); [intros [= <- <- <-]; exact U|].
    destruct (seal (b_ck b) m) as [[[ck m2] e2]|]; cbn [bind]; [|discriminate]. destruct e2; [intros [= <- <- <-]; exact U|]. destruct (m_raw m2); [|intros [= <- <- <-]; exact U].
    destruct (if has_flag _ then _ else _); [|intros [= <- <- <-]; exact U]. intros [= <- <- <-]. cbn [b_ck b_dead b_event b_calls b_out b_table].
    intros V i x. cbn [b_event] in V. unfold get. cbn [b_calls]. intros G. destruct (Nat.lt_ge_cases i (Datatypes.length (b_calls b))) as [L|L].
    + rewrite nth_error_app1 in G by assumption. exact (U V i x G).
    + rewrite nth_error_app2 in G by assumption. destruct (i - Datatypes.length (b_calls b))%nat as [|[|k]]; cbn in G; [|discriminate|discriminate].
      injection G as <-. cbn [c_timer]. now rewrite V.
  - unfold cancel. destruct (cookie =? 0); [intros [= <- <-]; exact U|]. destruct (table_find b cookie pk) as [[id|]|]; cbn [bind]; [|intros [= <- <-]; exact U|discriminate].
    destruct (get b id); [|discriminate]. destruct (drop b id pk') as [b1|] eqn:D; cbn [bind]; [|discriminate]. intros [= <- <-]. exact (nmt_untimed _ _ (nmt_drop _ _ _ _ D) U).
  - intros [= <- <-]. unfold user_unref. destruct (get b id) as [c|] eqn:E; [|exact U]. eapply nmt_untimed; [eapply nmt_put; [exact E|auto]|exact U].
  - unfold incoming. destruct (m_start m); try (intros [= <- <-]; exact U). unfold call_reply.
    destruct (table_find b _ pk) as [[id|]|]; cbn [bind]; [|intros [= <- <-]; exact U|discriminate].
    destruct (get b id); [|discriminate]. destruct (drop b id pk') as [b1|] eqn:D; cbn [bind]; [|discriminate]. intros [= <- <-]. exact (nmt_untimed _ _ (nmt_drop _ _ _ _ D) U).
  - unfold timer. destruct (get b id) as [c|] eqn:E; [|intros [= <- <-]; exact U]. destruct (c_timer c) eqn:T; [|intros [= <- <-]; exact U].
    destruct (drop _ id pk) as [b1|] eqn:D; cbn [bind]; [|discriminate]. intros [= <- <-]. eapply nmt_untimed; [|exact U].
    eapply nmt_trans; [eapply nmt_put; [exact E|]|exact (nmt_drop _ _ _ _ D)]. discriminate.
  - unfold write. destruct (b_out b) as [|id rest]; [intros [= <- <-]; exact U|]. destruct (get b id) as [c|] eqn:E; [|discriminate]. cbv zeta.
    set (c0 := c_set_out c (c_out c) true). assert (N0 : no_more_timers b (put b id c0)) by (eapply nmt_put; [exact E|auto]).
    assert (E0 := get_put_same b id c c0 E). destruct r as [n| |]; try (intros [= <- <-]; exact (nmt_untimed _ _ N0 U)).
    set (b0 := put b id c0) in *. set (c1 := c_set_sent c0 _). assert (N1 : no_more_timers b (put b0 id c1)) by (eapply nmt_trans; [exact N0|]; eapply nmt_put; [exact E0|auto]).
    set (b1 := put b0 id c1) in *. clearbody b1. destruct (lenN (c_raw c1) <=? c_sent c1); [|intros [= <- <-]; exact (nmt_untimed _ _ N1 U)].
    destruct (if c_cb c1 then _ else _) as [[b2 x]|] eqn:F; cbn [bind]; [|discriminate].
    assert (N2 : no_more_timers b b2). { destruct (c_cb c1); [injection F as <- <-; exact N1|]. eapply nmt_trans; [exact N1|]. eapply nmt_unlink_waiting; eauto. }
    destruct x; [intros [= <- <-]; exact (nmt_untimed _ _ N2 U)|]. destruct (unlink_outgoing b2 id) as [[b3 y]|] eqn:O; cbn [bind fst]; [|discriminate]. intros [= <- <-].
    eapply nmt_untimed; [|exact U]. eapply nmt_trans; [exact N2|]. eapply nmt_unlink_outgoing; eauto.
  - destruct (attach b) as [b1|] eqn:A; cbn [bind]; [|discriminate]. intros [= <- <-]. revert A. unfold attach. destruct (b_dead b || b_event b); [intros [= <-]; exact U|].
    intros A V. exfalso. assert (X : forall l b b' on, set_timers b l on = Ok b' -> b_event b' = b_event b).
    { induction l as [|i l IH]; intros b2 b3 on; cbn [set_timers]; [intros [= <-]; reflexivity|]. destruct (get b2 i) as [c|]; [|discriminate]. destruct (live c); [|discriminate].
      intros H. apply IH in H. rewrite H. destruct (on && negb (c_cb c)); reflexivity. }
    apply X in A. rewrite A in V. discriminate.
  - destruct (detach b) as [b1|] eqn:D; cbn [bind]; [|discriminate]. intros [= <- <-]. exact (proj1 (detach_untimed _ _ W U D)).
  - unfold hup. destruct (b_dead b); [intros [= <- <-]; exact U|]. destruct (detach b) as [b1|] eqn:D; cbn [bind]; [|discriminate]. intros [= <- <-].
    destruct (detach_untimed _ _ W U D) as (U1 & V1). exact (nmt_untimed b1 (set_event b1 (b_event b1) true) (nmt_ext _ _ eq_refl eq_refl) U1).
Qed.
Lemma run_untimed es : forall b done w b' o, waiting b -> queue b done w -> untimed b -> distinct_run b es -> run b es = Ok (b', o) -> untimed b'.
Proof.
  induction es as [|e es IH]; intros b done w b' o W Q U; cbn [run distinct_run]; [intros _ [= <- <-]; exact U|]. intros (D & R).
  destruct (step b e) as [[b1 o1]|] eqn:E; cbn [bind fst snd]; [|discriminate]. destruct (run b1 es) as [[b2 o2]|] eqn:E2; cbn [bind fst snd]; [|discriminate]. intros [= <- <-].
  destruct (step_queue _ _ _ _ _ _ E Q) as (d1 & Q1 & _).
  assert (W1 : waiting b1).
  { destruct (step_calls b e done w W Q D) as [(b3 & o3 & E3 & W3 & _)|(m & cb & -> & Es)]; [rewrite E in E3; injection E3 as <- <-; exact W3|].
    cbn [step] in E. unfold call_async in E. rewrite Es in E. destruct (b_dead b || (m_cookie m =? 0)); [injection E as <- <-; exact W|]. destruct (m_used m); [injection E as <- <-; exact W|discriminate]. }
  exact (IH b1 d1 _ _ _ W1 Q1 (step_untimed _ _ _ _ W U E) R E2).
Qed.
(** While the bus is not attached no timer does anything. *)
Lemma detached_quiet es b log id pk : distinct_run bus_open es -> run bus_open es = Ok (b, log) -> b_event b = false -> step b (ETimer id pk) = Ok (b, []).
Proof.
  intros D R V. assert (U : untimed b). { eapply run_untimed; [exact open_waiting|exact open_queue| |exact D|exact R]. intros _ [|i] c G; discriminate G. }
  cbn [step]. unfold timer. destruct (get b id) as [c|] eqn:E; [|reflexivity]. now rewrite (U V _ _ E).
Qed.
Lemma timers_event l : forall b b' on, set_timers b l on = Ok b' -> b_event b' = b_event b.
Proof.
  induction l as [|i l IH]; intros b b' on; cbn [set_timers]; [intros [= <-]; reflexivity|]. destruct (get b i) as [c|]; [|discriminate]. destruct (live c); [|discriminate].
  intros H. apply IH in H. rewrite H. destruct (on && negb (c_cb c)); reflexivity.
Qed.
Lemma detach_event b b' : detach b = Ok b' -> b_event b' = false.
Proof.
  unfold detach. destruct (b_event b) eqn:V; [|intros [= <-]; exact V]. destruct (set_timers _ _ _) as [b1|]; cbn [bind]; [|discriminate]. intros [= <-]. reflexivity.
Qed.
(** A lost connection is detached. *)
Definition split_ok (b : bus) : Prop := b_dead b = true -> b_event b = false.
Definition state_of (b : bus) : bool * bool := (b_dead b, b_event b).
Lemma attached_step b e b' o : split_ok b -> step b e = Ok (b', o) -> split_ok b' /\ state_of b' = attached1 (state_of b) e.
Proof.
  intros S H. assert (D := dead_step _ _ _ _ H). destruct D as (D & _).
  assert (K : match e with EAttach | EDetach | EHup => True | _ => b_event b' = b_event b end).
  { destruct e as [m cb|cookie pk pk'|id|m pk pk'|id pk|r pk| | |]; cbn [step] in H; try exact I.
    - destruct (call_async b m cb) as [[[b1 m1] e1]|] eqn:E; cbn [bind fst] in H; [|discriminate]. injection H as <- <-. revert E. unfold call_async.
      destruct (b_dead b || (m_cookie m =? 0)); [intros [= <- <- <-]; reflexivity|]. destruct (m_used m); [intros [= <- <- <-]; reflexivity|].
      destruct (seal (b_ck b) m) as [[[ck m2] e2]|]; cbn [bind]; [|discriminate]. destruct e2; [intros [= <- <- <-]; reflexivity|]. destruct (m_raw m2); [|intros [= <- <- <-]; reflexivity].
      destruct (if has_flag _ then _ else _); intros [= <- <- <-]; reflexivity.
    - unfold cancel in H. destruct (cookie =? 0); [injection H as <- <-; reflexivity|]. destruct (table_find b cookie pk) as [[id|]|]; cbn [bind] in H; [|injection H as <- <-; reflexivity|discriminate].
      destruct (get b id); [|discriminate]. destruct (drop b id pk') as [b1|] eqn:E; cbn [bind] in H; [|discriminate]. injection H as <- <-. apply (nmt_drop _ _ _ _ E).
    - injection H as <- <-. unfold user_unref. destruct (get b id); reflexivity.
    - unfold incoming in H. destruct (m_start m); try (injection H as <- <-; reflexivity). unfold call_reply in H.
      destruct (table_find b _ pk) as [[id|]|]; cbn [bind] in H; [|injection H as <- <-; reflexivity|discriminate].
      destruct (get b id); [|discriminate]. destruct (drop b id pk') as [b1|] eqn:E; cbn [bind] in H; [|discriminate]. injection H as <- <-. apply (nmt_drop _ _ _ _ E).
    - unfold timer in H. destruct (get b id) as [c|]; [|injection H as <- <-; reflexivity]. destruct (c_timer c); [|injection H as <- <-; reflexivity].
      destruct (drop _ id pk) as [b1|] eqn:E; cbn [bind] in H; [|discriminate]. injection H as <- <-. apply (nmt_drop _ _ _ _ E).
    - unfold write in H. destruct (b_out b) as [|id rest]; [injection H as <- <-; reflexivity|]. destruct (get b id) as [c|]; [|discriminate]. cbv zeta in H.
      destruct r as [n| |]; try (injection H as <- <-; reflexivity). set (c1 := c_set_sent _ _) in H. set (b1 := put (put b id _) id c1) in H. assert (V1 : b_event b1 = b_event b) by reflexivity. clearbody b1.
      destruct (lenN (c_raw c1) <=? c_sent c1); [|injection H as <- <-; exact V1].
      destruct (if c_cb c1 then _ else _) as [[b2 x]|] eqn:F; cbn [bind] in H; [|discriminate].
      assert (V2 : b_event b2 = b_event b1). { destruct (c_cb c1); [injection F as <- <-; reflexivity|]. apply (nmt_unlink_waiting _ _ _ _ _ F). }
      destruct x; [injection H as <- <-; congruence|]. destruct (unlink_outgoing b2 id) as [[b3 y]|] eqn:O; cbn [bind fst] in H; [|discriminate]. injection H as <- <-.
      destruct (nmt_unlink_outgoing _ _ _ _ O). congruence. }
  unfold split_ok, state_of. destruct e as [m cb|cookie pk pk'|id|m pk pk'|id pk|r pk| | |]; cbn [attached1 fst];
    cbn [is_hup] in D; try rewrite Bool.orb_false_r in D; try (rewrite K, D; split; [exact S|reflexivity]); cbn [step] in H.
  - destruct (attach b) as [b1|] eqn:A; cbn [bind] in H; [|discriminate]. injection H as <- <-. rewrite D. unfold attach in A. destruct (b_dead b) eqn:E; cbn [orb] in A.
    + injection A as <-. rewrite (S E). auto.
    + split; [discriminate|]. destruct (b_event b) eqn:V; [injection A as <-; now rewrite V|]. apply timers_event in A. now rewrite A.
  - destruct (detach b) as [b1|] eqn:A; cbn [bind] in H; [|discriminate]. injection H as <- <-. apply detach_event in A. rewrite A, D. auto.
  - rewrite Bool.orb_true_r in D. rewrite D. unfold hup in H. destruct (b_dead b) eqn:E; [injection H as <- <-; rewrite (S E); auto|].
    destruct (detach b) as [b1|] eqn:A; cbn [bind] in H; [|discriminate]. injection H as <- <-. apply detach_event in A. cbn [set_event b_event]. rewrite A. auto.
Qed.
Lemma attached_run es : forall b b' o, split_ok b -> run b es = Ok (b', o) -> state_of b' = fold_left attached1 es (state_of b).
Proof.
  induction es as [|e es IH]; intros b b' o S; cbn [run fold_left]; [intros [= <- <-]; reflexivity|].
  destruct (step b e) as [[b1 o1]|] eqn:E; cbn [bind fst snd]; [|discriminate]. destruct (run b1 es) as [[b2 o2]|] eqn:R; cbn [bind fst snd]; [|discriminate]. intros [= <- <-].
  destruct (attached_step _ _ _ _ S E) as (S1 & <-). exact (IH _ _ _ S1 R).
Qed.
Lemma quiet es b log id pk : distinct_run bus_open es -> run bus_open es = Ok (b, log) -> attached es = false -> step b (ETimer id pk) = Ok (b, []).
Proof.
  intros D R A. eapply detached_quiet; [exact D|exact R|]. assert (K := attached_run es bus_open b log (fun _ => eq_refl) R).
  unfold attached in A. change (false, false) with (state_of bus_open) in A. rewrite <- K in A. exact A.
Qed.
