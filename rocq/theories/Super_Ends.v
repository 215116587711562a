From Verif Require Import Base Ratelimit_Model Super_Model Super_Spec Super_Proofs Super_More Super_Rate.
From Verif Require Setup_Model.

(** ** C120: launches and signals *)
Lemma launched_cons p a l : launched p (a :: l) <-> (exists t, a = Launch p t) \/ launched p l.
Proof. unfold launched. cbn [In]. split; [intros [t [H|H]]|intros [[t H]|[t H]]]; eauto. Qed.
Lemma signalled_cons p a l : signalled p (a :: l) <-> (exists t, a = Kill p t) \/ signalled p l.
Proof. unfold signalled. cbn [In]. split; [intros [t [H|H]]|intros [[t H]|[t H]]]; eauto. Qed.
Lemma reaped_cons p a l : reaped p (a :: l) <-> (exists t, a = Reap p t) \/ reaped p l.
Proof. unfold reaped. cbn [In]. split; [intros [t [H|H]]|intros [[t H]|[t H]]]; eauto. Qed.
Lemma reaped_signalled l p : proper l -> reaped p l -> signalled p l.
Proof.
  induction l as [|a l IH]; [intros _ [t []]|]. intros Hp Hr. apply signalled_cons. right. apply reaped_cons in Hr.
  destruct a; cbn [proper] in Hp; destruct Hr as [[t Hr]|Hr]; try discriminate; try (apply IH; tauto). injection Hr as <- _. tauto.
Qed.

Definition current (v : sup) (p : N) : Prop := v_pid v = Proc p.
Record W (v : sup) : Prop := mkW {
  w_proper : proper (v_acts v);
  w_next : forall p, launched p (v_acts v) -> p < v_next v;
  w_cur : forall p, v_pid v = Proc p <-> launched p (v_acts v) /\ ~ signalled p (v_acts v) }.
Lemma w_same v v' : W v -> v_acts v' = v_acts v -> v_next v' = v_next v -> v_pid v' = v_pid v -> W v'.
Proof. intros [A B C] E1 E2 E3. constructor; rewrite ?E1, ?E2, ?E3; auto. Qed.
Lemma w_failure v v' b t : W v -> v_acts v' = Failure b t :: v_acts v -> v_next v' = v_next v -> v_pid v' = v_pid v -> W v'.
Proof.
  intros [A B C] E1 E2 E3. constructor; rewrite ?E1, ?E2, ?E3.
  - exact A.
  - intros p H. apply launched_cons in H. destruct H as [[? H]|H]; [discriminate|auto].
  - intros p. rewrite C, launched_cons, signalled_cons. split; intros [H1 H2].
    + split; [auto|]. intros [[? H]|H]; [discriminate|auto].
    + destruct H1 as [[? H1]|H1]; [discriminate|]. auto.
Qed.
Lemma w_kill v v' p t : W v -> v_pid v = Proc p -> v_acts v' = Kill p t :: v_acts v -> v_next v' = v_next v -> (forall q, v_pid v' <> Proc q) -> W v'.
Proof.
  intros [A B C] P E1 E2 E3. assert (L := proj1 (C p) P). constructor; rewrite ?E1, ?E2.
  - cbn [proper]. conjs; try tauto. intros H. apply (reaped_signalled _ _ A) in H. tauto.
  - intros q H. apply launched_cons in H. destruct H as [[? H]|H]; [discriminate|auto].
  - intros q. split; [intros H; apply E3 in H; contradiction|]. rewrite launched_cons, signalled_cons. intros [[[? H1]|H1] H2]; [discriminate|].
    exfalso. destruct (N.eq_dec q p) as [->|N]; [apply H2; left; eauto|]. assert (Q : v_pid v = Proc q) by (apply C; split; [auto|]; tauto). congruence.
Qed.
Lemma w_quit v v' : W v -> (forall p, v_pid v <> Proc p) -> v_acts v' = v_acts v -> v_next v' = v_next v -> (forall q, v_pid v' <> Proc q) -> W v'.
Proof.
  intros [A B C] P E1 E2 E3. constructor; rewrite ?E1, ?E2; auto. intros p. split; [intros H; apply E3 in H; contradiction|]. intros H. apply C in H. apply P in H. contradiction.
Qed.
Lemma w_end v v' now : W v -> v_acts v' = killed now v ++ v_acts v -> v_next v' = v_next v -> (forall q, v_pid v' <> Proc q) -> W v'.
Proof.
  intros Wv. unfold killed. destruct (v_pid v) eqn:Ep; intros E1 E2 E3; cbn [app] in E1; [apply (w_quit v v'); auto; congruence|apply (w_quit v v'); auto; congruence|].
  apply (w_kill v v' p now); auto.
Qed.
Lemma w_launch v v' t : W v -> (forall p, v_pid v <> Proc p) -> v_acts v' = Launch (v_next v) t :: v_acts v -> v_next v' = v_next v + 1 -> v_pid v' = Proc (v_next v) -> W v'.
Proof.
  intros [A B C] P E1 E2 E3. assert (F : ~ launched (v_next v) (v_acts v)) by (intros H; apply B in H; lia). constructor; rewrite ?E1, ?E2, ?E3.
  - cbn [proper]. conjs; auto. intros q H. destruct (C q) as [_ C2]. assert (D : ~ ~ signalled q (v_acts v)) by (intros H'; apply (P q); auto).
    assert (X : signalled q (v_acts v) \/ ~ signalled q (v_acts v)).
    { clear. unfold signalled. induction (v_acts v) as [|a l IH]; [right; intros [t []]|]. destruct IH as [[t H]|H]; [left; exists t; right; exact H|].
      destruct a as [| p now| |]; try (right; intros [t [H'|H']]; [discriminate|apply H; eauto]). destruct (N.eq_dec p q) as [->|N]; [left; exists now; left; reflexivity|].
      right. intros [t [H'|H']]; [congruence|apply H; eauto]. }
    tauto.
  - intros p H. apply launched_cons in H. destruct H as [[? H]|H]; [injection H; intros; lia|]. apply B in H. lia.
  - intros p. rewrite launched_cons, signalled_cons. split.
    + intros H. injection H as <-. split; [left; eauto|]. intros [[? H]|H]; [discriminate|]. apply F. clear - A H.
      induction (v_acts v) as [|a l IH]; [destruct H as [? []]|]. apply launched_cons. apply signalled_cons in H. destruct a; cbn [proper] in A.
      * destruct H as [[? H]|H]; [discriminate|]. right. apply IH; tauto.
      * destruct H as [[? H]|H]; [injection H as <- <-; tauto|]. right. apply IH; tauto.
      * destruct H as [[? H]|H]; [discriminate|]. right. apply IH; tauto.
      * destruct H as [[? H]|H]; [discriminate|]. right. apply IH; tauto.
    + intros [[[? H]|H] H2]; [congruence|]. exfalso. apply (P p), C. split; [exact H|]. tauto.
Qed.
Lemma w_reap v v' p t : W v -> signalled p (v_acts v) -> ~ reaped p (v_acts v) -> v_acts v' = Reap p t :: v_acts v -> v_next v' = v_next v -> v_pid v' = v_pid v -> W v'.
Proof.
  intros [A B C] S NR E1 E2 E3. constructor; rewrite ?E1, ?E2, ?E3.
  - cbn [proper]. auto.
  - intros q H. apply launched_cons in H. destruct H as [[? H]|H]; [discriminate|auto].
  - intros q. rewrite C, launched_cons, signalled_cons. split; intros [H1 H2].
    + split; [auto|]. intros [[? H]|H]; [discriminate|auto].
    + destruct H1 as [[? H1]|H1]; [discriminate|]. auto.
Qed.
Lemma w_failed now v y : W v -> v_timer v = Some y -> W (failed now v).
Proof.
  intros Wv Hy. destruct (failed_all now v y Hy) as (P & _ & _ & _ & _ & _ & _ & _ & _ & _ & _ & _ & _ & Nx & Ac & _).
  apply (w_end (note (Failure (admits now v) now) v) _ now); auto; [|rewrite P; discriminate].
  apply (w_failure v _ (admits now v) now Wv); reflexivity.
Qed.
Lemma w_stop now v : W v -> W (stop now v).
Proof.
  intros Wv. destruct (stop_all now v) as (P & _ & _ & _ & _ & _ & _ & _ & _ & _ & _ & _ & _ & Nx & Ac & _).
  apply (w_end v _ now); auto. rewrite P. discriminate.
Qed.
Lemma w_spawn now l v : W v -> (forall p, v_pid v <> Proc p) -> W (fst (spawn now l v)).
Proof.
  intros Wv P. assert (P' : v_pid v = Unmanaged \/ v_pid v = Grace) by (destruct (v_pid v); auto; exfalso; eapply P; eauto).
  destruct (spawn_all now l v P') as (_ & Hp & _ & _ & _ & _ & _ & _ & _ & _ & _ & _ & _ & _ & _ & _ & Nx & Ac).
  destruct (l_find l && l_fork l).
  - apply (w_launch v _ now); auto.
  - apply (w_same v); auto.
Qed.
Lemma w_arm t v : W v -> W (arm t v).
Proof. intros Wv. unfold arm. destruct (v_timer v); [|exact Wv]. apply (w_same v); auto. Qed.
Lemma w_disarm v : W v -> W (disarm v).
Proof. intros Wv. unfold disarm. destruct (v_timer v); [|exact Wv]. apply (w_same v); auto. Qed.
Lemma w_drop v : W v -> W (drop_glob v).
Proof. intros Wv. unfold drop_glob. destruct (v_glob v); [|exact Wv]. destruct (0 <? v_leak v); apply (w_same v); auto. Qed.

Lemma w_step v n e : Inv v n -> W v -> W (step v e).
Proof.
  intros I Wv. destruct e as [now e].
  assert (S : forall w, v_acts w = v_acts v -> v_next w = v_next v -> v_pid w = v_pid v -> W w) by (intros; apply (w_same v); auto).
  destruct e as [cf tm l| |l o| | | |r|ok|a]; unfold step; cbn [fst snd].
  - unfold start. destruct (v_pid v) eqn:Ep; [|exact Wv|exact Wv]. destruct cf; cbn [negb]; [|apply w_stop, S; auto]. destruct tm; cbn [negb]; [|apply w_stop, S; auto].
    match goal with |- context [spawn now l ?w] => set (w0 := w) end. assert (W0 : W (fst (spawn now l w0))).
    { apply w_spawn; [apply S; auto|]. intros p. unfold w0. sups. congruence. }
    destruct (spawn now l w0) as [v' []]; cbn [fst] in W0; [exact W0|apply w_stop, W0].
  - destruct (v_pid v); [exact Wv| |]; apply w_stop, Wv.
  - destruct (v_timer v) as [[t|]|] eqn:Et; try exact Wv. destruct (t <=? now); [|exact Wv]. unfold timer_fn. destruct (v_pid v) eqn:Ep.
    + apply w_disarm, Wv.
    + assert (W0 : W (fst (spawn now l v))) by (apply w_spawn; [exact Wv|congruence]). destruct (spawn now l v) as [v' []]; cbn [fst] in W0; [apply w_arm, W0|].
      destruct (rl_test (v_exec v') now) as [r b]. apply w_arm, (w_same v'); auto.
    + destruct (Setup_Model.u_run _); [apply w_disarm, Wv|]. unfold open_. destruct o.
      * apply w_disarm. apply (w_same (drop_glob v)); auto. apply w_drop, Wv.
      * apply w_arm, S; auto.
  - destruct (v_child v) as [p|] eqn:Ec; [|exact Wv]. assert (P := i_child _ _ I _ Ec). assert (M : v_pid v <> Unmanaged) by congruence.
    destruct (man_timer v n I M) as [y Hy]. assert (Wf := w_failed now v y Wv Hy). destruct (failed_all now v y Hy) as (_ & _ & _ & _ & _ & _ & _ & _ & _ & _ & _ & _ & _ & _ & Ac & _).
    unfold killed in Ac. rewrite P in Ac. cbn [app] in Ac. apply (w_reap (failed now v) _ p now); auto; rewrite Ac.
    + exists now. left. reflexivity.
    + intros H. destruct (proj1 (w_cur _ Wv p) P) as [_ H2]. apply H2. apply (reaped_signalled _ _ (w_proper _ Wv)).
      apply reaped_cons in H. destruct H as [[? H]|H]; [discriminate|]. apply reaped_cons in H. destruct H as [[? H]|H]; [discriminate|]. exact H.
  - destruct (v_glob v) as [g|] eqn:Eg; [|exact Wv]. assert (M : v_pid v <> Unmanaged) by (apply (glob_man v n I); congruence). destruct (man_timer v n I M) as [y Hy].
    unfold global_hup. assert (W1 : W (failed now (set_gfd false v))) by (apply (w_failed now _ y); [apply S; auto|exact Hy]). destruct (v_dev v); try exact W1.
    destruct (failed_all now (set_gfd false v) y Hy) as (_ & _ & T & _). eapply w_failed; [exact W1|exact T].
  - destruct (v_dev v) eqn:Ed; try exact Wv. assert (G : v_glob v <> None) by (intros H; destruct (i_none _ _ I H) as [H' _]; congruence).
    destruct (man_timer v n I (glob_man v n I G)) as [y Hy]. apply (w_failed now v y Wv Hy).
  - destruct (v_glob v) as [[]|] eqn:Eg; try exact Wv. assert (M : v_pid v <> Unmanaged) by (apply (glob_man v n I); congruence). destruct (man_timer v n I M) as [y Hy].
    destruct r; cbn [global_attach_fn]; try (apply (w_failed now _ y); [apply S; auto|exact Hy]); apply S; auto.
  - destruct (v_dev v) as [| |[]] eqn:Ed; try exact Wv. assert (G : v_glob v <> None) by (intros H; destruct (i_none _ _ I H) as [H' _]; congruence).
    destruct (man_timer v n I (glob_man v n I G)) as [y Hy]. unfold dev_attach_fn. destruct ok; [apply S; auto|apply (w_failed now v y Wv Hy)].
  - destruct (v_glob v) as [[]|] eqn:Eg; try exact Wv. destruct (Setup_Model.u_wait _); [exact Wv|]. apply S; auto.
Qed.
Lemma w_fresh : W fresh.
Proof. constructor; cbn; auto; [intros p [? []]|]. intros p. split; [discriminate|]. intros [[? []] _]. Qed.

(** Induction over the events with the invariant. *)
Lemma reach_ind (P : sup -> Prop) (Q : N * event -> Prop) : P fresh -> (forall v n e, Inv v n -> P v -> Q e -> P (step v e)) ->
  forall es, abandoned fresh es + 4 < two64 -> Forall Q es -> P (run fresh es).
Proof.
  intros H0 Hs. assert (G : forall es v n, Inv v n -> P v -> n + abandoned v es + 4 < two64 -> Forall Q es -> P (run v es)).
  { induction es as [|e es IH]; intros v n I Pv Hb HQ; [exact Pv|]. cbn [abandoned] in Hb. fold (term v e) in Hb. inversion HQ; subst.
    unfold run. cbn [fold_left]. apply (IH _ (n + term v e)); auto; [apply inv_step; [exact I|lia]|apply (Hs v n); auto|lia]. }
  intros es Hb HQ. apply (G es fresh 0); auto. exact inv_fresh.
Qed.
Lemma all_true (es : list (N * event)) : Forall (fun _ => True) es.
Proof. induction es; auto. Qed.
Lemma w_reach es : abandoned fresh es + 4 < two64 -> W (run fresh es).
Proof. intros H. apply (reach_ind W (fun _ => True)); auto; [exact w_fresh|intros v n e I Wv _; apply (w_step v n); auto|apply all_true]. Qed.
Lemma signals es : abandoned fresh es + 4 < two64 -> let v := run fresh es in
  proper (v_acts v) /\ (forall p, v_pid v = Proc p <-> launched p (v_acts v) /\ ~ signalled p (v_acts v)) /\ (v_pid v = Unmanaged -> nothing v).
Proof.
  intros H v. destruct (w_reach es H) as [A B C]. fold v in A, B, C. conjs; auto. intros P. assert (I := inv_reach es H). fold v in I.
  destruct (i_un _ _ I P) as (T1 & T2 & T3 & T4 & T5). destruct (i_none _ _ I T3) as (D & _ & R & _). unfold nothing, ready. conjs; auto. congruence.
Qed.
Lemma stop_nothing es now : abandoned fresh (es ++ [(now, Stop)]) + 4 < two64 -> let v := run fresh (es ++ [(now, Stop)]) in
  v_pid v = Unmanaged /\ nothing v /\ forall p, launched p (v_acts v) -> ~ ~ signalled p (v_acts v).
Proof.
  intros H v. destruct (signals _ H) as (_ & C & Nn). fold v in C, Nn. assert (P : v_pid v = Unmanaged).
  { unfold v, run. rewrite fold_left_app. cbn [fold_left step fst snd]. destruct (v_pid (fold_left step es fresh)) eqn:E; [exact E| |]; apply stop_all. }
  conjs; auto. intros p L NS. assert (X := proj2 (C p) (conj L NS)). congruence.
Qed.

(** ** C121: waiting for processes *)
Definition only (v : sup) : Prop :=
  match v_pid v with Proc p => v_procs v = [p] /\ v_child v = Some p | _ => v_procs v = [] end.
Lemma only_step v n e : Inv v n -> only v -> by_exit e -> only (step v e).
Proof.
  intros I O Q. destruct e as [now e]. unfold by_exit in Q. cbn [snd] in Q. unfold only in *.
  destruct e as [cf tm l| |l o| | | |r|ok|a]; unfold step; cbn [fst snd]; try contradiction.
  - unfold start. destruct (v_pid v) eqn:Ep; [|rewrite Ep; exact O|rewrite Ep; exact O].
    destruct cf; cbn [negb]; [|match goal with |- context [stop now ?w] => destruct (stop_all now w) as (-> & _ & _ & _ & _ & _ & _ & _ & _ & _ & _ & -> & _) end; exact O].
    destruct tm; cbn [negb]; [|match goal with |- context [stop now ?w] => destruct (stop_all now w) as (-> & _ & _ & _ & _ & _ & _ & _ & _ & _ & _ & -> & _) end; exact O].
    match goal with |- context [spawn now l ?w] => set (w0 := w) end. assert (Ep0 : v_pid w0 = Unmanaged) by exact Ep.
    destruct (spawn_all now l w0 (or_introl Ep0)) as (Hs & Hp & Hc & _ & _ & _ & _ & _ & _ & _ & _ & _ & _ & _ & Pr & _). destruct (spawn now l w0) as [v' ok]; cbn [fst snd] in *.
    rewrite Q, andb_true_r in Hs. subst ok. destruct (l_find l && l_fork l).
    + rewrite Hp, Pr, Hc, Q. unfold w0. sups. rewrite O. auto.
    + destruct (stop_all now v') as (-> & _ & _ & _ & _ & _ & _ & _ & _ & _ & _ & -> & _). rewrite Pr. exact O.
  - destruct (v_timer v) as [[t|]|] eqn:Et; try exact O. destruct (t <=? now); [|exact O]. unfold timer_fn. destruct (v_pid v) as [| |q] eqn:Ep.
    + unfold disarm. rewrite Et. sups. rewrite Ep. exact O.
    + destruct (spawn_all now l v (or_intror Ep)) as (Hs & Hp & Hc & T1 & _ & _ & _ & _ & _ & _ & _ & _ & _ & _ & Pr & _). destruct (spawn now l v) as [v' ok]; cbn [fst snd] in *.
      rewrite Q, andb_true_r in Hs. subst ok. rewrite Et in T1. destruct (l_find l && l_fork l).
      * rewrite (arm_timer _ _ _ T1). sups. rewrite Hp, Pr, Hc, Q, O. auto.
      * destruct (rl_test (v_exec v') now) as [r b]. rewrite (arm_timer _ _ (Some t)) by exact T1. sups. rewrite Hp, Pr, Ep. exact O.
    + assert (G := timer_glob v n t I Et). destruct (Setup_Model.u_run _); [unfold disarm; rewrite Et; sups; rewrite Ep; exact O|]. unfold open_. destruct o.
      * unfold drop_glob. rewrite G. unfold disarm. sups. rewrite Et. sups. rewrite Ep. exact O.
      * rewrite (arm_timer _ _ (Some t)) by exact Et. sups. rewrite Ep. exact O.
  - destruct (v_child v) as [p|] eqn:Ec; [|rewrite Ec; exact O]. assert (P := i_child _ _ I _ Ec). assert (M : v_pid v <> Unmanaged) by congruence. rewrite P in O. destruct O as [O _].
    destruct (man_timer v n I M) as [y Hy]. destruct (failed_all now v y Hy) as (Hp & _ & _ & _ & _ & _ & _ & _ & _ & _ & _ & Pr & _). sups. rewrite Hp, Pr, O. cbn [filter]. rewrite N.eqb_refl. reflexivity.
  - destruct (v_glob v) as [[]|] eqn:Eg; try exact O. destruct r; try contradiction; exact O.
  - destruct ok; [|contradiction]. destruct (v_dev v) as [| |[]]; exact O.
  - destruct (v_glob v) as [[]|] eqn:Eg; try exact O. destruct (Setup_Model.u_wait _); exact O.
Qed.
Lemma waited es : abandoned fresh es + 4 < two64 -> Forall by_exit es -> forall p, In p (v_procs (run fresh es)) -> v_pid (run fresh es) = Proc p.
Proof.
  intros H HQ p Hp. assert (O : only (run fresh es)) by (apply (reach_ind only by_exit); auto; [reflexivity|exact only_step]).
  unfold only in O. destruct (v_pid (run fresh es)); [rewrite O in Hp; destruct Hp|rewrite O in Hp; destruct Hp|]. destruct O as [O _]. rewrite O in Hp. destruct Hp as [->|[]]. reflexivity.
Qed.

(** A process that is no longer watched is never waited for. *)
Definition zombie (p : N) (v : sup) : Prop := In p (v_procs v) /\ v_child v <> Some p /\ p < v_next v.
Lemma zombie_step p v n e : Inv v n -> zombie p v -> zombie p (step v e).
Proof.
  intros I (Z1 & Z2 & Z3). destruct e as [now e]. assert (Zv : zombie p v) by (unfold zombie; auto).
  assert (K : forall w, v_procs w = v_procs v -> v_child w = v_child v \/ v_child w = None -> v_next w = v_next v -> zombie p w).
  { intros w E1 E2 E3. unfold zombie. rewrite E1, E3. conjs; auto. destruct E2 as [-> | ->]; [auto|discriminate]. }
  assert (F : forall w y, v_timer w = Some y -> v_procs w = v_procs v -> v_next w = v_next v -> zombie p (failed now w)).
  { intros w y Hy E1 E2. destruct (failed_all now w y Hy) as (_ & C & _ & _ & _ & _ & _ & _ & _ & _ & _ & Pr & _ & Nx & _). apply K; [congruence|auto|congruence]. }
  assert (T : forall w, In p (v_procs w) -> p < v_next w -> zombie p (stop now w)).
  { intros w E1 E2. destruct (stop_all now w) as (_ & C & _ & _ & _ & _ & _ & _ & _ & _ & _ & Pr & _ & Nx & _). unfold zombie. rewrite Pr, C, Nx. conjs; auto. discriminate. }
  assert (S : forall l w, v_pid w = Unmanaged \/ v_pid w = Grace -> v_procs w = v_procs v -> v_child w = v_child v -> v_next w = v_next v -> zombie p (fst (spawn now l w))).
  { intros l w Pw E1 E2 E3. destruct (spawn_all now l w Pw) as (_ & _ & Hc & _ & _ & _ & _ & _ & _ & _ & _ & _ & _ & _ & Pr & _ & Nx & _).
    unfold zombie. rewrite Pr, Hc, Nx, E1, E2, E3. destruct (l_find l && l_fork l); [|auto]. conjs; [right; exact Z1| |lia]. destruct (l_watch l); [|discriminate]. intros H. injection H as H. lia. }
  destruct e as [cf tm l| |l o| | | |r|ok|a]; unfold step; cbn [fst snd].
  - unfold start. destruct (v_pid v) eqn:Ep; [|exact Zv|exact Zv]. destruct cf; cbn [negb]; [|apply T; auto]. destruct tm; cbn [negb]; [|apply T; auto].
    match goal with |- context [spawn now l ?w] => assert (Z := S l w (or_introl Ep) eq_refl eq_refl eq_refl); destruct (spawn now l w) as [v' []] end; cbn [fst] in Z; [exact Z|].
    destruct Z as (Y1 & _ & Y3). apply T; auto.
  - destruct (v_pid v); [exact Zv| |]; apply T; auto.
  - destruct (v_timer v) as [[t|]|] eqn:Et; try exact Zv. destruct (t <=? now); [|exact Zv]. unfold timer_fn. destruct (v_pid v) as [| |q] eqn:Ep.
    + unfold disarm. rewrite Et. apply K; auto.
    + assert (Z := S l v (or_intror Ep) eq_refl eq_refl eq_refl). destruct (spawn now l v) as [v' []]; cbn [fst] in Z; unfold arm; [destruct (v_timer v'); exact Z|].
      destruct (rl_test (v_exec v') now) as [r b]. sups. destruct (v_timer v'); exact Z.
    + assert (G := timer_glob v n t I Et). destruct (Setup_Model.u_run _); [unfold disarm; rewrite Et; apply K; auto|]. unfold open_. destruct o.
      * unfold drop_glob. rewrite G. unfold disarm. sups. rewrite Et. apply K; auto.
      * rewrite (arm_timer _ _ (Some t)) by exact Et. apply K; auto.
  - destruct (v_child v) as [q|] eqn:Ec; [|exact Zv]. assert (P := i_child _ _ I _ Ec). assert (M : v_pid v <> Unmanaged) by congruence.
    destruct (man_timer v n I M) as [y Hy]. destruct (F v y Hy eq_refl eq_refl) as (Y1 & Y2 & Y3). unfold zombie. sups. conjs; auto.
    apply filter_In. split; [exact Y1|]. destruct (N.eqb_spec p q) as [->|H]; [congruence|reflexivity].
  - destruct (v_glob v) as [g|] eqn:Eg; [|exact Zv]. assert (M : v_pid v <> Unmanaged) by (apply (glob_man v n I); congruence). destruct (man_timer v n I M) as [y Hy].
    unfold global_hup. destruct (failed_all now (set_gfd false v) y Hy) as (_ & _ & T1 & _ & _ & _ & _ & _ & _ & _ & _ & Pr & _ & Nx & _).
    destruct (v_dev v); [apply (F _ y); auto| |apply (F _ y); auto]. eapply F; [exact T1|exact Pr|exact Nx].
  - destruct (v_dev v) eqn:Ed; try exact Zv. assert (G : v_glob v <> None) by (intros H; destruct (i_none _ _ I H) as [H' _]; congruence).
    destruct (man_timer v n I (glob_man v n I G)) as [y Hy]. apply (F v y); auto.
  - destruct (v_glob v) as [[]|] eqn:Eg; try exact Zv. assert (M : v_pid v <> Unmanaged) by (apply (glob_man v n I); congruence). destruct (man_timer v n I M) as [y Hy].
    destruct r; cbn [global_attach_fn]; try (apply (F _ y); auto); apply K; auto.
  - destruct (v_dev v) as [| |[]] eqn:Ed; try exact Zv. assert (G : v_glob v <> None) by (intros H; destruct (i_none _ _ I H) as [H' _]; congruence).
    destruct (man_timer v n I (glob_man v n I G)) as [y Hy]. unfold dev_attach_fn. destruct ok; [apply K; auto|apply (F v y); auto].
  - destruct (v_glob v) as [[]|] eqn:Eg; try exact Zv. destruct (Setup_Model.u_wait _); [exact Zv|]. apply K; auto.
Qed.
Lemma procs_next v n e : Inv v n -> (forall p, In p (v_procs v) -> p < v_next v) -> forall p, In p (v_procs (step v e)) -> p < v_next (step v e).
Proof.
  intros I B. destruct e as [now e].
  assert (K : forall w, v_procs w = v_procs v -> v_next w = v_next v -> forall p, In p (v_procs w) -> p < v_next w) by (intros w E1 E2 p; rewrite E1, E2; apply B).
  assert (F : forall w y, v_timer w = Some y -> v_procs w = v_procs v -> v_next w = v_next v -> v_procs (failed now w) = v_procs v /\ v_next (failed now w) = v_next v).
  { intros w y Hy E1 E2. destruct (failed_all now w y Hy) as (_ & C & _ & _ & _ & _ & _ & _ & _ & _ & _ & Pr & _ & Nx & _). split; congruence. }
  assert (T : forall w, (forall p, In p (v_procs w) -> p < v_next w) -> forall p, In p (v_procs (stop now w)) -> p < v_next (stop now w)).
  { intros w E. destruct (stop_all now w) as (_ & C & _ & _ & _ & _ & _ & _ & _ & _ & _ & Pr & _ & Nx & _). rewrite Pr, Nx. exact E. }
  assert (S : forall l w, v_pid w = Unmanaged \/ v_pid w = Grace -> v_procs w = v_procs v -> v_next w = v_next v -> forall p, In p (v_procs (fst (spawn now l w))) -> p < v_next (fst (spawn now l w))).
  { intros l w Pw E1 E2. destruct (spawn_all now l w Pw) as (_ & _ & Hc & _ & _ & _ & _ & _ & _ & _ & _ & _ & _ & _ & Pr & _ & Nx & _).
    rewrite Pr, Nx, E1, E2. destruct (l_find l && l_fork l); [|exact B]. intros p [<-|H]; [lia|]. apply B in H. lia. }
  destruct e as [cf tm l| |l o| | | |r|ok|a]; unfold step; cbn [fst snd].
  - unfold start. destruct (v_pid v) eqn:Ep; [|exact B|exact B]. destruct cf; cbn [negb]; [|apply T; auto]. destruct tm; cbn [negb]; [|apply T; auto].
    match goal with |- context [spawn now l ?w] => assert (Z := S l w (or_introl Ep) eq_refl eq_refl); destruct (spawn now l w) as [v' []] end; cbn [fst] in Z; [exact Z|]. apply T; auto.
  - destruct (v_pid v); [exact B| |]; apply T; auto.
  - destruct (v_timer v) as [[t|]|] eqn:Et; try exact B. destruct (t <=? now); [|exact B]. unfold timer_fn. destruct (v_pid v) as [| |q] eqn:Ep.
    + unfold disarm. rewrite Et. apply K; auto.
    + assert (Z := S l v (or_intror Ep) eq_refl eq_refl). destruct (spawn now l v) as [v' []]; cbn [fst] in Z; unfold arm; [destruct (v_timer v'); exact Z|].
      destruct (rl_test (v_exec v') now) as [r b]. sups. destruct (v_timer v'); exact Z.
    + assert (G := timer_glob v n t I Et). destruct (Setup_Model.u_run _); [unfold disarm; rewrite Et; apply K; auto|]. unfold open_. destruct o.
      * unfold drop_glob. rewrite G. unfold disarm. sups. rewrite Et. apply K; auto.
      * rewrite (arm_timer _ _ (Some t)) by exact Et. apply K; auto.
  - destruct (v_child v) as [q|] eqn:Ec; [|exact B]. assert (P := i_child _ _ I _ Ec). assert (M : v_pid v <> Unmanaged) by congruence.
    destruct (man_timer v n I M) as [y Hy]. destruct (F v y Hy eq_refl eq_refl) as (E1 & E2). sups. rewrite E1, E2. intros p H. apply filter_In in H. apply B, H.
  - destruct (v_glob v) as [g|] eqn:Eg; [|exact B]. assert (M : v_pid v <> Unmanaged) by (apply (glob_man v n I); congruence). destruct (man_timer v n I M) as [y Hy].
    unfold global_hup. destruct (failed_all now (set_gfd false v) y Hy) as (_ & _ & T1 & _). destruct (F (set_gfd false v) y Hy eq_refl eq_refl) as [E1 E2].
    destruct (v_dev v); [apply K; auto| |apply K; auto]. destruct (F _ _ T1 E1 E2). apply K; auto.
  - destruct (v_dev v) eqn:Ed; try exact B. assert (G : v_glob v <> None) by (intros H; destruct (i_none _ _ I H) as [H' _]; congruence).
    destruct (man_timer v n I (glob_man v n I G)) as [y Hy]. destruct (F v y Hy eq_refl eq_refl). apply K; auto.
  - destruct (v_glob v) as [[]|] eqn:Eg; try exact B. assert (M : v_pid v <> Unmanaged) by (apply (glob_man v n I); congruence). destruct (man_timer v n I M) as [y Hy].
    destruct r; cbn [global_attach_fn]; try (destruct (F (set_glob (Some false) v) y Hy eq_refl eq_refl); apply K; auto; fail); apply K; auto.
  - destruct (v_dev v) as [| |[]] eqn:Ed; try exact B. assert (G : v_glob v <> None) by (intros H; destruct (i_none _ _ I H) as [H' _]; congruence).
    destruct (man_timer v n I (glob_man v n I G)) as [y Hy]. unfold dev_attach_fn. destruct ok; [apply K; auto|destruct (F v y Hy eq_refl eq_refl); apply K; auto].
  - destruct (v_glob v) as [[]|] eqn:Eg; try exact B. destruct (Setup_Model.u_wait _); [exact B|]. apply K; auto.
Qed.
Lemma run_app v es es' : run v (es ++ es') = run (run v es) es'.
Proof. apply fold_left_app. Qed.
Lemma abandoned_app es es' : forall v, abandoned v (es ++ es') = abandoned v es + abandoned (run v es) es'.
Proof. induction es as [|e es IH]; intros v; cbn [app abandoned]; [reflexivity|]. rewrite IH. unfold run. cbn [fold_left]. lia. Qed.
Lemma unwaited es es' p : abandoned fresh (es ++ es') + 4 < two64 -> In p (v_procs (run fresh es)) -> v_child (run fresh es) <> Some p -> In p (v_procs (run fresh (es ++ es'))).
Proof.
  intros H Hp Hc. rewrite abandoned_app in H. assert (H1 : abandoned fresh es + 4 < two64) by lia.
  assert (B : forall q, In q (v_procs (run fresh es)) -> q < v_next (run fresh es)).
  { apply (reach_ind (fun v => forall q, In q (v_procs v) -> q < v_next v) (fun _ => True)); auto; [intros q []|intros v n e I Bv _; apply (procs_next v n e I Bv)|apply all_true]. }
  assert (I := inv_reach es H1). assert (Z : zombie p (run fresh es)) by (unfold zombie; auto). rewrite run_app.
  clear H1 B Hc Hp. revert I H Z. generalize (abandoned fresh es) as n, (run fresh es) as v. clear.
  intros n v I Hb Z. revert v n I Hb Z. induction es' as [|e es IH]; intros v n I Hb Z; [apply Z|]. cbn [abandoned] in Hb. fold (term v e) in Hb. unfold run. cbn [fold_left].
  apply (IH _ (n + term v e)); [apply inv_step; [exact I|lia]|lia|]. apply (zombie_step p v n e I Z).
Qed.

(** ** C122: connections are freed *)
Definition tidy (v : sup) : Prop := v_leak v = 0 /\ v_left v = [].
Lemma tidy_step v n e : Inv v n -> tidy v -> no_p2p e -> tidy (step v e).
Proof.
  intros I Tv Q. assert (Tv' := Tv). destruct Tv' as [L R]. destruct e as [now e]. unfold no_p2p in Q. cbn [snd] in Q.
  assert (Fr : forall w, v_leak w = 0 -> freed w = v_left w) by (intros w E; unfold freed; rewrite E; destruct (v_glob w); reflexivity).
  assert (LL : forall w, v_leak w = 0 -> v_leak (close w) = 0 /\ v_left (close w) = v_left w).
  { intros w E. unfold close, drop_glob. sups. rewrite E. destruct (v_glob w); sups; auto. }
  assert (F : forall w y, v_timer w = Some y -> v_leak w = 0 -> v_left w = [] -> tidy (failed now w)).
  { intros w y Hy E1 E2. unfold tidy, failed, stopped, kill, arm. destruct (rl_test (v_restart w) now) as [r b]. sups. rewrite Hy. sups.
    match goal with |- v_leak (close ?w) = _ /\ _ => destruct (LL w) as [-> ->] end; destruct (v_pid w); sups; auto. }
  assert (T : forall w, v_leak w = 0 -> v_left w = [] -> tidy (stop now w)).
  { intros w E1 E2. destruct (LL w E1) as [A1 A2]. unfold tidy, stop, stopped, kill. sups. destruct (v_pid (close w)); sups; rewrite A1, A2; auto. }
  assert (S : forall l w, v_leak w = 0 -> v_left w = [] -> tidy (fst (spawn now l w))).
  { intros l w E1 E2. unfold tidy, spawn. destruct (v_pid w), (l_find l), (l_fork l), (l_watch l); cbn [negb]; sups; auto. }
  destruct e as [cf tm l| |l o| | | |r|ok|a]; unfold step; cbn [fst snd].
  - unfold start. destruct (v_pid v) eqn:Ep; [|exact Tv|exact Tv]. destruct cf; cbn [negb]; [|apply T; auto]. destruct tm; cbn [negb]; [|apply T; auto].
    match goal with |- context [spawn now l ?w] => assert (Z := S l w L R); destruct (spawn now l w) as [v' []] end; cbn [fst] in Z; [exact Z|]. destruct Z. apply T; auto.
  - destruct (v_pid v); [exact Tv| |]; apply T; auto.
  - destruct (v_timer v) as [[t|]|] eqn:Et; try exact Tv. destruct (t <=? now); [|exact Tv]. unfold timer_fn. destruct (v_pid v) as [| |q] eqn:Ep.
    + unfold disarm. rewrite Et. exact Tv.
    + assert (Z := S l v L R). destruct (spawn now l v) as [v' []]; cbn [fst] in Z; unfold arm; [destruct (v_timer v'); exact Z|].
      destruct (rl_test (v_exec v') now) as [r b]. sups. destruct (v_timer v'); exact Z.
    + assert (G := timer_glob v n t I Et). destruct (Setup_Model.u_run _); [unfold disarm; rewrite Et; exact Tv|]. unfold open_. destruct o.
      * unfold drop_glob. rewrite G. unfold disarm. sups. rewrite Et. split; auto.
      * rewrite (arm_timer _ _ (Some t)) by exact Et. exact Tv.
  - destruct (v_child v) as [q|] eqn:Ec; [|exact Tv]. assert (P := i_child _ _ I _ Ec). assert (M : v_pid v <> Unmanaged) by congruence.
    destruct (man_timer v n I M) as [y Hy]. exact (F v y Hy L R).
  - destruct (v_glob v) as [g|] eqn:Eg; [|exact Tv]. assert (M : v_pid v <> Unmanaged) by (apply (glob_man v n I); congruence). destruct (man_timer v n I M) as [y Hy].
    unfold global_hup. destruct (failed_all now (set_gfd false v) y Hy) as (_ & _ & T1 & _). destruct (F (set_gfd false v) y Hy L R) as [E1 E2].
    destruct (v_dev v); [split; auto|apply (F _ _ T1); auto|split; auto].
  - destruct (v_dev v) eqn:Ed; try exact Tv. assert (G : v_glob v <> None) by (intros H; destruct (i_none _ _ I H) as [H' _]; congruence).
    destruct (man_timer v n I (glob_man v n I G)) as [y Hy]. apply (F v y); auto.
  - destruct (v_glob v) as [[]|] eqn:Eg; try exact Tv. assert (M : v_pid v <> Unmanaged) by (apply (glob_man v n I); congruence). destruct (man_timer v n I M) as [y Hy].
    destruct r; cbn [global_attach_fn]; try (apply (F _ y); auto; fail); exact Tv.
  - destruct (v_dev v) as [| |[]] eqn:Ed; try exact Tv. assert (G : v_glob v <> None) by (intros H; destruct (i_none _ _ I H) as [H' _]; congruence).
    destruct (man_timer v n I (glob_man v n I G)) as [y Hy]. unfold dev_attach_fn. destruct ok; [exact Tv|apply (F v y); auto].
  - destruct (v_glob v) as [[]|] eqn:Eg; try exact Tv. destruct (Setup_Model.u_wait _) as [|k w]; [exact Tv|]. unfold tidy. sups. rewrite L, R. unfold lost_refs. rewrite Q. destruct k; auto.
Qed.
Lemma freed_all es : abandoned fresh es + 4 < two64 -> Forall no_p2p es -> v_left (run fresh es) = [].
Proof. intros H HQ. apply (reach_ind tidy no_p2p); auto; [split; reflexivity|exact tidy_step]. Qed.

(** ** C123: failures counted *)
Lemma failures_app l l' : failures (l ++ l') = failures l + failures l'.
Proof. induction l as [|a l IH]; cbn [app failures]; [reflexivity|]. rewrite IH. lia. Qed.
Lemma failures_killed now v : failures (killed now v) = 0.
Proof. unfold killed. destruct (v_pid v); reflexivity. Qed.
Lemma failed_failures now v y : v_timer v = Some y -> failures (v_acts (failed now v)) = failures (v_acts v) + 1.
Proof.
  intros Hy. destruct (failed_all now v y Hy) as (_ & _ & _ & _ & _ & _ & _ & _ & _ & _ & _ & _ & _ & _ & -> & _).
  rewrite failures_app, failures_killed. cbn [failures]. lia.
Qed.
Lemma stop_failures now v : failures (v_acts (stop now v)) = failures (v_acts v).
Proof. destruct (stop_all now v) as (_ & _ & _ & _ & _ & _ & _ & _ & _ & _ & _ & _ & _ & _ & -> & _). rewrite failures_app, failures_killed. reflexivity. Qed.
Lemma spawn_failures now l v : failures (v_acts (fst (spawn now l v))) = failures (v_acts v).
Proof. unfold spawn. destruct (v_pid v), (l_find l), (l_fork l), (l_watch l); cbn [negb]; sups; reflexivity. Qed.
Lemma counted_failures es now e : abandoned fresh es + 4 < two64 -> let v := run fresh es in
  failures (v_acts (step v (now, e))) = failures (v_acts v) + (if ends v e then match e, v_dev v with GlobalHup, Shared => 2 | _, _ => 1 end else 0).
Proof.
  intros H v. assert (I := inv_reach es H). fold v in I. revert I. generalize (abandoned fresh es) as n, v. clear. intros n v I.
  destruct e as [cf tm l| |l o| | | |r|ok|a]; unfold step; cbn [fst snd ends]; rewrite ?N.add_0_r.
  - unfold start. destruct (v_pid v) eqn:Ep; [|reflexivity|reflexivity]. destruct cf; cbn [negb]; [|rewrite stop_failures; reflexivity]. destruct tm; cbn [negb]; [|rewrite stop_failures; reflexivity].
    match goal with |- context [spawn now l ?w] => assert (Z := spawn_failures now l w); destruct (spawn now l w) as [v' []] end; cbn [fst] in Z; [exact Z|]. rewrite stop_failures. exact Z.
  - destruct (v_pid v); rewrite ?stop_failures; reflexivity.
  - destruct (v_timer v) as [[t|]|] eqn:Et; try reflexivity. destruct (t <=? now); [|reflexivity]. unfold timer_fn. destruct (v_pid v) as [| |q] eqn:Ep.
    + destruct (disarm_fields v) as (-> & _). reflexivity.
    + assert (Z := spawn_failures now l v). destruct (spawn now l v) as [v' []]; cbn [fst] in Z.
      * destruct (arm_fields (wrap64 (now + 200 * 1000)) v') as (-> & _). exact Z.
      * destruct (rl_test (v_exec v') now) as [r b]. match goal with |- context [arm ?t ?w] => destruct (arm_fields t w) as (-> & _) end. exact Z.
    + destruct (Setup_Model.u_run _); [destruct (disarm_fields v) as (-> & _); reflexivity|]. unfold open_. destruct o.
      * match goal with |- context [disarm ?w] => destruct (disarm_fields w) as (-> & _) end. sups. destruct (drop_fields v) as (-> & _). reflexivity.
      * match goal with |- context [arm ?t ?w] => destruct (arm_fields t w) as (-> & _) end. reflexivity.
  - destruct (v_child v) as [q|] eqn:Ec; [|lia]. assert (P := i_child _ _ I _ Ec). assert (M : v_pid v <> Unmanaged) by congruence.
    destruct (man_timer v n I M) as [y Hy]. sups. cbn [failures]. rewrite (failed_failures now v y Hy). lia.
  - destruct (v_glob v) as [g|] eqn:Eg; [|destruct (v_dev v); lia]. assert (M : v_pid v <> Unmanaged) by (apply (glob_man v n I); congruence). destruct (man_timer v n I M) as [y Hy].
    unfold global_hup. destruct (failed_all now (set_gfd false v) y Hy) as (_ & _ & T1 & _). assert (F1 := failed_failures now (set_gfd false v) y Hy). sups.
    destruct (v_dev v); [exact F1| |exact F1]. rewrite (failed_failures _ _ _ T1), F1. lia.
  - destruct (v_dev v) eqn:Ed; try lia. assert (G : v_glob v <> None) by (intros H; destruct (i_none _ _ I H) as [H' _]; congruence).
    destruct (man_timer v n I (glob_man v n I G)) as [y Hy]. rewrite (failed_failures now v y Hy). reflexivity.
  - destruct (v_glob v) as [[]|] eqn:Eg; try (destruct r; lia). assert (M : v_pid v <> Unmanaged) by (apply (glob_man v n I); congruence). destruct (man_timer v n I M) as [y Hy].
    destruct r; cbn [global_attach_fn]; rewrite ?(failed_failures now _ y) by exact Hy; unfold started; sups; lia.
  - destruct (v_dev v) as [| |[]] eqn:Ed; try (destruct ok; lia). assert (G : v_glob v <> None) by (intros H; destruct (i_none _ _ I H) as [H' _]; congruence).
    destruct (man_timer v n I (glob_man v n I G)) as [y Hy]. unfold dev_attach_fn. destruct ok; [unfold started; sups; lia|rewrite (failed_failures now v y Hy); reflexivity].
  - destruct (v_glob v) as [[]|] eqn:Eg; try reflexivity. destruct (Setup_Model.u_wait _); reflexivity.
Qed.
(** When the next attempt is made after a failure. *)
Definition retry (now : N) (v : sup) : Prop := v_pid v = Grace /\ exists b pre rest, v_acts v = pre ++ Failure b now :: rest /\ failures pre = 0
  /\ v_timer v = Some (Some (now + (if b then 200 * 1000 else 30 * 1000 * 1000))).
Lemma failed_retry now v y : now + 200 * 1000 * 1000 < 2 ^ 64 -> v_timer v = Some y -> retry now (failed now v).
Proof.
  intros H Hy. destruct (failed_all now v y Hy) as (P & _ & T & _ & _ & _ & _ & _ & _ & _ & _ & _ & _ & _ & A & _). split; [exact P|].
  exists (admits now v), (killed now v), (v_acts v). conjs; [exact A|apply failures_killed|]. rewrite T, wrap_small; [destruct (admits now v); reflexivity|exact H|destruct (admits now v); unfold delay; lia].
Qed.
Lemma retry_after es now e : abandoned fresh es + 4 < two64 -> now + 200 * 1000 * 1000 < 2 ^ 64 -> ends (run fresh es) e = true -> retry now (step (run fresh es) (now, e)).
Proof.
  intros H Hn He. assert (I := inv_reach es H). revert I He. generalize (abandoned fresh es) as n, (run fresh es) as v. clear - Hn. intros n v I He.
  assert (D : v_dev v <> NoDev -> v_pid v <> Unmanaged) by (intros Hd; apply (glob_man v n I); intros H; destruct (i_none _ _ I H) as [H' _]; congruence).
  destruct e as [cf tm l| |l o| | | |r|ok|a]; unfold step; cbn [fst snd ends] in *; try discriminate.
  - destruct (v_child v) as [q|] eqn:Ec; [|discriminate]. assert (P := i_child _ _ I _ Ec). assert (M : v_pid v <> Unmanaged) by congruence.
    destruct (man_timer v n I M) as [y Hy]. destruct (failed_retry now v y Hn Hy) as (Pg & b & pre & rest & A & F & T). split; [exact Pg|]. exists b, (Reap q now :: pre), rest. sups. rewrite A. conjs; auto.
  - destruct (v_glob v) as [g|] eqn:Eg; [|discriminate]. assert (M : v_pid v <> Unmanaged) by (apply (glob_man v n I); congruence). destruct (man_timer v n I M) as [y Hy].
    unfold global_hup. destruct (failed_all now (set_gfd false v) y Hy) as (_ & _ & T1 & _). destruct (v_dev v); [|eapply failed_retry; [exact Hn|exact T1]|]; (apply (failed_retry now (set_gfd false v) y Hn Hy)).
  - destruct (v_dev v) eqn:Ed; try discriminate. destruct (man_timer v n I) as [y Hy]; [apply D; congruence|]. apply (failed_retry now v y Hn Hy).
  - destruct r; try discriminate; (destruct (v_glob v) as [[]|] eqn:Eg; try discriminate; assert (M : v_pid v <> Unmanaged) by (apply (glob_man v n I); congruence); destruct (man_timer v n I M) as [y Hy];
      cbn [global_attach_fn]; apply (failed_retry now (set_glob (Some false) v) y Hn Hy)).
  - destruct ok; [discriminate|]. destruct (v_dev v) as [| |[]] eqn:Ed; try discriminate. destruct (man_timer v n I) as [y Hy]; [apply D; congruence|]. unfold dev_attach_fn. apply (failed_retry now v y Hn Hy).
Qed.
