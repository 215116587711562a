From Verif Require Import Base Ratelimit_Model Super_Model Super_Spec.
From Verif Require Setup_Model Setup_Proofs.

Notation u_wait := Setup_Model.u_wait.
Notation u_run := Setup_Model.u_run.
Notation counted := Setup_Proofs.counted.
Notation settled := Setup_Proofs.settled.
Notation work := Setup_Proofs.work.

Ltac sups := cbn [v_pid v_child v_timer v_restart v_exec v_open v_conf v_ctrl v_glob v_gfd v_leak v_dev v_setup v_procs v_left v_next v_acts
  set_pid set_child set_timer set_restart set_exec set_open set_conf set_ctrl set_glob set_gfd set_leak set_dev set_setup set_procs set_left set_next set_acts
  note fst snd] in *.

Ltac conjs := repeat match goal with |- _ /\ _ => split end.

(** ** What failures and stops leave *)
Definition delay (b : bool) : N := if b then 200 * 1000 else 30 * 1000 * 1000.
Definition admits (now : N) (v : sup) : bool := snd (rl_test (v_restart v) now).
Definition killed (now : N) (v : sup) : list act := match v_pid v with Proc p => [Kill p now] | _ => [] end.
Definition freed (v : sup) : list bool := match v_glob v with Some _ => if 0 <? v_leak v then v_gfd v :: v_left v else v_left v | None => v_left v end.

Lemma failed_all now v x : v_timer v = Some x ->
  let v' := failed now v in
  v_pid v' = Grace /\ v_child v' = None /\ v_timer v' = Some (Some (wrap64 (delay (admits now v) + now)))
  /\ v_restart v' = fst (rl_test (v_restart v) now) /\ v_exec v' = v_exec v /\ v_open v' = v_open v /\ v_conf v' = v_conf v /\ v_ctrl v' = v_ctrl v
  /\ v_glob v' = None /\ v_dev v' = NoDev /\ v_setup v' = Setup_Model.failed (v_setup v) /\ v_procs v' = v_procs v /\ v_left v' = freed v
  /\ v_next v' = v_next v /\ v_acts v' = killed now v ++ Failure (admits now v) now :: v_acts v
  /\ (v_glob v <> None \/ v_leak v = 0 /\ v_gfd v = false -> v_leak v' = 0 /\ v_gfd v' = false).
Proof.
  intros Ht v'. unfold v', failed, admits, killed, freed, arm, close, stopped, drop_glob, kill, delay. clear v'.
  destruct (rl_test (v_restart v) now) as [r b]. sups. rewrite Ht. sups.
  destruct (v_pid v); sups; destruct (v_glob v) eqn:Eg; sups; try (destruct (0 <? v_leak v)); sups; destruct b; conjs;
    try (intros [H|H]; [congruence|exact H]); auto.
Qed.
Lemma stop_all now v :
  let v' := stop now v in
  v_pid v' = Unmanaged /\ v_child v' = None /\ v_timer v' = None
  /\ v_restart v' = v_restart v /\ v_exec v' = v_exec v /\ v_open v' = v_open v /\ v_conf v' = false /\ v_ctrl v' = false
  /\ v_glob v' = None /\ v_dev v' = NoDev /\ v_setup v' = Setup_Model.failed (v_setup v) /\ v_procs v' = v_procs v /\ v_left v' = freed v
  /\ v_next v' = v_next v /\ v_acts v' = killed now v ++ v_acts v
  /\ (v_glob v <> None \/ v_leak v = 0 /\ v_gfd v = false -> v_leak v' = 0 /\ v_gfd v' = false).
Proof.
  intros v'. unfold v', stop, killed, freed, close, stopped, drop_glob, kill. clear v'.
  destruct (v_glob v) eqn:Eg; sups; rewrite ?Eg; try (destruct (0 <? v_leak v)); sups; destruct (v_pid v); sups; conjs;
    try (intros [H|H]; [congruence|exact H]); auto.
Qed.

(** ** Invariant; [n] requests were abandoned *)
Record Inv (v : sup) (n : N) : Prop := mkInv {
  i_un : v_pid v = Unmanaged -> v_timer v = None /\ v_child v = None /\ v_glob v = None /\ v_conf v = false /\ v_ctrl v = false;
  i_man : v_pid v <> Unmanaged -> v_timer v <> None /\ v_conf v = true /\ v_ctrl v = true;
  i_armed : v_pid v <> Unmanaged -> v_glob v = None -> exists t, v_timer v = Some (Some t);
  i_off : v_glob v <> None -> v_timer v = Some None /\ exists p, v_pid v = Proc p;
  i_none : v_glob v = None -> v_dev v = NoDev /\ u_wait (v_setup v) = [] /\ u_run (v_setup v) = false /\ v_leak v = 0 /\ v_gfd v = false;
  i_att : v_glob v = Some true -> v_dev v = NoDev /\ u_wait (v_setup v) = [] /\ u_run (v_setup v) = false;
  i_dev : v_glob v = Some false -> v_dev v <> NoDev /\ (v_dev v = Own true -> u_wait (v_setup v) = [] /\ u_run (v_setup v) = false)
    /\ (v_dev v <> Own true -> settled (v_setup v));
  i_child : forall p, v_child v = Some p -> v_pid v = Proc p;
  i_cnt : counted (v_setup v) n;
  i_work : (work (u_wait (v_setup v)) <= 4)%nat }.

Lemma counted_failed u n : counted u n -> counted (Setup_Model.failed u) (n + lenN (u_wait u)).
Proof. exact (Setup_Proofs.counted_step u n Setup_Model.Failed). Qed.
Lemma inv_failed now v n x : v_timer v = Some x -> v_conf v = true -> v_ctrl v = true -> counted (v_setup v) n ->
  (v_glob v <> None \/ v_leak v = 0 /\ v_gfd v = false) ->
  Inv (failed now v) (n + lenN (u_wait (v_setup v))).
Proof.
  intros Ht Hc1 Hc2 Hn Hl. destruct (failed_all now v x Ht) as (P & C & T & _ & _ & _ & C1 & C2 & G & D & S & _ & _ & _ & _ & L).
  specialize (L Hl). constructor; rewrite ?P, ?C, ?T, ?C1, ?C2, ?G, ?D, ?S; try congruence; auto.
  all: try (intros _; destruct L; conjs; auto; discriminate).
  all: try (intros _ _; eauto; fail).
  all: try (apply counted_failed, Hn).
  all: try (simpl; lia).
Qed.
Lemma inv_stop now v n : counted (v_setup v) n -> (v_glob v <> None \/ v_leak v = 0 /\ v_gfd v = false) ->
  Inv (stop now v) (n + lenN (u_wait (v_setup v))).
Proof.
  intros Hn Hl. destruct (stop_all now v) as (P & C & T & _ & _ & _ & C1 & C2 & G & D & S & _ & _ & _ & _ & L).
  specialize (L Hl). constructor; rewrite ?P, ?C, ?T, ?C1, ?C2, ?G, ?D, ?S; try congruence; auto.
  all: try (intros _; destruct L; conjs; auto; discriminate).
  all: try (apply counted_failed, Hn).
  all: try (simpl; lia).
Qed.
Lemma inv_glob v n : Inv v n -> v_glob v <> None \/ v_leak v = 0 /\ v_gfd v = false.
Proof. intros I. destruct (v_glob v) eqn:Eg; [left; discriminate|]. right. destruct (i_none _ _ I Eg) as (_ & _ & _ & L). exact L. Qed.

Lemma spawn_all now l v : v_pid v = Unmanaged \/ v_pid v = Grace ->
  let v' := fst (spawn now l v) in
  let did := l_find l && l_fork l in
  snd (spawn now l v) = did && l_watch l
  /\ v_pid v' = (if did then Proc (v_next v) else v_pid v) /\ v_child v' = (if did then (if l_watch l then Some (v_next v) else None) else v_child v)
  /\ v_timer v' = v_timer v /\ v_restart v' = v_restart v /\ v_exec v' = v_exec v /\ v_open v' = (if did then 0 else v_open v)
  /\ v_conf v' = v_conf v /\ v_ctrl v' = v_ctrl v /\ v_glob v' = v_glob v /\ v_gfd v' = v_gfd v /\ v_leak v' = v_leak v /\ v_dev v' = v_dev v
  /\ v_setup v' = v_setup v /\ v_procs v' = (if did then v_next v :: v_procs v else v_procs v) /\ v_left v' = v_left v
  /\ v_next v' = (if did then v_next v + 1 else v_next v) /\ v_acts v' = (if did then Launch (v_next v) now :: v_acts v else v_acts v).
Proof.
  intros Hp v' did. unfold v', did, spawn. clear v' did. destruct Hp as [Hp|Hp]; rewrite Hp;
    destruct (l_find l), (l_fork l); cbn [negb andb fst snd]; try (repeat split; auto; fail); destruct (l_watch l); sups; repeat split; auto.
Qed.
Lemma arm_timer t v x : v_timer v = Some x -> arm t v = set_timer (Some (Some t)) v.
Proof. intros H. unfold arm. rewrite H. reflexivity. Qed.
Lemma disarm_timer v x : v_timer v = Some x -> disarm v = set_timer (Some None) v.
Proof. intros H. unfold disarm. rewrite H. reflexivity. Qed.

Definition term (v : sup) (e : N * event) : N := match v_glob (step v e) with None => lenN (u_wait (v_setup v)) | Some _ => 0 end.

(** A step that keeps the connection and the setup. *)
Lemma inv_same v n : Inv v n -> forall v', v_glob v' = None -> v_glob v = None -> v_dev v' = v_dev v -> v_setup v' = v_setup v -> v_leak v' = v_leak v -> v_gfd v' = v_gfd v ->
  v_pid v' <> Unmanaged -> (exists t, v_timer v' = Some (Some t)) -> v_conf v' = true -> v_ctrl v' = true -> (forall p, v_child v' = Some p -> v_pid v' = Proc p) -> Inv v' n.
Proof.
  intros I v' G' G D S L F P [t T] C1 C2 Hc. destruct (i_none _ _ I G) as (A1 & A2 & A3 & A4 & A5).
  constructor; rewrite ?D, ?S, ?L, ?F, ?T, ?C1, ?C2; try congruence; auto.
  all: try (intros _; conjs; auto; discriminate).
  all: try (intros _ _; eauto; fail).
  all: try (exact (i_cnt _ _ I)).
  all: try (exact (i_work _ _ I)).
Qed.
Lemma wait_none v n : Inv v n -> v_glob v = None -> lenN (u_wait (v_setup v)) = 0.
Proof. intros I G. destruct (i_none _ _ I G) as (_ & -> & _). reflexivity. Qed.

Lemma inv_timer now l o v n x : Inv v n -> v_timer v = Some (Some x) -> Inv (timer_fn now l o v) n.
Proof.
  intros I Ht. assert (G : v_glob v = None).
  { destruct (v_glob v) as [g|] eqn:Eg; [|auto]. destruct (i_off _ _ I) as [H _]; congruence. }
  assert (M : v_pid v <> Unmanaged) by (intros H; destruct (i_un _ _ I H) as [H' _]; congruence).
  destruct (i_man _ _ I M) as (_ & C1 & C2). destruct (i_none _ _ I G) as (A1 & A2 & A3 & A4 & A5).
  unfold timer_fn. destruct (v_pid v) as [| |p] eqn:Ep; [congruence| |].
  - destruct (spawn_all now l v (or_intror Ep)) as (Hs & P & Hc & T & _ & _ & _ & K1 & K2 & G' & F' & L' & D' & S' & _).
    destruct (spawn now l v) as [v' ok]. cbn [fst snd] in *. assert (T' := Ht). rewrite <- T in T'.
    assert (Hc' : forall p, v_child v' = Some p -> v_pid v' = Proc p).
    { intros p. rewrite Hc, P. destruct (l_find l && l_fork l); [destruct (l_watch l); congruence|]. intros H. exact (eq_trans Ep (eq_sym Ep)) || (apply (i_child _ _ I) in H; congruence). }
    assert (P' : v_pid v' <> Unmanaged) by (rewrite P, ?Ep; destruct (l_find l && l_fork l); discriminate).
    destruct ok; [|destruct (rl_test (v_exec v') now) as [r b]; cbn iota beta].
    + rewrite (arm_timer _ _ _ T'). apply (inv_same v n I); sups; auto; try congruence. eauto.
    + rewrite (arm_timer _ _ (Some x)) by exact T'. apply (inv_same v n I); sups; auto; try congruence. eauto.
  - rewrite A3. unfold open_. destruct o.
    + rewrite (disarm_timer _ (Some x)); unfold drop_glob; rewrite G; sups; [|exact Ht].
      constructor; sups; try congruence; auto.
      all: try (intros _; conjs; eauto; discriminate).
      all: try (exact (i_cnt _ _ I)).
      all: try (exact (i_work _ _ I)).
      all: try (exact (i_child _ _ I)).
    + rewrite (arm_timer _ _ (Some x)) by exact Ht. apply (inv_same v n I); sups; auto; try congruence; [eauto|exact (i_child _ _ I)].
Qed.

Lemma setup_started_wait u : u_wait u = [] -> u_wait (Setup_Model.started u) = [Setup_Model.KStatus].
Proof. intros H. unfold Setup_Model.started. rewrite Setup_Proofs.ready_wait. simpl. rewrite H. reflexivity. Qed.
Lemma inv_stop0 now v n : counted (v_setup v) n -> u_wait (v_setup v) = [] -> v_leak v = 0 /\ v_gfd v = false -> Inv (stop now v) n.
Proof.
  intros Hc Hw Hl. assert (H := inv_stop now v n Hc (or_intror Hl)). rewrite Hw in H. change (lenN []) with 0 in H. rewrite N.add_0_r in H. exact H.
Qed.
Lemma inv_start now cf tm l v n : Inv v n -> Inv (start now cf tm l v) n.
Proof.
  intros I. unfold start. destruct (v_pid v) eqn:Ep; [|exact I|exact I].
  destruct (i_un _ _ I Ep) as (T & Ch & G & C1 & C2). destruct (i_none _ _ I G) as (A1 & A2 & A3 & A4 & A5).
  destruct cf; cbn [negb]; [|apply inv_stop0; sups; auto; exact (i_cnt _ _ I)].
  destruct tm; cbn [negb]; [|apply inv_stop0; sups; auto; exact (i_cnt _ _ I)].
  match goal with |- context [spawn now l ?w] => set (w0 := w) end.
  assert (Ep0 : v_pid w0 = Unmanaged) by exact Ep.
  destruct (spawn_all now l w0 (or_introl Ep0)) as (Hs & P & Hc & T' & _ & _ & _ & K1 & K2 & G' & F' & L' & D' & S' & _).
  destruct (spawn now l w0) as [v' ok]. cbn [fst snd] in *. unfold w0 in *. clear w0. sups. destruct ok.
  - symmetry in Hs. apply andb_prop in Hs. destruct Hs as [Hs1 Hs2]. rewrite Hs1, Hs2 in *.
    apply (inv_same v n I); auto; try congruence. rewrite T'. eauto.
  - apply inv_stop0; rewrite ?S'; auto; [exact (i_cnt _ _ I)|]. split; congruence.
Qed.

Lemma inv_started v n : Inv v n -> v_glob v = Some false -> v_dev v = Own true ->
  forall d, d <> NoDev -> d <> Own true -> Inv (started (set_dev d v)) n.
Proof.
  intros I G D d Hd1 Hd2. destruct (i_dev _ _ I G) as (_ & A & _). destruct (A D) as [A1 A2]. destruct (i_off _ _ I) as [T [p P]]; [congruence|].
  unfold started. constructor; sups; try congruence; auto.
  - intros H. apply (i_man _ _ I H).
  - intros _. eauto.
  - intros _. split; [auto|]. split; [congruence|]. intros _. apply Setup_Proofs.settled_ready. left. exact A2.
  - exact (i_child _ _ I).
  - apply Setup_Proofs.counted_ready, Setup_Proofs.counted_request, (i_cnt _ _ I).
  - rewrite (setup_started_wait _ A1). simpl. lia.
Qed.
Lemma inv_attached v n : Inv v n -> v_glob v = Some true -> Inv (set_dev (Own true) (set_glob (Some false) v)) n.
Proof.
  intros I G. destruct (i_att _ _ I G) as (D & A1 & A2). destruct (i_off _ _ I) as [T [p P]]; [congruence|].
  constructor; sups; try congruence; auto.
  - intros H. apply (i_man _ _ I H).
  - intros _. eauto.
  - intros _. split; [congruence|]. split; [auto|congruence].
  - exact (i_child _ _ I).
  - exact (i_cnt _ _ I).
  - exact (i_work _ _ I).
Qed.
Lemma inv_gfd v n : Inv v n -> v_glob v <> None -> Inv (set_gfd false v) n.
Proof. intros I G. destruct I as [I1 I2 I3 I4 I5 I6 I7 I8 I9 I10]. constructor; sups; auto; intros H. contradiction. Qed.
Lemma failed_wait now v x : v_timer v = Some x -> u_wait (v_setup (failed now v)) = [].
Proof. intros H. destruct (failed_all now v x H) as (_ & _ & _ & _ & _ & _ & _ & _ & _ & _ & -> & _). reflexivity. Qed.
Lemma failed_glob now v x : v_timer v = Some x -> v_glob (failed now v) = None.
Proof. intros H. apply (failed_all now v x H). Qed.
Lemma inv_failed' now v n : Inv v n -> v_pid v <> Unmanaged -> Inv (failed now v) (n + lenN (u_wait (v_setup v))).
Proof.
  intros I M. destruct (i_man _ _ I M) as (T & C1 & C2). destruct (v_timer v) as [x|] eqn:Et; [|congruence].
  apply (inv_failed now v n x Et C1 C2 (i_cnt _ _ I) (inv_glob _ _ I)).
Qed.
Lemma man_timer v n : Inv v n -> v_pid v <> Unmanaged -> exists x, v_timer v = Some x.
Proof. intros I M. destruct (i_man _ _ I M) as [T _]. destruct (v_timer v); eauto. congruence. Qed.
Lemma glob_man v n : Inv v n -> v_glob v <> None -> v_pid v <> Unmanaged.
Proof. intros I G. destruct (i_off _ _ I G) as [_ [p ->]]. discriminate. Qed.

Lemma timer_glob v n x : Inv v n -> v_timer v = Some (Some x) -> v_glob v = None.
Proof. intros I Ht. destruct (v_glob v) as [g|] eqn:Eg; [|auto]. destruct (i_off _ _ I) as [H _]; congruence. Qed.

Lemma inv_step v n e : Inv v n -> n + 4 < two64 -> Inv (step v e) (n + term v e).
Proof.
  intros I Hb. destruct e as [now e]. unfold term.
  assert (Z : forall v', Inv v' n -> (v_glob v' = None -> v_glob v = None) -> Inv v' (n + match v_glob v' with None => lenN (u_wait (v_setup v)) | Some _ => 0 end)).
  { intros v' I' Hg. destruct (v_glob v') eqn:Eg; [rewrite N.add_0_r; exact I'|]. rewrite (wait_none v n I (Hg eq_refl)), N.add_0_r. exact I'. }
  assert (Y : forall v' w, w = u_wait (v_setup v) -> Inv v' (n + lenN w) -> v_glob v' = None -> Inv v' (n + match v_glob v' with None => lenN (u_wait (v_setup v)) | Some _ => 0 end)).
  { intros v' w -> I' ->. exact I'. }
  destruct e as [cf tm l| |l o| | | |r|ok|a]; unfold step; cbn [fst snd].
  - apply Z; [apply inv_start, I|]. unfold start. destruct (v_pid v) eqn:Ep; [|auto|auto]. intros _. apply (i_un _ _ I Ep).
  - destruct (v_pid v) eqn:Ep; [apply Z; auto| |];
      (apply (Y _ _ eq_refl); [apply inv_stop; [exact (i_cnt _ _ I)|exact (inv_glob _ _ I)]|apply stop_all]).
  - destruct (v_timer v) as [[t|]|] eqn:Et; try (apply Z; [exact I|congruence]). destruct (t <=? now); [|apply Z; auto].
    apply Z; [apply (inv_timer _ _ _ _ _ _ I Et)|]. intros _. apply (timer_glob v n t I Et).
  - destruct (v_child v) as [p|] eqn:Ec; [|apply Z; auto]. assert (M : v_pid v <> Unmanaged) by (rewrite (i_child _ _ I _ Ec); discriminate).
    destruct (man_timer v n I M) as [x T]. assert (I' := inv_failed' now v n I M). assert (G := failed_glob now v x T).
    apply (Y _ _ eq_refl); [|sups; exact G]. destruct I' as [I1 I2 I3 I4 I5 I6 I7 I8 I9 I10]. constructor; sups; auto.
  - destruct (v_glob v) as [g|] eqn:Eg; [|apply Z; auto]. assert (G : v_glob v <> None) by congruence. assert (M := glob_man v n I G).
    assert (Ig := inv_gfd v n I G). assert (M' : v_pid (set_gfd false v) <> Unmanaged) by exact M.
    destruct (man_timer v n I M) as [x T]. assert (I1 := inv_failed' now _ n Ig M'). unfold global_hup.
    assert (G1 : v_glob (failed now (set_gfd false v)) = None) by (apply (failed_glob now _ x); exact T).
    destruct (v_dev v).
    + apply (Y _ _ eq_refl I1 G1).
    + assert (M1 : v_pid (failed now (set_gfd false v)) <> Unmanaged).
      { destruct (failed_all now (set_gfd false v) x T) as [-> _]. discriminate. }
      assert (I2 := inv_failed' now _ _ I1 M1). rewrite (failed_wait now _ x) in I2 by exact T. change (lenN []) with 0 in I2. rewrite N.add_0_r in I2.
      apply (Y _ _ eq_refl I2). destruct (man_timer _ _ I1 M1) as [x' T']. apply (failed_glob now _ x'). exact T'.
    + apply (Y _ _ eq_refl I1 G1).
  - destruct (v_dev v) eqn:Ed; try (apply Z; [exact I|congruence]).
    assert (G : v_glob v <> None) by (intros H; destruct (i_none _ _ I H) as [H' _]; congruence). assert (M := glob_man v n I G).
    destruct (man_timer v n I M) as [x T]. apply (Y _ _ eq_refl (inv_failed' now v n I M)). apply (failed_glob now _ x T).
  - destruct (v_glob v) as [[]|] eqn:Eg; try (apply Z; [exact I|congruence]).
    assert (M : v_pid v <> Unmanaged) by (apply (glob_man v n I); congruence). destruct (man_timer v n I M) as [x T].
    assert (I1 := inv_attached v n I Eg).
    assert (F : forall q, Inv (failed now (set_glob (Some q) v)) (n + lenN (u_wait (v_setup v)))).
    { intros q. destruct (i_man _ _ I M) as (_ & C1 & C2). apply (inv_failed now (set_glob (Some q) v) n x T C1 C2 (i_cnt _ _ I)). left. discriminate. }
    destruct r; cbn [global_attach_fn].
    + apply (Y _ _ eq_refl (F _)). apply (failed_glob now _ x). exact T.
    + assert (I2 := inv_started _ n I1 eq_refl eq_refl Shared). apply Z; [|discriminate]. apply I2; discriminate.
    + apply (Y _ _ eq_refl (F _)). apply (failed_glob now _ x). exact T.
    + apply Z; [exact I1|discriminate].
  - destruct (v_dev v) as [| |[]] eqn:Ed; try (apply Z; [exact I|congruence]).
    assert (Gn : v_glob v <> None) by (intros H; destruct (i_none _ _ I H) as [H' _]; congruence).
    assert (G : v_glob v = Some false) by (destruct (v_glob v) as [[]|] eqn:Eg; [destruct (i_att _ _ I Eg) as [H' _]; congruence|auto|congruence]).
    assert (M := glob_man v n I Gn). destruct (man_timer v n I M) as [x T]. unfold dev_attach_fn. destruct ok.
    + apply Z; [|unfold started; sups; congruence]. apply inv_started; auto; discriminate.
    + apply (Y _ _ eq_refl (inv_failed' now v n I M)). apply (failed_glob now _ x T).
  - destruct (v_glob v) as [[]|] eqn:Eg; try (apply Z; [exact I|congruence]). destruct (u_wait (v_setup v)) as [|k w] eqn:Ew; [apply Z; [exact I|congruence]|].
    apply Z; [|sups; congruence]. destruct (i_dev _ _ I Eg) as (D1 & D2 & D3).
    assert (D : v_dev v <> Own true) by (intros H; destruct (D2 H); congruence).
    destruct (i_off _ _ I) as [T [p P]]; [congruence|].
    constructor; sups; try congruence.
    + intros H. apply (i_man _ _ I H).
    + intros _. eauto.
    + intros _. split; [exact D1|]. split; [congruence|]. intros _. apply (Setup_Proofs.reply_settled _ _ n); [exact (i_cnt _ _ I)| |auto].
      assert (Hl := Setup_Proofs.work_len (u_wait (v_setup v))). assert (Hw := i_work _ _ I). lia.
    + exact (i_child _ _ I).
    + assert (H := Setup_Proofs.counted_step (v_setup v) n (Setup_Model.Reply a) (i_cnt _ _ I)). cbv beta iota in H. rewrite N.add_0_r in H. exact H.
    + destruct (Setup_Proofs.reply_work (v_setup v) a) as [_ H]. assert (Hw := i_work _ _ I). lia.
Qed.

Lemma inv_fresh : Inv fresh 0.
Proof. constructor; cbn; try discriminate; try congruence; auto; try (intros _; conjs; auto). reflexivity.
Qed.
Lemma inv_run es : forall v n, Inv v n -> n + abandoned v es + 4 < two64 -> Inv (run v es) (n + abandoned v es).
Proof.
  induction es as [|e es IH]; intros v n I Hb; cbn [abandoned] in *; [rewrite N.add_0_r; exact I|].
  rewrite N.add_assoc. unfold run. cbn [fold_left]. apply IH; [apply inv_step; [exact I|lia]|fold (term v e) in *; lia].
Qed.
Lemma inv_reach es : abandoned fresh es + 4 < two64 -> Inv (run fresh es) (abandoned fresh es).
Proof. intros H. rewrite <- (N.add_0_l (abandoned fresh es)). apply inv_run; [exact inv_fresh|lia]. Qed.

(** ** C117 *)
Lemma cnt_small u n : counted u n -> (work (u_wait u) <= 4)%nat -> n + 4 < two64 -> Setup_Model.u_cnt u = lenN (u_wait u) + n.
Proof.
  unfold Setup_Proofs.counted, wrap64. intros H Hw Hb. assert (Hl := Setup_Proofs.work_len (u_wait u)). rewrite N.mod_small in H; [exact H|]. lia.
Qed.
Lemma progress es : abandoned fresh es = 0 -> let v := run fresh es in managed v -> waiting v \/ ready v.
Proof.
  intros Ha v M. assert (I : Inv v 0) by (unfold v; rewrite <- Ha; apply inv_reach; rewrite Ha; reflexivity).
  unfold waiting, ready. destruct (v_glob v) as [[]|] eqn:Eg; [auto| |].
  - destruct (i_dev _ _ I Eg) as (_ & _ & S). destruct (v_dev v) as [| |[]] eqn:Ed; auto;
      (assert (S' : settled (v_setup v)) by (apply S; discriminate); destruct (u_wait (v_setup v)) eqn:Ew; [|left; right; right; right; discriminate];
       right; apply S'; rewrite (cnt_small _ 0); [rewrite Ew; reflexivity|exact (i_cnt _ _ I)|exact (i_work _ _ I)|reflexivity]).
  - left. left. apply (i_armed _ _ I M Eg).
Qed.
Lemma never_ready es es' : 0 < abandoned fresh es -> abandoned fresh (es ++ es') + 4 < two64 -> ~ ready (run fresh (es ++ es')).
Proof.
  intros Ha Hb R. assert (I := inv_reach (es ++ es') Hb). set (v := run fresh (es ++ es')) in *. unfold ready in R.
  assert (Hm : abandoned fresh es <= abandoned fresh (es ++ es')).
  { clear. generalize fresh. induction es as [|e es IH]; intros v; simpl; [lia|]. specialize (IH (step v e)). lia. }
  destruct (v_glob v) as [[]|] eqn:Eg.
  - destruct (i_att _ _ I Eg) as (_ & _ & H). congruence.
  - destruct (i_dev _ _ I Eg) as (_ & H1 & S). assert (D : v_dev v <> Own true) by (intros H; destruct (H1 H); congruence).
    apply (S D) in R. rewrite (cnt_small _ _ (i_cnt _ _ I) (i_work _ _ I) Hb) in R. lia.
  - destruct (i_none _ _ I Eg) as (_ & _ & H & _). congruence.
Qed.
