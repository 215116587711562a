From Verif Require Import Base Ratelimit_Model Ratelimit_Spec Ratelimit_Proofs Super_Model Super_Spec Super_Proofs.
From Verif Require Setup_Model.
From Coq Require Import Sorted.

(** ** C118: times of the timer *)
Lemma wrap_small now d : now + 200 * 1000 * 1000 < 2 ^ 64 -> d <= 200 * 1000 * 1000 -> wrap64 (d + now) = now + d.
Proof. intros H Hd. unfold wrap64. rewrite N.mod_small; [lia|]. unfold two64. change (2 ^ 64) with 18446744073709551616 in *. lia. Qed.
Definition within (now t : N) : Prop := now + 200 * 1000 <= t <= now + 200 * 1000 * 1000.
Lemma delay_within now b : now + 200 * 1000 * 1000 < 2 ^ 64 -> within now (wrap64 (delay b + now)).
Proof. intros H. rewrite wrap_small; [|exact H|destruct b; unfold delay; lia]. unfold within. destruct b; unfold delay; lia. Qed.
Lemma failed_timer now v : v_timer (failed now v) = match v_timer v with Some _ => Some (Some (wrap64 (delay (admits now v) + now))) | None => None end.
Proof.
  destruct (v_timer v) as [x|] eqn:Et; [apply (failed_all now v x Et)|].
  unfold failed, arm, close, stopped, drop_glob, kill. destruct (rl_test (v_restart v) now) as [r b]. sups. rewrite Et. sups.
  destruct (v_pid v); sups; destruct (v_glob v); sups; try (destruct (0 <? v_leak v)); sups; exact Et.
Qed.
Lemma failed_within now v t : now + 200 * 1000 * 1000 < 2 ^ 64 -> v_timer (failed now v) = Some (Some t) -> within now t.
Proof. intros H. rewrite failed_timer. destruct (v_timer v); [|discriminate]. intros E. injection E as <-. apply delay_within, H. Qed.
Lemma arm_some t v x : v_timer (arm t v) = Some (Some x) -> x = t.
Proof. unfold arm. destruct (v_timer v) eqn:E; sups; congruence. Qed.
Lemma disarm_some v x : v_timer (disarm v) <> Some (Some x).
Proof. unfold disarm. destruct (v_timer v) eqn:E; sups; congruence. Qed.
Lemma timer_within now l o v t : now + 200 * 1000 * 1000 < 2 ^ 64 -> v_timer (timer_fn now l o v) = Some (Some t) -> within now t.
Proof.
  intros H. unfold timer_fn. destruct (v_pid v).
  - intros E. apply disarm_some in E. contradiction.
  - destruct (spawn now l v) as [v' []].
    + intros E. apply arm_some in E. subst t. rewrite N.add_comm, wrap_small; [unfold within; lia|exact H|lia].
    + destruct (rl_test (v_exec v') now) as [r b]. intros E. apply arm_some in E. subst t. rewrite wrap_small; [unfold within; destruct b; lia|exact H|destruct b; lia].
  - destruct (Setup_Model.u_run _); [intros E; apply disarm_some in E; contradiction|]. unfold open_. destruct o.
    + intros E. apply disarm_some in E. contradiction.
    + intros E. apply arm_some in E. subst t. sups. assert (Hm : N.min (v_open v + 1) 1000 <= 1000 /\ 1 <= N.min (v_open v + 1) 1000) by lia.
      remember (N.min (v_open v + 1) 1000) as m. rewrite wrap_small; [unfold within; lia|exact H|lia].
Qed.
Lemma start_within now cf tm l v t : now + 200 * 1000 * 1000 < 2 ^ 64 -> v_timer (start now cf tm l v) = Some (Some t) -> v_timer v = Some (Some t) \/ within now t.
Proof.
  intros H. unfold start. destruct (v_pid v) eqn:Ep; auto. destruct cf; cbn [negb]; [|intros E; destruct (stop_all now (set_ctrl true (set_exec (rl_reset (v_exec v)) (set_restart (rl_reset (v_restart v)) v)))) as (_ & _ & T & _); congruence].
  destruct tm; cbn [negb].
  2:{ match goal with |- v_timer (stop now ?w) = _ -> _ => destruct (stop_all now w) as (_ & _ & T & _) end. congruence. }
  match goal with |- context [spawn now l ?w] => set (w0 := w) end. assert (Ep0 : v_pid w0 = Unmanaged) by exact Ep.
  destruct (spawn_all now l w0 (or_introl Ep0)) as (_ & _ & _ & T & _). destruct (spawn now l w0) as [v' []]; cbn [fst] in T.
  - rewrite T. unfold w0. sups. intros E. injection E as <-. right. rewrite N.add_comm, wrap_small; [unfold within; lia|exact H|lia].
  - destruct (stop_all now v') as (_ & _ & T' & _). congruence.
Qed.
Lemma timer_range v now e t : now + 200 * 1000 * 1000 < 2 ^ 64 -> v_timer (step v (now, e)) = Some (Some t) -> v_timer v = Some (Some t) \/ within now t.
Proof.
  intros H. destruct e as [cf tm l| |l o| | | |r|ok|a]; unfold step; cbn [fst snd].
  - apply start_within, H.
  - destruct (v_pid v); [auto| |]; (destruct (stop_all now v) as (_ & _ & T & _); congruence).
  - destruct (v_timer v) as [[x|]|] eqn:Et; try (left; congruence). destruct (x <=? now); [|left; congruence]. intros E. right. apply (timer_within _ _ _ _ _ H E).
  - destruct (v_child v); auto. intros E. right. sups. apply (failed_within _ _ _ H E).
  - destruct (v_glob v); auto. unfold global_hup. destruct (v_dev v); intros E; right; apply (failed_within _ _ _ H E).
  - destruct (v_dev v); auto. intros E. right. apply (failed_within _ _ _ H E).
  - destruct (v_glob v) as [[]|]; auto. destruct r; cbn [global_attach_fn]; auto; intros E; right; apply (failed_within _ _ _ H E).
  - destruct (v_dev v) as [| |[]]; auto. unfold dev_attach_fn. destruct ok; auto. intros E. right. apply (failed_within _ _ _ H E).
  - destruct (v_glob v) as [[]|]; auto. destruct (Setup_Model.u_wait _); auto.
Qed.
(** Attempts to connect. *)
Lemma backoff es now l p t : abandoned fresh es + 4 < two64 -> now + 200 * 1000 * 1000 < 2 ^ 64 -> let v := run fresh es in
  v_pid v = Proc p -> v_timer v = Some (Some t) -> t <= now ->
  let v' := step v (now, Tick l false) in v_open v' = N.min (v_open v + 1) 1000 /\ v_timer v' = Some (Some (now + v_open v' * (200 * 1000))) /\ v_pid v' = Proc p.
Proof.
  intros Hb H v P T Ht v'. assert (I := inv_reach es Hb). fold v in I. assert (G := timer_glob v _ t I T).
  destruct (i_none _ _ I G) as (_ & _ & R & _). unfold v', step. cbn [fst snd]. rewrite T. replace (t <=? now) with true by (symmetry; apply N.leb_le; exact Ht).
  unfold timer_fn. rewrite P, R. unfold open_. sups. rewrite (arm_timer _ _ (Some t)) by exact T. sups. split; [reflexivity|]. split; [|exact P].
  do 2 f_equal. rewrite wrap_small; lia.
Qed.
Lemma launch_open v e p : v_pid (step v e) = Proc p -> v_pid v <> Proc p -> v_open (step v e) = 0.
Proof.
  destruct e as [now e]. intros P N.
  assert (F : forall w, v_pid (failed now w) <> Proc p).
  { intros w. unfold failed, stopped, close, drop_glob. destruct (rl_test (v_restart w) now). sups. destruct (v_glob _); sups; try destruct (0 <? _); sups; discriminate. }
  assert (S : forall w, v_pid (stop now w) <> Proc p) by (intros w; destruct (stop_all now w) as [-> _]; discriminate).
  assert (A : forall t w, v_pid (arm t w) = v_pid w /\ v_open (arm t w) = v_open w) by (intros t w; unfold arm; destruct (v_timer w); sups; auto).
  assert (D : forall w, v_pid (disarm w) = v_pid w) by (intros w; unfold disarm; destruct (v_timer w); sups; auto).
  destruct e as [cf tm l| |l o| | | |r|ok|a]; unfold step in *; cbn [fst snd] in *.
  - unfold start in *. destruct (v_pid v) eqn:Ep; try congruence. destruct cf; cbn [negb] in *; [|apply S in P; contradiction].
    destruct tm; cbn [negb] in *; [|apply S in P; contradiction].
    match goal with |- context [spawn now l ?w] => set (w0 := w) in * end. assert (Ep0 : v_pid w0 = Unmanaged) by exact Ep.
    destruct (spawn_all now l w0 (or_introl Ep0)) as (Hs & Hp & _ & _ & _ & _ & Ho & _). destruct (spawn now l w0) as [v' []]; cbn [fst snd] in *; [|apply S in P; contradiction].
    destruct (l_find l && l_fork l); [exact Ho|]. congruence.
  - destruct (v_pid v) eqn:Ep; [congruence| |]; apply S in P; contradiction.
  - destruct (v_timer v) as [[t|]|]; try congruence. destruct (t <=? now); [|congruence]. unfold timer_fn in *. destruct (v_pid v) eqn:Ep.
    + rewrite D in P. congruence.
    + destruct (spawn_all now l v (or_intror Ep)) as (Hs & Hp & _ & _ & _ & _ & Ho & _). destruct (spawn now l v) as [v' []]; cbn [fst snd] in *.
      * destruct (A (wrap64 (now + 200 * 1000)) v') as [A1 A2]. rewrite A1 in P. rewrite A2. destruct (l_find l && l_fork l); [exact Ho|congruence].
      * destruct (rl_test (v_exec v') now) as [r b]. match goal with |- v_open (arm ?t ?w) = _ => destruct (A t w) as [A1 A2] end. rewrite A1 in P. rewrite A2. sups.
        destruct (l_find l && l_fork l); [exact Ho|congruence].
    + destruct (Setup_Model.u_run _); [rewrite D in P; congruence|]. unfold open_ in *. destruct o.
      * rewrite D in P. unfold drop_glob in P. destruct (v_glob v); sups; try destruct (0 <? _) in P; sups; congruence.
      * match goal with |- v_open (arm ?t ?w) = _ => destruct (A t w) as [A1 A2] end. rewrite A1 in P. sups. congruence.
  - destruct (v_child v); [|congruence]. sups. apply F in P. contradiction.
  - destruct (v_glob v); [|congruence]. unfold global_hup in *. destruct (v_dev v); apply F in P; contradiction.
  - destruct (v_dev v); try congruence; apply F in P; contradiction.
  - destruct (v_glob v) as [[]|]; try congruence. destruct r; cbn [global_attach_fn] in *; try (apply F in P; contradiction); unfold started in P; sups; congruence.
  - destruct (v_dev v) as [| |[]]; try congruence. unfold dev_attach_fn in *. destruct ok; [unfold started in P; sups; congruence|apply F in P; contradiction].
  - destruct (v_glob v) as [[]|]; try congruence. destruct (Setup_Model.u_wait _); [congruence|]. sups. congruence.
Qed.
