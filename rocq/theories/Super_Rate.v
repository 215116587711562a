From Verif Require Import Base Ratelimit_Model Ratelimit_Spec Ratelimit_Proofs Super_Model Super_Spec Super_Proofs Super_More.
From Verif Require Setup_Model.
From Coq Require Import Sorted.

Definition span : N := 10 * 1000 * 1000.
Definition start_rl : rl := rl_init span 2.
Definition act_time (a : act) : N := match a with Launch _ t | Kill _ t | Reap _ t | Failure _ t => t end.
Fixpoint after (r : rl) (ts : list N) : rl := match ts with [] => r | t :: ts => after (fst (rl_test r t)) ts end.
Lemma after_app ts t : forall r, after r (ts ++ [t]) = fst (rl_test (after r ts) t).
Proof. induction ts as [|a ts IH]; intros r; simpl; auto. Qed.
Lemma run_snoc ts t : forall r, rl_run r (ts ++ [t]) = rl_run r ts ++ [snd (rl_test (after r ts) t)].
Proof.
  induction ts as [|a ts IH]; intros r; simpl; [destruct (rl_test r t); reflexivity|]. destruct (rl_test r a) as [r' b]. simpl. rewrite IH. reflexivity.
Qed.
Lemma run_len ts : forall r, length ts = length (rl_run r ts).
Proof. induction ts as [|a ts IH]; intros r; simpl; [auto|]. destruct (rl_test r a). simpl. auto. Qed.
Lemma sorted_snoc ts t : Sorted N.le ts -> Forall (fun y => y <= t) ts -> Sorted N.le (ts ++ [t]).
Proof.
  induction 1 as [|a ts Hs IH Hd]; intros F; simpl; [repeat constructor|]. inversion F; subst. constructor; [auto|].
  destruct ts; simpl; constructor; [auto|]. inversion Hd; auto.
Qed.

(** Admitted failures between [x] and [x + span]. *)
Fixpoint adm (x : N) (l : list act) : N :=
  match l with [] => 0 | a :: l => (match a with Failure true t => if (x <=? t) && (t <=? x + span) then 1 else 0 | _ => 0 end) + adm x l end.

Record R (x T : N) (v : sup) : Prop := mkR {
  r_time : Forall (fun a => act_time a <= T) (v_acts v);
  r_fail : exists ts, Sorted N.le ts /\ Forall (fun t => t <= T) ts /\ Forall (fun t => 0 < t /\ t + span < 2 ^ 64) ts
    /\ v_restart v = after start_rl ts /\ adm x (v_acts v) = admitted_in x span ts (rl_run start_rl ts);
  r_cnt : launches_in x span (v_acts v) <= 1 + adm x (v_acts v);
  r_grace : v_pid v = Grace -> forall t, v_timer v = Some (Some t) -> launches_in x span (v_acts v) <= adm x (v_acts v) \/ x + span < t }.

Definition silent (now : N) (a : act) : Prop := act_time a = now /\ match a with Kill _ _ | Reap _ _ => True | _ => False end.
Lemma silent_sums x now l0 l : Forall (silent now) l0 -> launches_in x span (l0 ++ l) = launches_in x span l /\ adm x (l0 ++ l) = adm x l.
Proof. induction 1 as [|a l0 [_ Ha] _ [IH1 IH2]]; simpl; [auto|]. rewrite IH1, IH2. destruct a; try contradiction; split; lia. Qed.
Lemma time_app now T l0 l : T <= now -> Forall (silent now) l0 -> Forall (fun a => act_time a <= T) l -> Forall (fun a => act_time a <= now) (l0 ++ l).
Proof.
  intros Hn H1 H2. apply Forall_app. split; [|eapply Forall_impl; [|exact H2]; cbv beta; intros; lia].
  eapply Forall_impl; [|exact H1]. intros a [Ha _]. lia.
Qed.
Lemma r_quiet x T now v v' l0 : R x T v -> T <= now -> Forall (silent now) l0 -> v_acts v' = l0 ++ v_acts v -> v_restart v' = v_restart v ->
  (v_pid v' = Grace -> v_pid v = Grace /\ forall t, v_timer v' = Some (Some t) -> exists t0, v_timer v = Some (Some t0) /\ t0 <= t) -> R x now v'.
Proof.
  intros [R1 (ts & A1 & A2 & A3 & A4 & A5) R3 R4] Hn Hs Ha Hr Hg. destruct (silent_sums x now l0 (v_acts v) Hs) as [E1 E2].
  constructor; rewrite ?Ha, ?E1, ?E2, ?Hr; auto.
  - apply (time_app now T); auto.
  - exists ts. conjs; auto. eapply Forall_impl; [|exact A2]. cbv beta. intros. lia.
  - intros P t Ht. destruct (Hg P) as [P0 H0]. destruct (H0 t Ht) as (t0 & H1 & H2). destruct (R4 P0 t0 H1); [auto|]. right. lia.
Qed.
Lemma launches_before x l : Forall (fun a => act_time a < x) l -> launches_in x span l = 0.
Proof.
  induction 1 as [|a l Ha _ IH]; simpl; [auto|]. rewrite IH. destruct a; auto. simpl in Ha.
  replace (x <=? now) with false; [reflexivity|]. symmetry. apply N.leb_gt. exact Ha.
Qed.
Lemma r_failed x T now v l0 y : R x T v -> T <= now -> 0 < now -> now + 200 * 1000 * 1000 < 2 ^ 64 -> v_timer v = Some y -> Forall (silent now) l0 ->
  forall v', v_acts v' = l0 ++ v_acts (failed now v) -> v_restart v' = v_restart (failed now v) -> v_timer v' = v_timer (failed now v) -> R x now v'.
Proof.
  intros [R1 (ts & A1 & A2 & A3 & A4 & A5) R3 R4] Hn H0 Hb Hy Hs v' Ea Er Et.
  destruct (failed_all now v y Hy) as (_ & _ & T1 & Hr & _ & _ & _ & _ & _ & _ & _ & _ & _ & _ & Ha & _).
  rewrite Hr in Er. rewrite T1 in Et. rewrite Ha, app_assoc in Ea. clear Hr T1 Ha.
  assert (Hk : Forall (silent now) (l0 ++ killed now v)).
  { apply Forall_app. split; [exact Hs|]. unfold killed. destruct (v_pid v); repeat constructor. }
  set (b := admits now v) in *.
  destruct (silent_sums x now _ (Failure b now :: v_acts v) Hk) as [E1 E2].
  assert (E3 : launches_in x span (v_acts v') = launches_in x span (v_acts v)) by (rewrite Ea, E1; reflexivity).
  assert (E4 : adm x (v_acts v') = (if b then if (x <=? now) && (now <=? x + span) then 1 else 0 else 0) + adm x (v_acts v)) by (rewrite Ea, E2; reflexivity).
  constructor.
  - rewrite Ea. apply Forall_app. split; [eapply Forall_impl; [|exact Hk]; intros a [Hq _]; lia|]. constructor; [simpl; lia|].
    eapply Forall_impl; [|exact R1]. cbv beta. intros. lia.
  - exists (ts ++ [now]). assert (L : Forall (fun t => t <= now) ts) by (eapply Forall_impl; [|exact A2]; cbv beta; intros; lia). conjs.
    + apply sorted_snoc; auto.
    + apply Forall_app. split; [exact L|]. repeat constructor. lia.
    + apply Forall_app. split; [exact A3|]. repeat constructor; [exact H0|]. unfold span. lia.
    + rewrite Er, after_app, A4. reflexivity.
    + rewrite E4, A5, run_snoc, admitted_app by apply run_len. rewrite <- A4. fold (admits now v). fold b. simpl. destruct b; simpl; lia.
  - rewrite E3, E4. lia.
  - intros _ t Ht. rewrite Et in Ht. injection Ht as <-. rewrite wrap_small; [|exact Hb|destruct b; unfold delay; lia]. rewrite E3, E4.
    destruct (N.ltb_spec now x) as [Hx|Hx].
    + left. rewrite launches_before; [lia|]. eapply Forall_impl; [|exact R1]. cbv beta. intros. lia.
    + destruct b; simpl delay.
      * destruct (N.leb_spec now (x + span)) as [Hy1|Hy1]; [left|right; lia]. replace (x <=? now) with true by (symmetry; apply N.leb_le; lia). simpl. lia.
      * right. unfold span. lia.
Qed.
Lemma r_launch x T now v v' p t0 : R x T v -> T <= now -> v_pid v = Grace -> v_timer v = Some (Some t0) -> t0 <= now ->
  v_acts v' = Launch p now :: v_acts v -> v_restart v' = v_restart v -> v_pid v' <> Grace -> R x now v'.
Proof.
  intros [R1 (ts & A1 & A2 & A3 & A4 & A5) R3 R4] Hn Hp Ht H0 Ha Hr Hp'. constructor; rewrite ?Ha, ?Hr; simpl; try congruence.
  - constructor; [simpl; lia|]. eapply Forall_impl; [|exact R1]. cbv beta. intros. lia.
  - exists ts. conjs; auto. eapply Forall_impl; [|exact A2]. cbv beta. intros. lia.
  - destruct (R4 Hp t0 Ht) as [H|H]; [destruct ((x <=? now) && (now <=? x + span)); lia|].
    replace (now <=? x + span) with false by (symmetry; apply N.leb_gt; lia). rewrite andb_false_r. lia.
Qed.

Lemma arm_fields t w : v_acts (arm t w) = v_acts w /\ v_restart (arm t w) = v_restart w /\ v_pid (arm t w) = v_pid w.
Proof. unfold arm. destruct (v_timer w); sups; auto. Qed.
Lemma disarm_fields w : v_acts (disarm w) = v_acts w /\ v_restart (disarm w) = v_restart w /\ v_pid (disarm w) = v_pid w.
Proof. unfold disarm. destruct (v_timer w); sups; auto. Qed.
Lemma drop_fields w : v_acts (drop_glob w) = v_acts w /\ v_restart (drop_glob w) = v_restart w /\ v_pid (drop_glob w) = v_pid w.
Proof. unfold drop_glob. destruct (v_glob w); [destruct (0 <? v_leak w)|]; sups; auto. Qed.

Lemma r_step x T v n now e : Inv v n -> R x T v -> T <= now -> 0 < now -> now + 200 * 1000 * 1000 < 2 ^ 64 -> is_start (now, e) = false -> R x now (step v (now, e)).
Proof.
  intros I Rv Hn H0 Hb Hs.
  assert (Q : R x now v).
  { apply (r_quiet x T now v v []); auto. intros P. split; [exact P|]. intros t Ht. exists t. split; [exact Ht|reflexivity]. }
  assert (F : forall w y, R x T w -> v_timer w = Some y -> R x now (failed now w)).
  { intros w y Rw Hy. apply (r_failed x T now w [] y Rw Hn H0 Hb Hy (Forall_nil _)); reflexivity. }
  assert (C : forall w, v_acts w = v_acts v -> v_restart w = v_restart v -> v_pid w = v_pid v -> v_timer w = v_timer v -> R x T w).
  { intros w E1 E2 E3 E4. destruct Rv as [R1 R2 R3 R4]. constructor; rewrite ?E1, ?E2, ?E3, ?E4; auto. }
  assert (C' : forall w, v_acts w = v_acts v -> v_restart w = v_restart v -> v_pid w = v_pid v -> v_timer w = v_timer v -> R x now w).
  { intros w E1 E2 E3 E4. destruct Q as [R1 R2 R3 R4]. constructor; rewrite ?E1, ?E2, ?E3, ?E4; auto. }
  destruct e as [cf tm l| |l o| | | |r|ok|a]; unfold step; cbn [fst snd].
  - discriminate.
  - destruct (v_pid v) eqn:Ep; [exact Q| |]; destruct (stop_all now v) as (P & _ & _ & Hr & _ & _ & _ & _ & _ & _ & _ & _ & _ & _ & Ha & _);
      (apply (r_quiet x T now v _ (killed now v) Rv Hn); [unfold killed; rewrite Ep; repeat constructor|exact Ha|exact Hr|rewrite P; discriminate]).
  - destruct (v_timer v) as [[t|]|] eqn:Et; try exact Q. destruct (N.leb_spec t now) as [Ht|Ht]; [|exact Q]. unfold timer_fn. destruct (v_pid v) eqn:Ep.
    + destruct (i_un _ _ I Ep) as [H _]. congruence.
    + destruct (spawn_all now l v (or_intror Ep)) as (Hsp & P & _ & T1 & Hr & _ & _ & _ & _ & _ & _ & _ & _ & _ & _ & _ & _ & Ha).
      destruct (spawn now l v) as [v' ok]. cbn [fst snd] in *.
      assert (K : forall t' w, v_acts w = v_acts v' -> v_restart w = v_restart v' -> v_pid w = v_pid v' -> now <= t' -> v_timer w = v_timer v' -> R x now (arm t' w)).
      { intros t' w E1 E2 E3 Ht' E5. destruct (arm_fields t' w) as (B1 & B2 & B3). rewrite E1 in B1. rewrite E2 in B2. rewrite E3 in B3.
        destruct (l_find l && l_fork l).
        - apply (r_launch x T now v _ (v_next v) t Rv Hn Ep Et Ht); [congruence|congruence|]. rewrite B3, P. discriminate.
        - apply (r_quiet x T now v _ [] Rv Hn); [constructor|rewrite B1; exact Ha|congruence|]. intros _. split; [exact Ep|]. intros t1 H1. exists t. split; [exact Et|].
          rewrite (arm_timer _ _ (Some t)) in H1 by congruence. sups. injection H1 as <-. lia. }
      destruct ok.
      * apply K; auto. rewrite N.add_comm, wrap_small; [lia|exact Hb|lia].
      * destruct (rl_test (v_exec v') now) as [r b]. apply K; auto. rewrite wrap_small; [lia|exact Hb|destruct b; lia].
    + assert (K : forall w, v_acts w = v_acts v -> v_restart w = v_restart v -> v_pid w = v_pid v -> R x now w).
      { intros w E1 E2 E3. apply (r_quiet x T now v w [] Rv Hn (Forall_nil _) E1 E2). rewrite E3, Ep. discriminate. }
      destruct (Setup_Model.u_run _); [destruct (disarm_fields v) as (B1 & B2 & B3); apply K; auto|]. unfold open_. destruct o.
      * match goal with |- R x now (disarm ?w) => destruct (disarm_fields w) as (B1 & B2 & B3) end. sups. destruct (drop_fields v) as (D1 & D2 & D3). apply K; congruence.
      * match goal with |- R x now (arm ?t ?w) => destruct (arm_fields t w) as (B1 & B2 & B3) end. sups. apply K; congruence.
  - destruct (v_child v) as [p|] eqn:Ec; [|exact Q]. assert (M : v_pid v <> Unmanaged) by (rewrite (i_child _ _ I _ Ec); discriminate).
    destruct (man_timer v n I M) as [y Hy]. apply (r_failed x T now v [Reap p now] y Rv Hn H0 Hb Hy); sups; auto. repeat constructor.
  - destruct (v_glob v) as [g|] eqn:Eg; [|exact Q]. assert (M : v_pid v <> Unmanaged) by (apply (glob_man v n I); congruence). destruct (man_timer v n I M) as [y Hy].
    unfold global_hup. assert (R1 : R x now (failed now (set_gfd false v))) by (apply (F _ y); [apply C; reflexivity|exact Hy]).
    destruct (v_dev v); [exact R1| |exact R1].
    apply (r_failed x now now (failed now (set_gfd false v)) [] (Some (wrap64 (delay (admits now (set_gfd false v)) + now))) R1 (N.le_refl _) H0 Hb); auto.
    apply (failed_all now (set_gfd false v) y Hy).
  - destruct (v_dev v) eqn:Ed; try exact Q. assert (G : v_glob v <> None) by (intros H; destruct (i_none _ _ I H) as [H' _]; congruence).
    destruct (man_timer v n I (glob_man v n I G)) as [y Hy]. apply (F v y Rv Hy).
  - destruct (v_glob v) as [[]|] eqn:Eg; try exact Q. assert (M : v_pid v <> Unmanaged) by (apply (glob_man v n I); congruence). destruct (man_timer v n I M) as [y Hy].
    destruct r; cbn [global_attach_fn]; try (apply (F _ y); [apply C; reflexivity|exact Hy]); apply C'; reflexivity.
  - destruct (v_dev v) as [| |[]] eqn:Ed; try exact Q. assert (G : v_glob v <> None) by (intros H; destruct (i_none _ _ I H) as [H' _]; congruence).
    destruct (man_timer v n I (glob_man v n I G)) as [y Hy]. unfold dev_attach_fn. destruct ok; [apply C'; reflexivity|apply (F v y Rv Hy)].
  - destruct (v_glob v) as [[]|] eqn:Eg; try exact Q. destruct (Setup_Model.u_wait _); [exact Q|]. apply C'; reflexivity.
Qed.

Lemma r_start x now cf tm l : 0 < now -> R x now (step fresh (now, Start cf tm l)).
Proof.
  intros H0. assert (X : exists ts : list N, Sorted N.le ts /\ Forall (fun t => t <= now) ts /\ Forall (fun t => 0 < t /\ t + span < 2 ^ 64) ts
    /\ start_rl = after start_rl ts /\ 0 = admitted_in x span ts (rl_run start_rl ts)) by (exists []; repeat constructor).
  destruct cf, tm; try (constructor; cbn; [constructor|exact X|lia|discriminate]).
  destruct l as [[] [] []]; (constructor; cbn; [repeat constructor; simpl; lia|exact X| |discriminate]); try (destruct (_ && _)); lia.
Qed.
Lemma r_run x es : forall v n T, Inv v n -> n + abandoned v es + 4 < two64 -> R x T v -> Sorted N.le (T :: map fst es) ->
  Forall (fun e => 0 < fst e /\ fst e + 200 * 1000 * 1000 < 2 ^ 64) es -> Forall (fun e => is_start e = false) es -> exists T', R x T' (run v es).
Proof.
  induction es as [|[now e] es IH]; intros v n T I Hb Rv Hs Hc Hn; [exists T; exact Rv|]. cbn [abandoned map fst] in *.
  inversion Hc as [|? ? [C1 C2] Hc']; subst. inversion Hn as [|? ? N1 Hn']; subst. inversion Hs as [|? ? Hs' Hd]; subst. inversion Hd; subst. cbn [fst] in *.
  unfold run. cbn [fold_left]. fold (term v (now, e)) in Hb.
  apply (IH (step v (now, e)) (n + term v (now, e)) now); auto; [apply inv_step; [exact I|lia]|lia|]. apply (r_step x T v n); auto.
Qed.
Lemma launch_rate s cf tm l es x : let es' := (s, Start cf tm l) :: es in Super_Spec.clock es' -> Forall (fun e => is_start e = false) es ->
  abandoned fresh es' + 4 < two64 -> launches_in x (10 * 1000 * 1000) (v_acts (run fresh es')) <= 4.
Proof.
  intros es' [Hs Hc] Hn Hb. unfold es' in *. clear es'. cbn [map fst] in Hs. inversion Hc as [|? ? [C1 C2] Hc']; subst. cbn [fst] in *.
  cbn [abandoned] in Hb. fold (term fresh (s, Start cf tm l)) in Hb. unfold run. cbn [fold_left].
  destruct (r_run x es (step fresh (s, Start cf tm l)) (0 + term fresh (s, Start cf tm l)) s) as [T' Rv]; auto.
  - apply inv_step; [exact inv_fresh|lia].
  - apply r_start, C1.
  - unfold run in Rv. destruct Rv as [_ (ts & A1 & A2 & A3 & A4 & A5) R3 _]. fold span.
    assert (H := rl_sliding span 2 ts x). fold start_rl in H. rewrite <- A5 in H. assert (H' : adm x (v_acts (fold_left step es (step fresh (s, Start cf tm l)))) < 2 * 2).
    { apply H; [reflexivity|split; reflexivity|]. split; auto. }
    lia.
Qed.
