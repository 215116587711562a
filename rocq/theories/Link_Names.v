(** Proofs about managed links and the names they tell. *)
From Coq Require Import String.
From Verif Require Import Base Text Text_Proofs Setup_Model Link_Model Link_Spec Link_Proofs.
Local Open Scope list_scope.

(** ** Managed links *)
Lemma set_name_managed n l : l_managed (set_name n l) = l_managed l.
Proof. unfold set_name. destruct n; trivial. cbn. destruct (u_run _); trivial. apply tell_proj. Qed.
Lemma reply_managed c a l : l_managed (reply c a l) = l_managed l.
Proof.
  unfold reply. destruct (u_wait (l_su l)) as [|k w]; trivial. cbv zeta.
  match goal with |- context[with_su ?u ?x] => assert (E : l_managed (with_su u x) = l_managed l) end.
  { cbn [with_su l_managed]. destruct k; trivial; match goal with |- context[if ?b then _ else _] => destruct b end; trivial; apply tell_proj. }
  destruct (negb _ && _); [|exact E]. unfold supplicant_up. destruct (l_public _); [exact E|]. destruct (m_host c); [|exact E].
  destruct (l_managed (with_su _ _)) eqn:M; [|now rewrite M]. now rewrite set_name_managed, M.
Qed.
Lemma act_managed c e l : ~ user_or_udev (target e) e -> l_managed (act_on c e l) = l_managed l.
Proof.
  intros N. destruct e; cbn [act_on target] in *.
  - exfalso. apply N. right. eauto.
  - exfalso. apply N. left. eauto.
  - apply set_name_managed.
  - unfold set_wfd_sub. destruct (l_managed l) eqn:M; trivial. cbn. destruct (u_run _); trivial. now rewrite (proj1 (proj2 (proj2 (tell_proj _ _)))).
  - destruct (l_proc l); trivial. now destruct (l_up l).
  - destruct (l_proc l); trivial. apply reply_managed.
  - now destruct (l_proc l).
  - destruct (l_at l); trivial. now destruct (l_proc l).
Qed.
Theorem managed_only c e i ls ls' : NoDup (map l_ix ls) -> ~ user_or_udev i e -> step_link c e ls = Ok ls' -> managed i ls' <-> managed i ls.
Proof.
  intros D N S. pose proof (step_change _ _ _ _ S) as K. unfold managed. inversion K; subst; try reflexivity.
  - assert (T : i <> target e). { intros ->. apply N. right. eauto. }
    split; intros (l & I & E & M); exists l; (split; [|now split]); apply drop_in in I || (apply drop_in; split; [exact I|congruence]). apply I.
  - assert (T : i <> target e). { intros ->. apply N. right. eauto. }
    split; intros (l & I & E & M); exists l; (split; [|now split]).
    + apply in_app_or in I as [I|[<-|[]]]; trivial. rewrite created_ix in E. now destruct T.
    + apply in_or_app. now left.
  - apply find_in in H as F. destruct F as [I0 E0]. destruct (N.eq_dec i (target e)) as [->|T].
    + assert (A := act_managed c e l N). split; intros (x & I & E & M).
      * apply put_in in I as [[I X]| ->]; [rewrite act_ix in X; congruence|]. exists l. now rewrite <- A.
      * exists (act_on c e l). rewrite act_ix, A. split; [|split; [exact E0|]].
        -- apply put_new with (x := l). now rewrite act_ix, E0.
        -- pose proof (in_find ls x D I) as F2. rewrite E in F2. congruence.
    + split; intros (x & I & E & M); exists x; (split; [|now split]).
      * apply put_in in I as [[I _]| ->]; trivial. rewrite act_ix in E. congruence.
      * apply put_keep; trivial. rewrite act_ix. congruence.
Qed.
Lemma set_managed_val ok b l : l_managed (set_managed ok b l) = true -> b = true /\ (l_managed l = true \/ ok = true).
Proof.
  unfold set_managed. destruct (Bool.eqb (l_managed l) b) eqn:E; [apply Bool.eqb_prop in E; intros H; rewrite <- E; auto|].
  destruct b, ok; cbn; intros H; auto; rewrite H in E; discriminate.
Qed.
Theorem lazy_wants c es i ls : m_lazy c = true -> run_links c es [] = Ok ls -> managed i ls -> wants i es.
Proof.
  intros Z H (l & I & E & M). pose (P := fun l => l_managed l = true -> wants (l_ix l) es).
  assert (F : Forall P ls); [|rewrite Forall_forall in F; rewrite <- E; now apply F].
  refine (inv_run P c es [] ls _ _ _ H); [| |constructor]; unfold P.
  - intros e j n tag ok _ _. unfold created. rewrite Z, andb_false_r. discriminate.
  - intros e x J T Q. rewrite act_ix. intros W.
    assert (G : ~ user_or_udev (target e) e -> wants (l_ix x) es) by (intros N; apply Q; rewrite <- (act_managed c e x N); exact W).
    destruct e; try (apply G; intros [(? & ? & X)|(? & ? & ? & ? & X)]; discriminate X); cbn [act_on target] in *.
    + rewrite Z in W. cbn [negb] in W. rewrite !andb_false_r in W. destruct (m_rely c); [apply set_managed_val in W as [W _]; discriminate W|].
      apply Q. destruct a, name; exact W.
    + pose proof (set_managed_val _ _ _ W) as [-> _]. exists ok. rewrite <- T. exact J.
Qed.
Lemma managed_in c e i ls ls' l : NoDup (map l_ix ls) -> step_link c e ls = Ok ls' -> target e = i -> find ls i = Some l -> (forall name tag ok, e <> EUdev Remove i name tag ok) -> i <> 0 ->
  managed i ls' <-> l_managed (act_on c e l) = true.
Proof.
  intros D S T F R Z. subst i. pose proof (step_change _ _ _ _ S) as K. inversion K; subst; try congruence.
  - assert (l0 = l) by congruence. subst l0. unfold managed. split.
    + intros (x & I & E & M). apply put_in in I as [[I X]| ->]; [|exact M]. rewrite act_ix in X. apply find_in in F as [_ F]. congruence.
    + intros M. exists (act_on c e l). rewrite act_ix. apply find_in in F as F2. destruct F2 as [I0 E0]. split; [|now split].
      apply put_new with (x := l). now rewrite act_ix, E0.
Qed.
Theorem new_managed c a i n tag ls ls' : NoDup (map l_ix ls) -> i <> 0 -> a <> Remove -> ~ has_link i ls -> acceptable c n ->
  step_link c (EUdev a i (Some n) tag true) ls = Ok ls' ->
  managed i ls' <-> (if m_rely c then tag else true) && negb (m_lazy c) = true.
Proof.
  intros D Z A N F S. pose proof (step_change _ _ _ _ S) as K. rewrite has_ix in N. apply find_none in N as N'. inversion K; cbn [target] in *; subst; try congruence.
  - destruct (H0 a n tag true eq_refl) as [E|[E|E]]; try contradiction. apply fits_spec in F. congruence.
  - injection H as <- <- <- <-. unfold managed. split.
    + intros (x & I & E & M). apply in_app_or in I as [I|[<-|[]]]; [exfalso; apply N; rewrite <- E; now apply in_map|].
      unfold created in M. destruct (_ && _); trivial.
    + intros W. exists (created c i n tag true). rewrite created_ix. split; [apply in_or_app; right; now left|]. split; trivial.
      unfold created. rewrite W. reflexivity.
Qed.
Theorem rely_managed c a i name tag ls ls' : NoDup (map l_ix ls) -> i <> 0 -> a <> Remove -> has_link i ls -> m_rely c = true ->
  step_link c (EUdev a i name tag true) ls = Ok ls' -> managed i ls' <-> tag && negb (m_lazy c) = true.
Proof.
  intros D Z A (l & I & E) R S. pose proof (in_find ls l D I) as F. rewrite E in F.
  rewrite (managed_in c _ i ls ls' l D S eq_refl F); [|intros ? ? ? [= X _ _ _]; contradiction|exact Z].
  cbn [act_on]. rewrite R. set (l1 := match a, name with Move, Some n => renamed n l | _, _ => l end).
  unfold set_managed. destruct (Bool.eqb (l_managed l1) (tag && negb (m_lazy c))) eqn:B.
  - apply Bool.eqb_prop in B. now rewrite B.
  - destruct (tag && negb (m_lazy c)); reflexivity.
Qed.

(** The user's word holds until the next udev event of the link. *)
Theorem unwanted_partial c pre post i ok ls :
  (forall e, In e post -> ~ user_or_udev i e) -> i <> 0 -> run_links c (pre ++ ESetManaged i false ok :: post) [] = Ok ls -> ~ managed i ls.
Proof.
  intros N Z. rewrite run_app. destruct (run_links c pre []) as [l0|] eqn:P; cbn [bind]; [|discriminate]. cbn [run_links].
  destruct (step_link c (ESetManaged i false ok) l0) as [l1|] eqn:S; cbn [bind]; [|discriminate].
  assert (D0 : NoDup (map l_ix l0)) by (refine (links_distinct c pre [] l0 _ P); constructor).
  assert (D1 := nodup_step c _ _ _ D0 S).
  assert (M : ~ managed i l1).
  { destruct (find l0 i) as [l|] eqn:F.
    - rewrite (managed_in c _ i l0 l1 l D0 S eq_refl F); [|intros; discriminate|exact Z]. cbn [act_on]. intros W. apply set_managed_val in W as [W _]. discriminate.
    - intros (l & I & E & _). cbn [step_link] in S. unfold upd in S. rewrite F in S. injection S as <-.
      apply find_none in F. apply F. rewrite <- E. now apply in_map. }
  clear S P D0. revert l1 D1 M. induction post as [|e post IH]; intros l1 D M; cbn [run_links]; [now intros [= <-]|].
  destruct (step_link c e l1) as [l2|] eqn:S; cbn [bind]; [|discriminate]. apply IH.
  - intros x I. apply N. now right.
  - exact (nodup_step c e l1 l2 D S).
  - rewrite (managed_only c e i l1 l2 D (N e (or_introl eq_refl)) S). exact M.
Qed.

(** ** Links without process *)
Definition Q (l : lnk) : Prop := l_managed l = false -> l_proc l = None /\ u_run (l_su l) = false /\ l_at l = None.
Lemma Q_managed ok b l : Q l -> Q (set_managed ok b l).
Proof.
  unfold Q, set_managed. intros H. destruct (Bool.eqb (l_managed l) b); [exact H|].
  destruct b, ok; cbn; intros E; try discriminate; auto.
Qed.
Lemma Q_act c e l : Q l -> Q (act_on c e l).
Proof.
  intros H. destruct e; cbn [act_on].
  - set (l1 := match a, name with Move, Some n => renamed n l | _, _ => l end).
    assert (H1 : Q l1) by (unfold l1; destruct a, name; exact H).
    cbv zeta. destruct (m_rely c); [now apply Q_managed|]. destruct (_ && _); [now apply Q_managed|exact H1].
  - now apply Q_managed.
  - unfold Q. rewrite set_name_managed. intros M. destruct (H M) as (P & R & A). unfold set_name. destruct s; [auto|]. rewrite R. cbn. auto.
  - unfold set_wfd_sub. destruct (l_managed l) eqn:M; [|exact H]. unfold Q. cbn. destruct (u_run _); [|congruence]. rewrite (proj1 (proj2 (proj2 (tell_proj _ _)))). congruence.
  - destruct (l_proc l) eqn:P; [|exact H]. destruct (l_up l); [exact H|]. intros M. cbn in M. destruct (H M) as (X & _). congruence.
  - destruct (l_proc l) eqn:P; [|exact H]. intros M. rewrite reply_managed in M. destruct (H M) as (X & _). congruence.
  - destruct (l_proc l) eqn:P; [|exact H]. intros M. cbn in M. destruct (H M) as (X & _). congruence.
  - destruct (l_at l) eqn:A; [|exact H]. destruct (l_proc l) eqn:P; [exact H|]. intros M. cbn in M. destruct (H M) as (_ & _ & X). congruence.
Qed.
Lemma Q_created c i n tag ok : Q (created c i n tag ok).
Proof. unfold created. destruct (_ && _); [apply Q_managed|]; unfold Q; cbn; auto. Qed.
Theorem quiet_run c es ls : run_links c es [] = Ok ls -> quiet ls.
Proof.
  intros H. assert (F : Forall Q ls); [|intros l I; rewrite Forall_forall in F; exact (F l I)].
  refine (inv_run Q c es [] ls _ _ _ H); [| |constructor]; intros.
  - apply Q_created.
  - now apply Q_act.
Qed.

(** ** Names *)
Lemma reply_name c a l : l_public l = true -> l_name (reply c a l) = l_name l /\ l_wfd (reply c a l) = l_wfd l /\ l_public (reply c a l) = true /\ l_at (reply c a l) = l_at l.
Proof.
  intros B. unfold reply. destruct (u_wait (l_su l)) as [|k w]; [auto|]. cbv zeta.
  match goal with |- context[with_su ?u ?x] => set (y := with_su u x); assert (E : l_name y = l_name l /\ l_wfd y = l_wfd l /\ l_public y = true /\ l_at y = l_at l) end.
  { unfold y. cbn. destruct k; auto; match goal with |- context[if ?b then _ else _] => destruct b end; auto;
      match goal with |- context[tell ?q l] => destruct (tell_proj q l) as (E1 & E2 & E3 & E4 & E5 & E6 & E7 & E8 & E9) end; rewrite E2, E4, E5, E7; auto. }
  destruct (negb _ && _); [|exact E]. unfold supplicant_up. destruct E as (E1 & E2 & E3 & E4). rewrite E3. auto.
Qed.
Lemma set_managed_name ok b l : l_name (set_managed ok b l) = l_name l /\ l_wfd (set_managed ok b l) = l_wfd l /\ l_public (set_managed ok b l) = l_public l.
Proof. unfold set_managed. destruct (Bool.eqb _ b); auto. destruct b, ok; cbn; auto. Qed.
Definition U (es : list Link_Model.event) (l : lnk) : Prop :=
  l_public l = true /\ (forall n, l_name l = Some n -> In (EName (l_ix l) n) es) /\ (forall v, l_wfd l = Some v -> In (EWfd (l_ix l) v) es).
Lemma U_act c e es l : In e es -> target e = l_ix l -> U es l -> U es (act_on c e l).
Proof.
  intros J T (B & N & V). unfold U. rewrite act_ix. destruct e; cbn [act_on target] in *.
  - set (l1 := match a, name with Move, Some n => renamed n l | _, _ => l end).
    assert (E : l_public l1 = true /\ l_name l1 = l_name l /\ l_wfd l1 = l_wfd l) by (unfold l1; destruct a, name; auto). destruct E as (E1 & E2 & E3).
    assert (G : forall ok b, let y := set_managed ok b l1 in l_public y = true /\ (forall n, l_name y = Some n -> In (EName (l_ix l) n) es) /\ (forall v, l_wfd y = Some v -> In (EWfd (l_ix l) v) es)).
    { intros o b y. destruct (set_managed_name o b l1) as (X1 & X2 & X3). unfold y. rewrite X1, X2, X3, E1, E2, E3. auto. }
    cbv zeta. destruct (m_rely c); [apply G|]. destruct (_ && _); [apply G|]. rewrite E1, E2, E3. auto.
  - destruct (set_managed_name ok b l) as (X1 & X2 & X3). rewrite X1, X2, X3. auto.
  - unfold set_name. destruct s as [|b s]; [auto|]. cbn. destruct (u_run _); [rewrite (proj1 (proj2 (tell_proj _ _))), (proj1 (proj2 (proj2 (proj2 (proj2 (tell_proj _ _))))))|];
      (split; [exact B|split; [|exact V]]); intros n [= <-]; now rewrite <- T.
  - unfold set_wfd_sub. destruct (l_managed l); [|auto]. cbn. destruct (u_run _); [rewrite (proj1 (proj2 (tell_proj _ _))), (proj1 (proj2 (proj2 (proj2 (tell_proj _ _)))))|];
      (split; [exact B|split; [exact N|]]); intros n [= <-]; now rewrite <- T.
  - destruct (l_proc l); [|auto]. destruct (l_up l); auto.
  - destruct (l_proc l); [|auto]. destruct (reply_name c a l B) as (X1 & X2 & X3 & _). rewrite X1, X2, X3. auto.
  - destruct (l_proc l); auto.
  - destruct (l_at l); [|auto]. destruct (l_proc l); auto.
Qed.
Lemma created_name c i n tag ok : l_public (created c i n tag ok) = true /\ l_name (created c i n tag ok) = None /\ l_wfd (created c i n tag ok) = None.
Proof. unfold created. destruct (_ && _); [|auto]. destruct (set_managed_name ok true (blank i n)) as (X1 & X2 & X3). rewrite X1, X2, X3. auto. Qed.
Lemma U_run c es ls : run_links c es [] = Ok ls -> Forall (U es) ls.
Proof.
  intros H. refine (inv_run (U es) c es [] ls _ _ _ H); [| |constructor].
  - intros e i n tag ok _ _. unfold U. destruct (created_name c i n tag ok) as (-> & -> & ->). repeat split; discriminate.
  - intros e l. apply U_act.
Qed.
Theorem names_from_user c es ls : run_links c es [] = Ok ls -> from_user es ls.
Proof. intros H l I. pose proof (U_run c es ls H) as F. rewrite Forall_forall in F. apply (F l I). Qed.

Lemma told_name_app cs k : told_name (cs ++ [k]) = match k with CName s => Some s | CSub _ => told_name cs end.
Proof. induction cs as [|x cs IH]; cbn [app told_name]; [now destruct k|]. rewrite IH. destruct k, x; trivial. Qed.
Lemma told_sub_app cs k : told_sub (cs ++ [k]) = match k with CSub s => Some s | CName _ => told_sub cs end.
Proof. induction cs as [|x cs IH]; cbn [app told_sub]; [now destruct k|]. rewrite IH. destruct k, x; trivial. Qed.
Definition R (l : lnk) : Prop :=
  l_public l = true /\ forall p, l_proc l = Some p ->
    (forall t, told_name (p_cmds p) = Some t -> t = or (l_name l) (text "Miracle")) /\ (forall t, told_sub (p_cmds p) = Some t -> t = or (l_wfd l) []).
Lemma R_managed ok b l : R l -> R (set_managed ok b l).
Proof.
  unfold R, set_managed. intros [B H]. destruct (Bool.eqb (l_managed l) b); [now split|].
  destruct b, ok; cbn; (split; [exact B|]); intros p X; try discriminate X. injection X as <-. split; intros t; discriminate.
Qed.
Lemma R_renamed n l : R l -> R (renamed n l).
Proof. trivial. Qed.
Lemma tell_proc k l p : l_proc (tell k l) = Some p -> exists p0, l_proc l = Some p0 /\ p = mkProc (p_arg p0) (p_conf p0) (p_cmds p0 ++ [k]).
Proof. unfold tell. destruct (l_proc l) as [p0|] eqn:E; [|congruence]. cbn. intros [= <-]. eauto. Qed.
Lemma R_tell_name l : R l -> R (tell (CName (or (l_name l) (text "Miracle"))) l).
Proof.
  intros [B H]. set (k := CName _). destruct (tell_proj k l) as (E1 & E2 & E3 & E4 & E5 & _). split; [now rewrite E2|].
  intros p X. apply tell_proc in X as (p0 & P & ->). cbn [p_cmds]. rewrite E4, E5, told_name_app, told_sub_app. unfold k. split; [now intros t [= <-]|apply (H p0 P)].
Qed.
Lemma R_tell_sub l : R l -> R (tell (CSub (or (l_wfd l) [])) l).
Proof.
  intros [B H]. set (k := CSub _). destruct (tell_proj k l) as (E1 & E2 & E3 & E4 & E5 & _). split; [now rewrite E2|].
  intros p X. apply tell_proc in X as (p0 & P & ->). cbn [p_cmds]. rewrite E4, E5, told_name_app, told_sub_app. unfold k. split; [apply (H p0 P)|now intros t [= <-]].
Qed.
Lemma R_reply c a l : R l -> R (reply c a l).
Proof.
  intros H. unfold reply. destruct (u_wait (l_su l)) as [|k w]; [exact H|]. cbv zeta.
  match goal with |- context[with_su ?u ?x] => set (y := with_su u x); assert (E : R y) end.
  { unfold y. match goal with |- R (with_su _ ?x) => assert (X : R x) end; [|exact X].
    destruct k; try exact H.
    - destruct (a_p2p a); [|exact H]. now apply R_tell_name.
    - destruct (_ && _); [|exact H]. now apply R_tell_sub. }
  destruct (negb _ && _); [|exact E]. unfold supplicant_up. rewrite (proj1 E). exact E.
Qed.
Lemma not_window told l ls i p : find ls i = Some l -> l_proc l = Some p -> ~ in_window told i ls -> u_run (l_su l) = false -> told (p_cmds p) = None.
Proof. intros F P W N. destruct (told (p_cmds p)) eqn:T; trivial. exfalso. apply W. exists l, p. rewrite T. repeat split; trivial. discriminate. Qed.
Lemma R_act c e l ls : find ls (target e) = Some l -> timely e ls -> R l -> R (act_on c e l).
Proof.
  intros F W H. destruct e; cbn [act_on target timely] in *.
  - set (l1 := match a, name with Move, Some n => renamed n l | _, _ => l end).
    assert (H1 : R l1) by (unfold l1; destruct a, name; exact H).
    cbv zeta. destruct (m_rely c); [now apply R_managed|]. destruct (_ && _); [now apply R_managed|exact H1].
  - now apply R_managed.
  - unfold set_name. destruct s as [|b s]; [exact H|]. remember (b :: s) as n. clear Heqn b s. destruct H as [B H].
    destruct (u_run (l_su l)) eqn:U0.
    + destruct (tell_proj (CName n) l) as (E1 & E2 & E3 & E4 & E5 & _). split; [cbn; now rewrite E2|].
      intros p X. cbn in X. apply tell_proc in X as (p0 & P & ->). cbn. rewrite E5, told_name_app, told_sub_app. split; [now intros t [= <-]|apply (H p0 P)].
    + split; [exact B|]. intros p P. cbn in *. rewrite (not_window _ _ _ _ _ F P W U0). split; [discriminate|apply (H p P)].
  - unfold set_wfd_sub. destruct (l_managed l); [|exact H]. destruct H as [B H].
    destruct (u_run (l_su l)) eqn:U0.
    + destruct (tell_proj (CSub s) l) as (E1 & E2 & E3 & E4 & E5 & _). split; [cbn; now rewrite E2|].
      intros p X. cbn in X. apply tell_proc in X as (p0 & P & ->). cbn. rewrite E4, told_name_app, told_sub_app. split; [apply (H p0 P)|now intros t [= <-]].
    + split; [exact B|]. intros p P. cbn in *. rewrite (not_window _ _ _ _ _ F P W U0). split; [apply (H p P)|discriminate].
  - destruct (l_proc l) eqn:P; [|exact H]. destruct (l_up l); [exact H|]. destruct H as [B H]. split; [exact B|]. intros q X. cbn in X. cbn. rewrite P in H. now apply H.
  - destruct (l_proc l); [|exact H]. now apply R_reply.
  - destruct (l_proc l); [|exact H]. destruct H as [B H]. split; [exact B|]. intros q X. discriminate X.
  - destruct (l_at l); [|exact H]. destruct (l_proc l); [exact H|]. destruct H as [B H]. split; [exact B|]. intros q [= <-]. cbn. split; discriminate.
Qed.
Theorem names_right c es ls : all_timely c es [] -> run_links c es [] = Ok ls -> name_right ls /\ sub_right ls.
Proof.
  intros T H. assert (F : Forall R ls).
  { assert (G : forall l0, Forall R l0 -> all_timely c es l0 -> run_links c es l0 = Ok ls -> Forall R ls); [|now apply (G [])].
    clear T H. induction es as [|e es IH]; intros l0 F T; cbn [run_links all_timely] in *; [now intros [= <-]|].
    destruct T as [T0 T]. destruct (step_link c e l0) as [l1|] eqn:S; cbn [bind]; [|discriminate].
    apply IH; [|now apply T]. refine (inv_step R c e l0 l1 _ _ F S).
    - intros i n tag ok _. unfold created. destruct (_ && _); [apply R_managed|]; split; cbn; trivial; intros p X; discriminate X.
    - intros l E. exact (R_act c e l l0 E T0). }
  rewrite Forall_forall in F. split; intros l p t I P; destruct (F l I) as [_ X]; apply (X p P).
Qed.
(** When a STATUS reply has a P2P state the name is told. *)
Theorem status_tells c i a ls ls' l p w : NoDup (map l_ix ls) -> In l ls -> l_ix l = i -> l_public l = true -> l_proc l = Some p -> u_wait (l_su l) = KStatus :: w -> a_p2p a = true ->
  step_link c (EReply i a) ls = Ok ls' -> exists l' p', In l' ls' /\ l_ix l' = i /\ l_proc l' = Some p' /\ told_name (p_cmds p') = Some (or (l_name l) (text "Miracle")) /\ l_name l' = l_name l.
Proof.
  intros D I E B P W A. cbn [step_link]. intros [= <-]. pose proof (in_find ls l D I) as F. rewrite E in F. unfold upd. rewrite F, P.
  set (r := reply c a l). assert (X : exists p', l_proc r = Some p' /\ told_name (p_cmds p') = Some (or (l_name l) (text "Miracle"))).
  { unfold r, reply. rewrite W, A. cbv zeta.
    match goal with |- context[with_su ?u ?x] => set (y := with_su u x); assert (Y : l_proc y = Some (mkProc (p_arg p) (p_conf p) (p_cmds p ++ [CName (or (l_name l) (text "Miracle"))])) /\ l_public y = true) end.
    { unfold y, tell. rewrite P. cbn. auto. }
    destruct Y as [Y1 Y2].
    assert (Z : l_proc (if negb (u_run (l_su l)) && u_run (step (l_su l) (Reply a)) then supplicant_up c y else y) = l_proc y).
    { destruct (_ && _); trivial. unfold supplicant_up. now rewrite Y2. }
    rewrite Z, Y1. eexists. split; [reflexivity|]. cbn [p_cmds]. now rewrite told_name_app. }
  destruct X as (p' & X1 & X2). exists r, p'. split; [|split; [unfold r; now rewrite reply_ix|split; [exact X1|split; [exact X2|apply reply_name; exact B]]]].
  apply put_new with (x := l). unfold r. now rewrite reply_ix, E.
Qed.

Theorem display_tells c i a ls ls' l p w : NoDup (map l_ix ls) -> In l ls -> l_ix l = i -> l_public l = true -> l_proc l = Some p -> u_wait (l_su l) = KDisplay :: w -> a_ok a = true -> u_wfd (l_su l) = true ->
  step_link c (EReply i a) ls = Ok ls' -> exists l' p', In l' ls' /\ l_ix l' = i /\ l_proc l' = Some p' /\ told_sub (p_cmds p') = Some (or (l_wfd l) []) /\ l_wfd l' = l_wfd l.
Proof.
  intros D I E B P W A V. cbn [step_link]. intros [= <-]. pose proof (in_find ls l D I) as F. rewrite E in F. unfold upd. rewrite F, P.
  set (r := reply c a l). assert (X : exists p', l_proc r = Some p' /\ told_sub (p_cmds p') = Some (or (l_wfd l) [])).
  { unfold r, reply. rewrite W, A, V. cbn [andb]. cbv zeta.
    match goal with |- context[with_su ?u ?x] => set (y := with_su u x); assert (Y : l_proc y = Some (mkProc (p_arg p) (p_conf p) (p_cmds p ++ [CSub (or (l_wfd l) [])])) /\ l_public y = true) end.
    { unfold y, tell. rewrite P. cbn. auto. }
    destruct Y as [Y1 Y2].
    assert (Z : l_proc (if negb (u_run (l_su l)) && u_run (step (l_su l) (Reply a)) then supplicant_up c y else y) = l_proc y).
    { destruct (_ && _); trivial. unfold supplicant_up. now rewrite Y2. }
    rewrite Z, Y1. eexists. split; [reflexivity|]. cbn [p_cmds]. now rewrite told_sub_app. }
  destruct X as (p' & X1 & X2). exists r, p'. split; [|split; [unfold r; now rewrite reply_ix|split; [exact X1|split; [exact X2|apply reply_name; exact B]]]].
  apply put_new with (x := l). unfold r. now rewrite reply_ix, E.
Qed.
Theorem name_tells c i n ls ls' l p : NoDup (map l_ix ls) -> In l ls -> l_ix l = i -> l_proc l = Some p -> u_run (l_su l) = true -> n <> [] ->
  step_link c (EName i n) ls = Ok ls' -> exists l' p', In l' ls' /\ l_ix l' = i /\ l_proc l' = Some p' /\ told_name (p_cmds p') = Some n /\ l_name l' = Some n.
Proof.
  intros D I E P U0 N. cbn [step_link]. intros [= <-]. pose proof (in_find ls l D I) as F. rewrite E in F. unfold upd. rewrite F.
  exists (set_name n l), (mkProc (p_arg p) (p_conf p) (p_cmds p ++ [CName n])). split.
  - apply put_new with (x := l). now rewrite set_name_ix, E.
  - rewrite set_name_ix. split; [exact E|]. unfold set_name, tell. rewrite U0, P. destruct n as [|b n]; [now destruct N|]. cbn [with_name with_proc l_proc l_name p_cmds].
    split; [reflexivity|]. now rewrite told_name_app.
Qed.
Theorem sub_tells c i v ls ls' l p : NoDup (map l_ix ls) -> In l ls -> l_ix l = i -> l_managed l = true -> l_proc l = Some p -> u_run (l_su l) = true ->
  step_link c (EWfd i v) ls = Ok ls' -> exists l' p', In l' ls' /\ l_ix l' = i /\ l_proc l' = Some p' /\ told_sub (p_cmds p') = Some v /\ l_wfd l' = Some v.
Proof.
  intros D I E M P U0. cbn [step_link]. intros [= <-]. pose proof (in_find ls l D I) as F. rewrite E in F. unfold upd. rewrite F.
  assert (X : l_ix (set_wfd_sub v l) = l_ix l) by exact (act_ix c (EWfd i v) l).
  exists (set_wfd_sub v l), (mkProc (p_arg p) (p_conf p) (p_cmds p ++ [CSub v])). split.
  - apply put_new with (x := l). now rewrite X, E.
  - rewrite X. split; [exact E|]. unfold set_wfd_sub, tell. rewrite M, U0, P. cbn [with_wfd with_proc l_proc l_wfd p_cmds].
    split; [reflexivity|]. now rewrite told_sub_app.
Qed.

(** ** Control paths *)
Definition S_ (l : lnk) : Prop := l_public l = true /\ (forall p, l_proc l = Some p -> l_at l = Some (p_arg p)) /\ (forall n, l_at l = Some n -> n = l_ifname l).
Lemma S_managed ok b l : S_ l -> S_ (set_managed ok b l).
Proof.
  unfold S_, set_managed. intros (B & H & N). destruct (Bool.eqb (l_managed l) b); [auto|].
  destruct b, ok; cbn; (split; [exact B|split]); try discriminate; [intros p [= <-]; reflexivity|now intros n [= <-]].
Qed.
Lemma S_tell k l : S_ l -> S_ (tell k l).
Proof.
  intros (B & H & N). destruct (tell_proj k l) as (E1 & E2 & E3 & E4 & E5 & E6 & E7 & _). unfold S_. rewrite E1, E2, E7. split; [exact B|split; [|exact N]].
  intros p X. apply tell_proc in X as (p0 & P & ->). cbn. now apply H.
Qed.
Lemma S_act c e l : (forall i name tag ok, e <> EUdev Move i name tag ok) -> S_ l -> S_ (act_on c e l).
Proof.
  intros M H. destruct e; cbn [act_on].
  - destruct a; [|now destruct (M i name tag ok)|]; cbv zeta; (destruct (m_rely c); [now apply S_managed|]; destruct (_ && _); [now apply S_managed|exact H]).
  - now apply S_managed.
  - unfold set_name. destruct s as [|b s]; [exact H|]. destruct (u_run _); [|exact H]. exact (S_tell _ _ H).
  - unfold set_wfd_sub. destruct (l_managed l); [|exact H]. destruct (u_run _); [|exact H]. exact (S_tell _ _ H).
  - destruct (l_proc l) eqn:P; [|exact H]. destruct (l_up l); [exact H|]. destruct H as (B & H & N). split; [exact B|split; [|exact N]]. intros q X. cbn in *. rewrite P in H. now apply H.
  - destruct (l_proc l); [|exact H]. unfold reply. destruct (u_wait (l_su l)) as [|k w]; [exact H|]. cbv zeta.
    match goal with |- context[with_su ?u ?x] => set (y := with_su u x); assert (E : S_ y) end.
    { unfold y. match goal with |- S_ (with_su _ ?x) => assert (X : S_ x) end; [|exact X].
      destruct k; try exact H; match goal with |- context[if ?b then _ else _] => destruct b end; try exact H; now apply S_tell. }
    destruct (negb _ && _); [|exact E]. unfold supplicant_up. rewrite (proj1 E). exact E.
  - destruct (l_proc l); [|exact H]. destruct H as (B & H & N). split; [exact B|split; [|exact N]]. intros q X. discriminate X.
  - destruct (l_at l) as [n|] eqn:A; [|exact H]. destruct (l_proc l); [exact H|]. destruct H as (B & H & N). split; [exact B|]. cbn. split; [|exact N]. intros q [= <-]. cbn. rewrite A. f_equal. now apply N.
Qed.
Theorem paths_unmoved c es ls : ~ moves es -> run_links c es [] = Ok ls -> same_path ls.
Proof.
  intros M H. assert (F : Forall S_ ls).
  { refine (inv_run S_ c es [] ls _ _ _ H); [| |constructor].
    - intros e i n tag ok _ _. unfold created. destruct (_ && _); [apply S_managed|]; (split; [reflexivity|]); cbn; split; discriminate.
    - intros e l J T. apply S_act. intros i name tag ok ->. apply M. unfold moves. eauto 6. }
  intros l p I P. rewrite Forall_forall in F. now apply (F l I).
Qed.
