From Verif Require Import Base SrvLife_Model SrvLife_Spec.

Definition inv (w : world) : Prop :=
  NoDup (map s_id (srcs w)) /\ Forall (fun s => 0 < s_id s < next_id w) (srcs w) /\ 0 < next_id w /\
  opened w = closed w ++ watched w /\
  match srv w with
  | None => watched w = []
  | Some s =>
      (watch s = 0 \/ watch s = guint_max) /\ watched w = [] \/
      started s = true /\ exists f, watched w = [f] /\ In (Src (watch s) (Some f)) (srcs w)
  end.

Lemma watched_app a b w : srcs w = a ++ b -> watched w = flat_map sockof a ++ flat_map sockof b.
Proof. unfold watched; intros ->. apply flat_map_app. Qed.
Lemma split_source l s : In s l -> NoDup (map s_id l) -> exists a b, l = a ++ s :: b /\
  filter (fun x => s_id x =? s_id s) l = [s] /\ filter (fun x => negb (s_id x =? s_id s)) l = a ++ b.
Proof.
  intros Hi Hn. apply in_split in Hi as (a & b & ->). exists a, b. split; [reflexivity|].
  rewrite map_app in Hn. cbn [map] in Hn. apply NoDup_remove_2 in Hn.
  assert (Ha : forall x, In x a -> (s_id x =? s_id s) = false).
  { intros x Hx. apply N.eqb_neq. intros E. apply Hn. apply in_or_app; left. rewrite <- E. now apply in_map. }
  assert (Hb : forall x, In x b -> (s_id x =? s_id s) = false).
  { intros x Hx. apply N.eqb_neq. intros E. apply Hn. apply in_or_app; right. rewrite <- E. now apply in_map. }
  rewrite !filter_app. cbn [filter]. rewrite N.eqb_refl. cbn [negb].
  assert (F : forall l, (forall x, In x l -> (s_id x =? s_id s) = false) ->
    filter (fun x => s_id x =? s_id s) l = [] /\ filter (fun x => negb (s_id x =? s_id s)) l = l).
  { induction l as [|x l IH]; intros Hl; [auto|]. cbn [filter]. rewrite (Hl x) by (left; reflexivity). cbn [negb].
    destruct IH as [-> ->]; [intros; apply Hl; right; assumption|auto]. }
  destruct (F a Ha) as [-> ->], (F b Hb) as [-> ->]. auto.
Qed.
Lemma nodup_drop (a b : list source) s : NoDup (map s_id (a ++ s :: b)) -> NoDup (map s_id (a ++ b)).
Proof. rewrite !map_app. cbn [map]. apply NoDup_remove_1. Qed.
Lemma forall_drop {P : source -> Prop} a b s : Forall P (a ++ s :: b) -> Forall P (a ++ b).
Proof. rewrite !Forall_app. intros [H1 H2]. inversion H2; auto. Qed.
Lemma drop_is w s : In s (srcs w) -> NoDup (map s_id (srcs w)) -> exists a b, srcs w = a ++ s :: b /\
  drop_source (s_id s) w = World (srv w) (a ++ b) (next_id w) (opened w) (closed w ++ sockof s) (next_fd w) (warned w).
Proof.
  intros Hi Hn. destruct (split_source _ _ Hi Hn) as (a & b & E & F1 & F2). exists a, b. split; [exact E|].
  unfold drop_source. rewrite F1, F2. cbn [flat_map]. rewrite app_nil_r. reflexivity.
Qed.
Lemma one_sock a b s f : flat_map sockof (a ++ s :: b) = [f] -> s_sock s = Some f -> flat_map sockof (a ++ b) = [].
Proof.
  rewrite !flat_map_app. cbn [flat_map]. intros H Hs. unfold sockof at 2 in H; rewrite Hs in H.
  destruct (flat_map sockof a) as [|x [|y l]]; cbn [app] in *; [|discriminate|discriminate].
  injection H as H. exact H.
Qed.
(** Removing the source of the server. *)
Lemma drop_mine w s f : inv w -> watched w = [f] -> In s (srcs w) -> s_sock s = Some f -> forall v,
  (match v with None => True | Some x => watch x = 0 \/ watch x = guint_max end) ->
  inv (set_srv v (drop_source (s_id s) w)) /\ watched (drop_source (s_id s) w) = [] /\
  others (drop_source (s_id s) w) = others w /\ warned (drop_source (s_id s) w) = warned w /\ next_id (drop_source (s_id s) w) = next_id w.
Proof.
  intros (Hn & Hf & Hp & Ho & _) Hw Hi Hs v Hv. destruct (drop_is _ _ Hi Hn) as (a & b & E & ->).
  unfold watched, others in *. rewrite E in *. cbn [srcs warned next_id set_srv].
  pose proof (one_sock a b s f Hw Hs) as H0.
  split; [|split; [exact H0|split; [rewrite !filter_app; cbn [filter]; now rewrite Hs|auto]]].
  unfold inv, watched, set_srv. cbn [srcs next_id opened closed srv].
  split; [eapply nodup_drop; eauto|]. split; [eapply forall_drop; eauto|]. split; [assumption|].
  rewrite H0, app_nil_r. unfold sockof. rewrite Hs.
  split; [rewrite Ho; f_equal; exact Hw|].
  destruct v as [x|]; [left; auto|reflexivity].
Qed.
Lemma missing w id : existsb (fun s => s_id s =? id) (srcs w) = false <-> ~ In id (map s_id (srcs w)).
Proof.
  split.
  - intros H Hi. apply in_map_iff in Hi as (s & E & Hi). assert (existsb (fun s => s_id s =? id) (srcs w) = true); [|congruence].
    apply existsb_exists. exists s. split; [assumption|]. now apply N.eqb_eq.
  - intros H. destruct (existsb _ _) eqn:E; [|reflexivity]. apply existsb_exists in E as (s & Hi & E). apply N.eqb_eq in E. subst.
    exfalso. apply H. now apply in_map.
Qed.
(** What stopping does. *)
Lemma stops w s : inv w -> srv w = Some s -> next_id w <= guint_max -> exists w', server_stop w = Ok w' /\ inv w' /\
  srv w' = Some (Server (ref_count s) false 0) /\ watched w' = [] /\ others w' = others w /\ next_id w' = next_id w /\
  warned w' = warned w ++ (if watch s =? guint_max then [guint_max] else []).
Proof.
  intros I Hs Hr. pose proof I as (Hn & Hf & Hp & Ho & Hm). rewrite Hs in Hm. unfold server_stop. rewrite Hs.
  destruct Hm as [[[Hw|Hw] H0]|(Hst & f & H1 & Hi)].
  - rewrite Hw. cbn [N.ltb]. eexists; split; [reflexivity|].
    unfold inv, watched, others, set_srv in *. cbn [srcs next_id opened closed srv warned watch].
    replace (0 =? guint_max) with false by reflexivity. rewrite app_nil_r. repeat (split; [auto|]); auto.
  - rewrite Hw. replace (0 <? guint_max) with true by reflexivity. eexists; split; [reflexivity|].
    unfold source_remove. replace (existsb _ _) with false.
    2:{ symmetry. apply missing. intros Hi. apply in_map_iff in Hi as (x & E & Hi). rewrite Forall_forall in Hf. specialize (Hf x Hi). lia. }
    unfold inv, watched, others, set_srv, warn in *. cbn [srcs next_id opened closed srv warned watch].
    replace (guint_max =? guint_max) with true by reflexivity. repeat (split; [auto|]); auto.
  - assert (Hb : 0 < watch s < next_id w) by (rewrite Forall_forall in Hf; exact (Hf _ Hi)).
    replace (0 <? watch s) with true by (symmetry; apply N.ltb_lt; lia).
    eexists; split; [reflexivity|]. unfold source_remove.
    replace (existsb _ _) with true.
    2:{ symmetry. apply existsb_exists. exists (Src (watch s) (Some f)). split; [assumption|]. apply N.eqb_refl. }
    destruct (drop_mine w (Src (watch s) (Some f)) f I H1 Hi eq_refl (Some (Server (ref_count s) false 0)) (or_introl eq_refl)) as (J & J1 & J2 & J3 & J4).
    cbn [s_id] in *. replace (watch s =? guint_max) with false by (symmetry; apply N.eqb_neq; lia). rewrite app_nil_r.
    split; [exact J|]. split; [reflexivity|]. split; [exact J1|]. split; [exact J2|]. split; [exact J4|exact J3].
Qed.
Lemma inv_srv w s s' : inv w -> srv w = Some s -> watch s' = watch s -> started s' = started s -> inv (set_srv (Some s') w).
Proof.
  intros (Hn & Hf & Hp & Ho & Hm) Hs E1 E2. rewrite Hs in Hm. unfold inv, watched, set_srv in *. cbn [srcs next_id opened closed srv].
  rewrite E1, E2. auto.
Qed.
Lemma inv_gone w : inv w -> watched w = [] -> inv (set_srv None w).
Proof. intros (Hn & Hf & Hp & Ho & Hm) H0. unfold inv, watched, set_srv in *. cbn [srcs next_id opened closed srv]. auto. Qed.
Lemma nodup_add w x : NoDup (map s_id (srcs w)) -> Forall (fun s => 0 < s_id s < next_id w) (srcs w) -> 0 < next_id w ->
  NoDup (map s_id (srcs w ++ [Src (next_id w) x])) /\ Forall (fun s => 0 < s_id s < next_id w + 1) (srcs w ++ [Src (next_id w) x]).
Proof.
  intros Hn Hf Hp. split.
  - rewrite map_app. cbn [map s_id]. apply NoDup_rev in Hn. rewrite <- (rev_involutive (map s_id (srcs w) ++ [next_id w])).
    apply NoDup_rev. rewrite rev_app_distr. cbn [rev app]. constructor; [|assumption].
    rewrite <- in_rev. intros Hi. apply in_map_iff in Hi as (s & E & Hi). rewrite Forall_forall in Hf. specialize (Hf s Hi). lia.
  - apply Forall_app; split; [eapply Forall_impl; [|exact Hf]; intros a Ha; cbn beta in *; lia|].
    constructor; [cbn [s_id]; lia|constructor].
Qed.
(** What starting does. *)
Lemma starts w s : inv w -> srv w = Some s -> started s = false -> exists w', server_start true w = Ok (w', 0%Z) /\ inv w' /\
  srv w' = Some (Server (ref_count s) true (next_id w)) /\ watched w' = [next_fd w] /\ others w' = others w /\
  next_id w' = next_id w + 1 /\ warned w' = warned w.
Proof.
  intros I Hs Hst. pose proof I as (Hn & Hf & Hp & Ho & Hm). rewrite Hs in Hm. unfold server_start. rewrite Hs, Hst.
  destruct Hm as [[_ H0]|(Hst' & _)]; [|congruence]. cbn [negb]. eexists; split; [reflexivity|].
  destruct (nodup_add w (Some (next_fd w)) Hn Hf Hp) as [A B].
  unfold inv, watched, others, set_srv, add_watch in *. cbn [srcs next_id opened closed srv warned watch started].
  rewrite flat_map_app, filter_app, H0. cbn [flat_map app filter s_sock]. rewrite !app_nil_r.
  split; [|repeat (split; [reflexivity|]); reflexivity].
  split; [exact A|]. split; [exact B|]. split; [lia|].
  split; [rewrite Ho, H0, app_nil_r; reflexivity|]. right. split; [reflexivity|]. eexists; split; [reflexivity|].
  apply in_or_app; right; left; reflexivity.
Qed.

(** One step: it is defined and keeps the invariant; references, room, and warnings. *)
Definition count (w : world) : N := match srv w with Some s => ref_count s | None => 0 end.
Definition is_new (w : world) : bool := match srv w with Some s => watch s =? guint_max | None => false end.
Definition new_ok (w : world) : Prop := match srv w with Some s => watch s = guint_max -> started s = false | None => True end.
Definition alive (w : world) : Prop := match srv w with Some s => 0 < ref_count s | None => True end.
Definition call (o : op) : bool := match o with OStart _ | OStop | ORef | OUnref => true | _ => false end.
Definition after (n : N) (o : op) : N := match o with ORef => n + 1 | OUnref => n - 1 | _ => n end.
Definition ends (n : N) (o : op) : bool := match o with OStop => true | OUnref => n =? 1 | _ => false end.
Definition first_start (o : op) : bool := match o with OStart true => true | _ => false end.

Lemma in_watched w id f : In (Src id (Some f)) (srcs w) -> In f (watched w).
Proof. intros H. unfold watched. apply in_flat_map. eexists; split; [exact H|]. left; reflexivity. Qed.
Lemma find_source w id s : find (fun s => s_id s =? id) (srcs w) = Some s -> In s (srcs w) /\ s_id s = id.
Proof. intros H. apply find_some in H as [H1 H2]. apply N.eqb_eq in H2. auto. Qed.

Lemma step_inv o w : inv w -> alive w -> new_ok w -> next_id w < guint_max -> (call o = true -> 0 < count w) ->
  exists w', step o w = Ok w' /\ inv w' /\ alive w' /\ new_ok w' /\ next_id w' <= next_id w + 1 /\ count w' = after (count w) o /\
    warned w' = warned w ++ (if ends (count w) o && is_new w then [guint_max] else []) /\
    (is_error o = false -> (match srv w with Some s => started s = true -> watched w <> [] | None => True end) ->
       match srv w' with Some s => started s = true -> watched w' <> [] | None => True end) /\
    is_new w' = is_new w && negb (ends (count w) o || first_start o).
Proof.
  intros I Ha Hnw Hr Hc. pose proof I as (Hn & Hf & Hp & Ho & Hm).
  unfold alive, new_ok, count, is_new in *.
  destruct o as [sock| | | |id| |id]; cbn [step call after ends first_start is_error] in *.
  - (* start *)
    destruct (srv w) as [s|] eqn:Hs; [|specialize (Hc eq_refl); lia].
    destruct (started s) eqn:Hst.
    + unfold server_start. rewrite Hs, Hst. cbn [bind fst]. exists w. rewrite Hs.
      split; [reflexivity|]. split; [exact I|]. split; [exact Ha|]. split; [intros E; specialize (Hnw E); congruence|].
      split; [lia|]. split; [reflexivity|]. split; [now rewrite app_nil_r|]. split; [intros _ H; rewrite ?Hst; exact H|].
      destruct (watch s =? guint_max) eqn:E; [|reflexivity]. apply N.eqb_eq in E. specialize (Hnw E). congruence.
    + destruct sock.
      * destruct (starts w s I Hs Hst) as (w' & -> & I' & E1 & E2 & E3 & E4 & E5). cbn [bind fst]. exists w'. rewrite E1. cbn [ref_count started watch].
        split; [reflexivity|]. split; [exact I'|]. split; [exact Ha|]. split; [intros E|].
        { lia. }
        split; [lia|]. split; [reflexivity|]. split; [now rewrite E5, app_nil_r|]. split; [intros _ _ _; rewrite E2; discriminate|].
        rewrite andb_false_r. apply N.eqb_neq. lia.
      * unfold server_start. rewrite Hs, Hst. cbn [bind fst negb]. exists w. rewrite Hs.
        split; [reflexivity|]. split; [exact I|]. split; [exact Ha|]. split; [intros _; exact Hst|].
        split; [lia|]. split; [reflexivity|]. split; [now rewrite app_nil_r|]. split; [intros _ H; rewrite ?Hst; exact H|].
        cbn [orb negb]. now rewrite andb_true_r.
  - (* stop *)
    destruct (srv w) as [s|] eqn:Hs; [|specialize (Hc eq_refl); lia].
    destruct (stops w s I Hs (N.lt_le_incl _ _ Hr)) as (w' & -> & I' & E1 & E2 & E3 & E4 & E5). exists w'. rewrite E1. cbn [ref_count started watch].
    split; [reflexivity|]. split; [exact I'|]. split; [exact Ha|]. split; [intros; reflexivity|]. split; [lia|]. split; [reflexivity|].
    split; [exact E5|]. split; [intros _ _ D; discriminate|]. rewrite andb_false_r. reflexivity.
  - (* ref *)
    destruct (srv w) as [s|] eqn:Hs; [|specialize (Hc eq_refl); lia]. unfold server_ref. rewrite Hs. eexists; split; [reflexivity|].
    split; [eapply inv_srv; eauto|]. unfold set_srv, watched. cbn [srv ref_count started watch warned next_id srcs].
    split; [lia|]. split; [exact Hnw|]. split; [lia|]. split; [reflexivity|]. split; [now rewrite app_nil_r|].
    split; [intros _ H; exact H|]. cbn [orb negb]. now rewrite andb_true_r.
  - (* unref *)
    destruct (srv w) as [s|] eqn:Hs; [|specialize (Hc eq_refl); lia]. unfold server_unref. rewrite Hs.
    destruct (ref_count s =? 1) eqn:E1; cbn [negb].
    + apply N.eqb_eq in E1.
      assert (I0 : inv (set_srv (Some (Server 0 (started s) (watch s))) w)) by (eapply inv_srv; eauto).
      destruct (stops _ _ I0 eq_refl (N.lt_le_incl _ _ Hr)) as (w' & -> & I' & E2 & E3 & E4 & E5 & E6). cbn [bind]. eexists; split; [reflexivity|].
      split; [now apply inv_gone|]. cbn [set_srv srv warned next_id watch] in *. split; [exact Logic.I|]. split; [exact Logic.I|].
      split; [lia|]. split; [lia|]. split; [rewrite E6; reflexivity|]. split; [auto|]. now rewrite andb_false_r.
    + apply N.eqb_neq in E1. eexists; split; [reflexivity|].
      split; [eapply inv_srv; eauto|]. unfold set_srv, watched. cbn [srv ref_count started watch warned next_id srcs].
      split; [lia|]. split; [exact Hnw|]. split; [lia|]. split; [reflexivity|]. split; [now rewrite app_nil_r|].
      split; [intros _ H; exact H|]. cbn [orb negb]. now rewrite andb_true_r.
  - (* error *)
    destruct (find (fun s => s_id s =? id) (srcs w)) as [[i [f|]]|] eqn:F.
    2,3: exists w; split; [reflexivity|]; split; [exact I|]; split; [exact Ha|]; split; [exact Hnw|];
      split; [lia|]; split; [reflexivity|]; split; [now rewrite app_nil_r|]; split; [intros D; discriminate|];
      cbn [orb negb]; now rewrite andb_true_r.
    apply find_source in F as [Hi E]. cbn [s_id] in E. subst i.
    pose proof (in_watched _ _ _ Hi) as Hw. unfold listener_error.
    destruct (srv w) as [s|] eqn:Hs; [|rewrite Hm in Hw; destruct Hw].
    destruct Hm as [[_ H0]|(Hst & g & H1 & Hg)]; [rewrite H0 in Hw; destruct Hw|].
    rewrite H1 in Hw. destruct Hw as [->|[]]. eexists; split; [reflexivity|].
    destruct (drop_mine w (Src id (Some f)) f I H1 Hi eq_refl (Some (Server (ref_count s) (started s) 0)) (or_introl eq_refl)) as (J & J1 & J2 & J3 & J4).
    cbn [s_id] in *.
    assert (Hb : 0 < watch s < next_id w) by (rewrite Forall_forall in Hf; exact (Hf _ Hg)).
    split; [exact J|]. cbn [drop_source set_srv srv ref_count started watch warned next_id] in *.
    split; [exact Ha|]. split; [intros D; discriminate|]. split; [lia|]. split; [reflexivity|]. split; [now rewrite app_nil_r|].
    split; [intros D; discriminate|]. replace (watch s =? guint_max) with false by (symmetry; apply N.eqb_neq; lia). reflexivity.
  - (* other *)
    eexists; split; [reflexivity|]. destruct (nodup_add w None Hn Hf Hp) as [A B].
    assert (W : watched (add_other w) = watched w) by (unfold watched, add_other; cbn [srcs]; rewrite flat_map_app; cbn [flat_map sockof s_sock app]; apply app_nil_r).
    split.
    { unfold inv. rewrite W. unfold add_other; cbn [srcs next_id opened closed srv]. split; [exact A|]. split; [exact B|]. split; [lia|]. split; [exact Ho|].
      destruct (srv w) as [s|]; [|exact Hm]. destruct Hm as [H0|(Hst & f & H1 & Hi)]; [left; exact H0|right; split; [exact Hst|]].
      exists f; split; [exact H1|]. apply in_or_app; left; exact Hi. }
    rewrite W. unfold add_other; cbn [srcs next_id warned srv].
    split; [exact Ha|]; split; [exact Hnw|]; split; [lia|]; split; [reflexivity|]; split; [now rewrite app_nil_r|]; split; [intros _ H; exact H|].
    cbn [orb negb]; now rewrite andb_true_r.
  - (* the end of another *)
    destruct (find (fun s => s_id s =? id) (srcs w)) as [[i [f|]]|] eqn:F.
    1,3: exists w; split; [reflexivity|]; split; [exact I|]; split; [exact Ha|]; split; [exact Hnw|];
      split; [lia|]; split; [reflexivity|]; split; [now rewrite app_nil_r|]; split; [intros _ H; exact H|];
      cbn [orb negb]; now rewrite andb_true_r.
    apply find_source in F as [Hi E]. cbn [s_id] in E. subst i. eexists; split; [reflexivity|].
    destruct (drop_is w (Src id None) Hi Hn) as (a & b & E & D). cbn [s_id sockof s_sock] in D. rewrite app_nil_r in D.
    assert (W : watched (drop_source id w) = watched w) by (rewrite D; unfold watched; cbn [srcs]; rewrite E, !flat_map_app; reflexivity).
    split.
    { unfold inv. rewrite W, D. cbn [srcs next_id opened closed srv]. rewrite E in *.
      split; [eapply nodup_drop; eauto|]. split; [eapply forall_drop; eauto|]. split; [exact Hp|]. split; [exact Ho|].
      destruct (srv w) as [s|]; [|exact Hm]. destruct Hm as [H0|(Hst & f & H1 & Hg)]; [left; exact H0|right; split; [exact Hst|]].
      exists f; split; [exact H1|]. apply in_app_or in Hg as [Hg|[Hg|Hg]]; [|discriminate|]; apply in_or_app; auto. }
    rewrite W, D. cbn [srcs next_id warned srv].
    split; [exact Ha|]; split; [exact Hnw|]; split; [lia|]; split; [reflexivity|]; split; [now rewrite app_nil_r|]; split; [intros _ H; exact H|].
    cbn [orb negb]; now rewrite andb_true_r.
Qed.

(** Histories. *)
Lemma unused_cons n o os : unused n (o :: os) = ends n o || negb (first_start o) && unused (after n o) os.
Proof. destruct o as [[|]| | | |id| |id]; cbn [unused ends first_start negb andb orb after]; reflexivity. Qed.
Lemma refs_cons n o os m : refs n (o :: os) = Some m -> (call o = true -> 0 < n) /\ refs (after n o) os = Some m.
Proof.
  destruct o as [b| | | |id| |id]; cbn [refs call after]; try (destruct (N.eqb_spec n 0) as [->|H]; [discriminate|]); intros E;
    (split; [intros D; try discriminate; lia|exact E]).
Qed.
Definition hearing (w : world) : Prop := match srv w with Some s => started s = true -> watched w <> [] | None => True end.
Lemma run_inv os : forall w n, inv w -> alive w -> new_ok w -> room w os -> refs (count w) os = Some n ->
  exists w', run os w = Ok w' /\ inv w' /\ alive w' /\ count w' = n /\ next_id w' <= next_id w + lenN os /\
    warned w' = warned w ++ (if is_new w && unused (count w) os then [guint_max] else []) /\
    (existsb is_error os = false -> hearing w -> hearing w').
Proof.
  induction os as [|o os IH]; intros w n I Ha Hn Hr E; unfold room in *; len.
  - exists w. cbn [run unused refs] in *. injection E as <-. rewrite andb_false_r, app_nil_r. repeat (split; [first [assumption|reflexivity|lia]|]). auto.
  - apply refs_cons in E as [Hc E].
    destruct (step_inv o w I Ha Hn) as (w1 & S1 & I1 & A1 & N1 & R1 & C1 & W1 & H1 & B1); [lia|exact Hc|].
    destruct (IH w1 n I1 A1 N1) as (w2 & S2 & I2 & A2 & C2 & R2 & W2 & H2); [lia|rewrite C1; exact E|].
    exists w2. cbn [run]. rewrite S1. cbn [bind]. split; [exact S2|]. split; [exact I2|]. split; [exact A2|]. split; [exact C2|].
    split; [lia|]. split.
    + rewrite W2, W1, unused_cons, B1, C1. rewrite <- app_assoc. f_equal.
      destruct (is_new w); cbn [andb]; [|rewrite andb_false_r; reflexivity].
      rewrite andb_true_r. destruct (ends (count w) o); cbn [orb negb andb]; [reflexivity|].
      destruct (first_start o); reflexivity.
    + cbn [existsb]. intros F Hh. apply orb_false_iff in F as [F1 F2]. apply H2; [exact F2|]. now apply H1.
Qed.

Lemma made_is w w1 : before w -> made w w1 -> w1 = set_srv (Some (Server 1 false guint_max)) w.
Proof.
  intros _ (f & i & E). unfold server_new in E.
  destruct (i <? 0)%Z; [discriminate|]. destruct (negb (f_memory f)); [discriminate|]. destruct (negb (f_name f)); [discriminate|].
  destruct (negb (f_up f)); [discriminate|]. destruct (f_address f =? 0); [discriminate|]. congruence.
Qed.
Lemma none_watched l : Forall (fun s => s_sock s = None) l -> flat_map sockof l = [].
Proof. induction 1 as [|s l H _ IH]; [reflexivity|]. cbn [flat_map]. unfold sockof at 1. rewrite H. exact IH. Qed.
Lemma made_inv w w1 : before w -> made w w1 -> inv w1 /\ alive w1 /\ new_ok w1 /\ count w1 = 1 /\ is_new w1 = true /\ hearing w1 /\
  next_id w1 = next_id w /\ warned w1 = [] /\ watched w1 = [].
Proof.
  intros B M. rewrite (made_is _ _ B M). destruct B as (Hs & Hn & Hf & Hp & Ho & Hc & Hw).
  assert (W : flat_map sockof (srcs w) = []) by (apply none_watched; eapply Forall_impl; [|exact Hf]; intros a [Ha _]; exact Ha).
  unfold inv, alive, new_ok, count, is_new, hearing, watched, set_srv. cbn [srv srcs next_id opened closed warned watch started ref_count].
  rewrite W, Ho, Hc.
  split; [|split; [reflexivity|]; split; [reflexivity|]; split; [reflexivity|]; split; [reflexivity|]; split; [intros D; discriminate|]; auto].
  split; [exact Hn|]. split; [eapply Forall_impl; [|exact Hf]; intros a [_ Ha]; exact Ha|]. split; [exact Hp|]. split; [reflexivity|].
  left; auto.
Qed.
Lemma life w w1 os n : before w -> made w w1 -> room w os -> refs 1 os = Some n ->
  exists w2, run os w1 = Ok w2 /\ opened w2 = closed w2 ++ watched w2 /\ (length (watched w2) <= 1)%nat /\
    (srv w2 = None <-> n = 0) /\ (n = 0 -> watched w2 = [] /\ closed w2 = opened w2) /\
    (forall s, srv w2 = Some s -> ref_count s = n).
Proof.
  intros B M R E. destruct (made_inv _ _ B M) as (I & A & Nw & C & W & H & Nx & _).
  unfold room in R. destruct (run_inv os w1 n I A Nw) as (w2 & S & I2 & A2 & C2 & _); [unfold room; lia|rewrite C; exact E|].
  exists w2. split; [exact S|]. destruct I2 as (_ & _ & _ & Ho & Hm). split; [exact Ho|]. unfold count, alive in *.
  destruct (srv w2) as [s|] eqn:Es.
  - split; [destruct Hm as [[_ ->]|(_ & f & -> & _)]; cbn [length]; lia|]. split; [split; [discriminate|lia]|].
    split; [lia|]. intros s0 Hs. congruence.
  - rewrite Hm in *. rewrite app_nil_r in Ho. split; [cbn [length]; lia|]. split; [split; auto|]. split; [auto|]. discriminate.
Qed.
Lemma warnings w w1 os n : before w -> made w w1 -> room w os -> refs 1 os = Some n ->
  exists w2, run os w1 = Ok w2 /\ warned w2 = if unused 1 os then [4294967295] else [].
Proof.
  intros B M R E. destruct (made_inv _ _ B M) as (I & A & Nw & C & W & H & Nx & Wn & _).
  unfold room in R. destruct (run_inv os w1 n I A Nw) as (w2 & S & _ & _ & _ & _ & W2 & _); [unfold room; lia|rewrite C; exact E|].
  exists w2. split; [exact S|]. rewrite W2, Wn, W, C. reflexivity.
Qed.
Lemma listens w w1 os n : before w -> made w w1 -> room w os -> refs 1 os = Some n -> n <> 0 -> existsb is_error os = false ->
  exists w2, run os w1 = Ok w2 /\ forall sock w3, server_start sock w2 = Ok (w3, 0%Z) -> exists f, watched w3 = [f].
Proof.
  intros B M R E Hn0 F. destruct (made_inv _ _ B M) as (I & A & Nw & C & W & H & Nx & Wn & _).
  unfold room in R. destruct (run_inv os w1 n I A Nw) as (w2 & S & I2 & A2 & C2 & _ & _ & H2); [unfold room; lia|rewrite C; exact E|].
  exists w2. split; [exact S|]. intros sock w3 St. specialize (H2 F H). unfold hearing in H2.
  destruct (srv w2) as [s|] eqn:Es; [|unfold server_start in St; rewrite Es in St; discriminate].
  destruct (started s) eqn:Hst.
  - unfold server_start in St. rewrite Es, Hst in St. assert (w3 = w2) as -> by congruence.
    destruct I2 as (_ & _ & _ & _ & Hm). rewrite Es in Hm. destruct Hm as [[_ H0]|(_ & f & H1 & _)]; [|eauto]. exfalso. now apply (H2 eq_refl).
  - destruct (starts w2 s I2 Es Hst) as (w' & S' & _ & _ & W' & _). destruct sock; [|unfold server_start in St; rewrite Es, Hst in St; discriminate].
    rewrite S' in St. assert (w3 = w') as -> by congruence. eauto.
Qed.
Lemma stop_start w w1 os n : before w -> made w w1 -> room w os -> next_id w + lenN os < guint_max -> refs 1 os = Some n -> n <> 0 ->
  exists w2 w3 w4, run os w1 = Ok w2 /\ server_stop w2 = Ok w3 /\ watched w3 = [] /\ others w3 = others w2 /\
    server_start true w3 = Ok (w4, 0%Z) /\ others w4 = others w2 /\ exists f, watched w4 = [f].
Proof.
  intros B M R Rm E Hn0. destruct (made_inv _ _ B M) as (I & A & Nw & C & W & H & Nx & Wn & _).
  unfold room in R. destruct (run_inv os w1 n I A Nw) as (w2 & S & I2 & A2 & C2 & R2 & _); [unfold room; lia|rewrite C; exact E|].
  unfold count in C2. destruct (srv w2) as [s|] eqn:Es; [|lia].
  destruct (stops w2 s I2 Es) as (w3 & S3 & I3 & V3 & W3 & O3 & _); [lia|].
  destruct (starts w3 _ I3 V3 eq_refl) as (w4 & S4 & _ & _ & W4 & O4 & _).
  exists w2, w3, w4. repeat (split; [first [assumption|congruence]|]). eauto.
Qed.
Lemma tries f i w : before w -> server_new f i w = (set_srv (Some (Server 1 false guint_max)) w, NONE) /\ (0 <= i)%Z /\ f_address f <> 0 \/
  exists e, server_new f i w = (w, e) /\ e <> NONE.
Proof.
  intros _. unfold server_new.
  destruct (i <? 0)%Z eqn:Ei; [right; eexists; split; [reflexivity|discriminate]|].
  destruct (negb (f_memory f)); [right; eexists; split; [reflexivity|discriminate]|].
  destruct (negb (f_name f)); [right; eexists; split; [reflexivity|discriminate]|].
  destruct (negb (f_up f)); [right; eexists; split; [reflexivity|discriminate]|].
  destruct (f_address f =? 0) eqn:Ea; [right; eexists; split; [reflexivity|discriminate]|].
  left. split; [reflexivity|]. apply Z.ltb_ge in Ei. apply N.eqb_neq in Ea. auto.
Qed.
