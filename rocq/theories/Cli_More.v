(** Sessions, the end of them, and completion. *)
From Coq Require Import String ZArith.
From Verif Require Import Base Text Mirror_Model Mirror_Client Cli_Model Cli_Spec Cli_Search Cli_Proofs Cli_Means.
Local Open Scope list_scope.

(** ** The picture *)
Definition good (c : client) : Prop := Forall ok_link c /\ NoDup (map (fun l => map lower (cl_label l)) c).
Lemma good_put c l' : good c -> In (cl_label l') (map cl_label c) -> ok_link l' -> good (c_put l' c) /\ map cl_label (c_put l' c) = map cl_label c.
Proof.
  intros [H1 H2] Hl Hk. assert (K : ok (mkSt c None None [])) by (split; [exact H1|split; [exact H2|intros t E; discriminate E]]).
  pose proof (ok_put (mkSt c None None []) l' [] K Hl Hk) as [A [B _]].
  split; [split; assumption|apply put_labels; assumption].
Qed.
Lemma find_link_in c t l : find_link c t = Some l -> In l c.
Proof. destruct t as [|x t]; [destruct c; discriminate|]. induction c as [|y c IH]; cbn [find_link]; [discriminate|]. destruct (case_eq _ _); [injection 1 as <-; left; reflexivity|right; auto]. Qed.
Lemma find_link_none c t : t <> [] -> find_link c t = None -> ~ In (map lower t) (map (fun l => map lower (cl_label l)) c).
Proof.
  intros Ht. destruct t as [|x t]; [congruence|]. induction c as [|y c IH]; cbn [find_link map]; [intros _ []|]. destruct (case_eq (cl_label y) (x :: t)) eqn:E; [discriminate|].
  intros H [K|K]; [|apply IH; assumption]. change (map lower (cl_label y) = map lower (x :: t)) in K. apply case_lower in K. congruence.
Qed.
Lemma parse_ok l ps : ok_link l -> ok_link (link_parse l ps).
Proof.
  unfold link_parse. revert l. induction ps as [|p ps IH]; intros l H; cbn [fold_left]; [exact H|]. apply IH. destruct H as [H1 H2].
  destruct p; cbn [link_prop]; try (split; assumption); try (split; cbn [cl_name cl_wfd]; congruence). destruct (n =? 0); split; assumption.
Qed.
Lemma parse_name l ps : cl_name l <> None \/ (exists t, In (Name t) ps) -> cl_name (link_parse l ps) <> None.
Proof.
  unfold link_parse. revert l. induction ps as [|p ps IH]; intros l [H|[t H]]; cbn [fold_left]; [exact H|destruct H| |]; apply IH.
  - left. destruct p; cbn [link_prop cl_name]; try assumption; try congruence. destruct (n =? 0); assumption.
  - destruct H as [->|H]; [left; cbn; congruence|right; exists t; exact H].
Qed.
Lemma parse_wfd l ps : cl_wfd l <> None \/ (exists t, In (Wfd t) ps) -> cl_wfd (link_parse l ps) <> None.
Proof.
  unfold link_parse. revert l. induction ps as [|p ps IH]; intros l [H|[t H]]; cbn [fold_left]; [exact H|destruct H| |]; apply IH.
  - left. destruct p; cbn [link_prop cl_wfd]; try assumption; try congruence. destruct (n =? 0); assumption.
  - destruct H as [->|H]; [left; cbn; congruence|right; exists t; exact H].
Qed.
Lemma parse_label l ps : cl_label (link_parse l ps) = cl_label l. Proof. apply link_parse_see. Qed.
Lemma link_of_in c t l : link_of c t = Some l -> In l c.
Proof. unfold link_of. destruct (break_at 64 t) as [a [[|x b]|]]; cbn [snd]; try discriminate. apply find_link_in. Qed.
Lemma good_in c l : good c -> In l c -> ok_link l. Proof. intros [H _] K. rewrite Forall_forall in H. auto. Qed.
(** Notes that matter. *)
Definition plain_note (n : note) : Prop := match n with LinkOn _ | LinkOff _ => False | _ => True end.
Lemma put_plain c l l' : good c -> In l c -> cl_label l' = cl_label l -> ok_link l' -> good (c_put l' c) /\ map cl_label (c_put l' c) = map cl_label c.
Proof. intros G Hl E K. apply good_put; auto. rewrite E. apply in_map. exact Hl. Qed.
Lemma peers_ok ps l : ok_link l -> ok_link (c_peers ps l). Proof. intros H. exact H. Qed.
Lemma parse_notes p ps : Forall plain_note (snd (peer_parse p ps)).
Proof. unfold peer_parse. cbn [snd]. destruct (Bool.eqb _ _); [constructor|]. destruct (cp_conn _); repeat constructor. Qed.

Inductive heard (c : client) : client * list note -> Prop :=
| Heard_same c' ns : good c' -> map cl_label c' = map cl_label c -> Forall plain_note ns -> heard c (c', ns)
| Heard_new l : good (c ++ [l]) -> heard c (c ++ [l], [LinkOn (cl_label l)])
| Heard_gone l ns : In l c -> Forall plain_note ns -> heard c (filter (fun x => negb (case_eq (cl_label x) (cl_label l))) c, ns ++ [LinkOff (cl_label l)]).
Lemma nodup_app_one {A} (l : list A) x : NoDup l -> ~ In x l -> NoDup (l ++ [x]).
Proof. intros H K. apply NoDup_rev in H. rewrite <- (rev_involutive (l ++ [x])). apply NoDup_rev. rewrite rev_app_distr. cbn. constructor; [rewrite <- in_rev; exact K|exact H]. Qed.
Lemma hear_heard c g : good c -> event_ok (Heard g) -> heard c (hear c g).
Proof.
  intros G E. destruct g as [[t|t|] ps|[t|t|]|[t|t|] ps|t b]; cbn [hear add_object remove_object change_object].
  - destruct (find_link c t) as [l|] eqn:F; [constructor; auto|]. cbn [event_ok] in E. destruct E as [Ht [E1 E2]]. rewrite <- (parse_label (new_link t) ps) at 2. cbn [new_link cl_label]. apply Heard_new.
    destruct G as [G1 G2]. split.
    + apply Forall_app. split; [exact G1|]. constructor; [|constructor]. split; [apply parse_name; auto|apply parse_wfd; auto].
    + rewrite map_app. cbn [map]. rewrite parse_label. apply nodup_app_one; [exact G2|]. apply find_link_none; assumption.
  - destruct (find_peer c t); [constructor; auto|]. destruct (link_of c t) as [l|] eqn:F; [|constructor; auto]. pose proof (parse_notes (new_peer t) ps) as PN. destruct (peer_parse (new_peer t) ps) as [q n]. cbn [snd] in PN.
    pose proof (link_of_in _ _ _ F) as Hl. destruct (put_plain c l (c_peers (cl_peers l ++ [q]) l) G Hl eq_refl (peers_ok _ _ (good_in _ _ G Hl))). constructor; auto. apply Forall_app. split; [exact PN|repeat constructor].
  - constructor; auto.
  - destruct (find_link c t) as [l|] eqn:F; [|constructor; auto]. pose proof (find_link_in _ _ _ F) as Hl. unfold free_link.
    assert (C : case_eq (cl_label l) t = true). { destruct t as [|x t]; [destruct c; discriminate|]. clear -F. induction c as [|y c IH]; cbn [find_link] in F; [discriminate|]. destruct (case_eq (cl_label y) (x :: t)) eqn:E; [injection F as <-; exact E|auto]. }
    replace (filter _ c) with (filter (fun x => negb (case_eq (cl_label x) (cl_label l))) c).
    + apply Heard_gone; [exact Hl|]. apply Forall_forall. intros n Hn. apply in_map_iff in Hn. destruct Hn as [p [<- _]]. exact Logic.I.
    + apply filter_ext. intros x. f_equal. rewrite (case_sym (cl_label x) t). rewrite (case_sym (cl_label x)). apply case_trans. exact C.
  - destruct (find_peer c t) as [q|]; [|constructor; auto]. destruct (link_of c t) as [l|] eqn:F; [|constructor; auto]. pose proof (link_of_in _ _ _ F) as Hl.
    match goal with |- heard c (c_put ?l' c, _) => destruct (put_plain c l l' G Hl eq_refl (peers_ok _ _ (good_in _ _ G Hl))) end. constructor; auto; repeat constructor.
  - constructor; auto.
  - destruct (find_link c t) as [l|] eqn:F; [|constructor; auto]. pose proof (find_link_in _ _ _ F) as Hl. destruct (put_plain c l (link_parse l ps) G Hl (parse_label l ps) (parse_ok _ _ (good_in _ _ G Hl))). constructor; auto.
  - destruct (find_peer c t) as [q|]; [|constructor; auto]. destruct (link_of c t) as [l|] eqn:F; [|constructor; auto]. pose proof (link_of_in _ _ _ F) as Hl. pose proof (parse_notes q ps) as PN. destruct (peer_parse q ps) as [q' n].
    match goal with |- heard c (c_put ?l' c, _) => destruct (put_plain c l l' G Hl eq_refl (peers_ok _ _ (good_in _ _ G Hl))) end. constructor; auto.
  - constructor; auto.
  - destruct (find_link c t) as [l|] eqn:F; [|constructor; auto]. pose proof (find_link_in _ _ _ F) as Hl. destruct (put_plain c l (link_prop l (Managed b)) G Hl eq_refl (good_in _ _ G Hl)). constructor; auto.
Qed.

(** ** Sessions *)
Section Ans.
Variable ans : call -> Z.
Definition safe (r : res (list out * st)) : Prop := exists o s', r = Ok (o, s') /\ ok s'.
Lemma plain_notes pr ns s : Forall plain_note ns -> on_notes ans pr ns s = Ok ([], s).
Proof.
  induction ns as [|n ns IH]; intros H; [reflexivity|]. inversion H; subst. cbn [on_notes]. replace (on_note ans pr n s) with (@Ok (list out * st) ([], s)) by (destruct n; try contradiction; reflexivity).
  cbn [bind]. rewrite IH by assumption. reflexivity.
Qed.
Lemma notes_app pr a b s : on_notes ans pr (a ++ b) s = do r <- on_notes ans pr a s; let '(o1, s) := r in do r <- on_notes ans pr b s; let '(o2, s) := r in Ok (o1 ++ o2, s).
Proof.
  revert s. induction a as [|n a IH]; intros s; cbn [app on_notes bind]; [destruct (on_notes ans pr b s) as [[]|]; reflexivity|].
  destruct (on_note ans pr n s) as [[o1 s1]|]; cbn [bind]; [|reflexivity]. rewrite IH. destruct (on_notes ans pr a s1) as [[o2 s2]|]; cbn [bind]; [|reflexivity].
  destruct (on_notes ans pr b s2) as [[o3 s3]|]; cbn [bind]; [rewrite app_assoc|]; reflexivity.
Qed.
Lemma new_note pr t s : ok s -> safe (on_note ans pr (LinkOn t) s).
Proof.
  intros Hok. cbn [on_note]. destruct pr; [|exists [], s; auto]. destruct (cur s); [exists [], s; auto|]. destruct (bound s) as [b|]; [|exists [], s; auto].
  destruct (search_link (links s) b) as [l|] eqn:S1; [|exists [], s; auto]. destruct (run_on_fine ans s l Hok (search_link_in _ _ _ S1)) as [z [o [s' [E H]]]]. rewrite E. cbn [bind]. exists o, s'. auto.
Qed.
Lemma in_filter_labels c l t : In t (map cl_label c) -> case_eq t (cl_label l) = false -> In t (map cl_label (filter (fun x => negb (case_eq (cl_label x) (cl_label l))) c)).
Proof. intros H K. apply in_map_iff in H. destruct H as [x [<- H]]. apply in_map. apply filter_In. rewrite K. auto. Qed.
Lemma nodup_filter {A B} (f : A -> B) p (l : list A) : NoDup (map f l) -> NoDup (map f (filter p l)).
Proof.
  induction l as [|x l IH]; cbn [map filter]; intros H; [constructor|]. inversion H; subst. destruct (p x); [|auto]. cbn [map]. constructor; [|auto].
  intros K. apply in_map_iff in K. destruct K as [y [E K]]. apply filter_In in K. apply H2. rewrite <- E. apply in_map. tauto.
Qed.
Lemma label_case s l t : ok s -> In l (links s) -> In t (map cl_label (links s)) -> case_eq t (cl_label l) = true -> t = cl_label l.
Proof.
  intros [_ [N0 _]] Hl Ht K. apply case_lower in K. apply in_map_iff in Ht. destruct Ht as [x [<- Hx]]. revert N0 Hl Hx K. generalize (links s). intros c. induction c as [|y c IH]; cbn [map]; intros N0 H H' E; [destruct H|]. inversion N0; subst.
  destruct H as [<-|H], H' as [<-|H']; auto; exfalso; match goal with K : ~ In _ _ |- _ => apply K end; [rewrite <- E|rewrite E]; apply (in_map (fun l => map lower (cl_label l))); assumption.
Qed.
Lemma react_safe pr e s : ok s -> event_ok e -> safe (react ans pr e s).
Proof.
  intros Hok He. destruct e as [line|g]; cbn [react].
  - unfold handle. destruct (Qstr_Model.tokenize line) as [|w ws] eqn:T; [exists [], s; auto|]. destruct (do_fine ans pr true (w :: ws) s Hok) as [z [o [s' [E H]]]]. rewrite E. cbn [bind]. eexists _, s'. split; [reflexivity|exact H].
  - assert (G : good (links s)) by (destruct Hok as [A [B _]]; split; assumption). pose proof (hear_heard _ g G He) as H. destruct H as [c' ns G' L P|l G'|l ns Hl P].
    + rewrite plain_notes by assumption. exists [], (mkSt c' (cur s) (bound s) (scans s)). split; [reflexivity|]. destruct G' as [A B]. repeat split; auto. cbn [links cur]. rewrite L. apply Hok.
    + cbn [on_notes]. set (s1 := mkSt (links s ++ [l]) (cur s) (bound s) (scans s)).
      assert (Hok1 : ok s1). { destruct G' as [A B]. repeat split; auto. cbn [s1 links cur]. intros t E. rewrite map_app. apply in_or_app. left. apply Hok. exact E. }
      destruct (new_note pr (cl_label l) s1 Hok1) as [o [s' [E H]]]. rewrite E. cbn [bind]. eexists _, s'. split; [reflexivity|exact H].
    + rewrite notes_app, plain_notes by assumption. cbn [bind on_notes on_note].
      set (c' := filter _ _). assert (G1 : Forall ok_link c') by (apply Forall_forall; intros x Hx; apply filter_In in Hx; destruct G as [G _]; rewrite Forall_forall in G; apply G; tauto).
      assert (G2 : NoDup (map (fun l => map lower (cl_label l)) c')) by (apply nodup_filter; apply G).
      cbn [cur links scans bound]. destruct (cur s) as [t|] eqn:C; [|cbn [bind]; eexists _, _; split; [reflexivity|]; repeat split; auto; cbn [cur]; discriminate].
      destruct (str_eq t (cl_label l)) eqn:E; cbn [bind]; eexists _, _; (split; [reflexivity|]); unfold with_cur; repeat split; auto; cbn [cur links]; [discriminate|].
      intros t' X. injection X as <-. assert (Ht : In t (map cl_label (links s))) by (apply Hok; exact C). apply in_filter_labels; [exact Ht|].
      destruct (case_eq t (cl_label l)) eqn:K; [|reflexivity]. apply (label_case s l t Hok Hl Ht) in K. subst t. rewrite str_eq_refl in E. discriminate.
Qed.
(** The end. *)
Lemma scan_off s l : exists z o, set_scanning ans l false s = Ok (z, o, s) /\ calls o = if cl_scan l then [AskScan (cl_label l) false] else [].
Proof.
  unfold set_scanning. destruct (cl_scan l); cbn [Bool.eqb]; [|exists 0%Z, []; auto]. pose proof (calls_ask ans (AskScan (cl_label l) false)) as C. destruct (ask ans _) as [r o]. cbn [negb]. rewrite orb_true_r. exists r, o. auto.
Qed.
Theorem stops s ls : exists o m, stop_scans ans ls s = Ok (o, s) /\ kept (fun l => In (cl_label l) (scans s) /\ cl_scan l = true) ls m /\ calls o = map (fun l => AskScan (cl_label l) false) m.
Proof.
  induction ls as [|l ls IH]; [exists [], []; repeat split; constructor|]. destruct IH as [o [m [E [K C]]]]. cbn [stop_scans].
  destruct (existsb (str_eq (cl_label l)) (scans s)) eqn:X.
  - apply existsb_exists in X. destruct X as [t [X1 X2]]. apply str_eq_spec in X2. destruct (scan_off s l) as [z [o1 [E1 C1]]]. rewrite E1. cbn [bind]. rewrite E. cbn [bind]. destruct (cl_scan l) eqn:S1.
    + exists (o1 ++ o), (l :: m). split; [reflexivity|]. split; [constructor; [split; [congruence|exact S1]|exact K]|]. rewrite calls_app, C1, C. reflexivity.
    + exists (o1 ++ o), m. split; [reflexivity|]. split; [constructor; [intros [_ ?]; congruence|exact K]|]. rewrite calls_app, C1, C. reflexivity.
  - cbn [bind]. rewrite E. cbn [bind]. exists o, m. split; [reflexivity|]. split; [|exact C]. constructor; [|exact K]. intros [H _].
    assert (existsb (str_eq (cl_label l)) (scans s) = true) by (apply existsb_exists; exists (cl_label l); split; [exact H|apply str_eq_refl]). congruence.
Qed.
Theorem session_safe pr es : forall s, ok s -> Forall event_ok es -> safe (session ans pr es s).
Proof.
  induction es as [|e es IH]; intros s Hok He; cbn [session].
  - destruct (stops s (links s)) as [o [m [E _]]]. exists o, s. auto.
  - inversion He; subst. destruct (react_safe pr e s Hok) as [o1 [s1 [E H]]]; [assumption|]. rewrite E. cbn [bind]. destruct (left o1).
    + destruct (stops s1 (links s1)) as [o [m [E1 _]]]. rewrite E1. cbn [bind]. eexists _, s1. split; [reflexivity|exact H].
    + destruct (IH s1 H) as [o2 [s2 [E2 H2']]]; [assumption|]. rewrite E2. cbn [bind]. eexists _, s2. split; [reflexivity|exact H2'].
Qed.
(** A scan that was asked for is remembered. *)
Definition tracks (s : st) (r : res reply) : Prop := forall z o s', r = Ok (z, o, s') ->
  (forall t, In t (scans s) -> In t (scans s')) /\ (forall t, In (AskScan t true) (calls o) -> (0 <= ans (AskScan t true))%Z -> In t (scans s')).
Lemma tracks_same s o z : (forall t, ~ In (AskScan t true) (calls o)) -> tracks s (Ok (z, o, s)).
Proof. intros H z' o' s' E. injection E as <- <- <-. split; [auto|]. intros t K. destruct (H t K). Qed.
Lemma tracks_done s o : calls o = [] -> tracks s (done o s). Proof. intros H. apply tracks_same. intros t. rewrite H. intros []. Qed.
Lemma tracks_ub s : tracks s UB. Proof. intros z o s' E. discriminate. Qed.
Lemma name_tracks s l t : tracks s (set_friendly_name ans l t s).
Proof.
  unfold set_friendly_name. destruct (same_as _ _) as [[|]|]; cbn [bind]; [apply tracks_same; intros ? []| |apply tracks_ub]. pose proof (calls_ask ans (AskName (cl_label l) t)) as C. destruct (ask ans _) as [r o]. cbn [snd] in C.
  apply tracks_same. intros x. rewrite C. intros [K|[]]. discriminate.
Qed.
Lemma wfd_tracks s l t : tracks s (set_wfd ans l t s).
Proof.
  unfold set_wfd. destruct (same_as _ _) as [[|]|]; cbn [bind]; [apply tracks_same; intros ? []| |apply tracks_ub]. pose proof (calls_ask ans (AskWfd (cl_label l) t)) as C. destruct (ask ans _) as [r o]. cbn [snd] in C.
  apply tracks_same. intros x. rewrite C. intros [K|[]]. discriminate.
Qed.
Lemma managed_tracks s l b : tracks s (set_managed ans l b s).
Proof.
  unfold set_managed. destruct (Bool.eqb _ _); [apply tracks_same; intros ? []|]. pose proof (calls_ask ans (AskManaged (cl_label l) b)) as C. destruct (ask ans _) as [r o]. cbn [snd] in C. intros z o' s' E. injection E as <- <- <-.
  split; [destruct (r <? 0)%Z; auto|]. intros t. rewrite C. intros [K|[]]. discriminate.
Qed.
Lemma scan_tracks s l b : tracks s (set_scanning ans l b s).
Proof.
  unfold set_scanning. destruct (Bool.eqb _ _); [apply tracks_same; intros ? []|]. unfold ask. destruct (ans (AskScan (cl_label l) b) <? 0)%Z eqn:N0; intros z o s' E; injection E as <- <- <-.
  - rewrite N0. cbn [orb]. split; [auto|]. intros t [K|[]] P. injection K as <- ->. apply Z.ltb_lt in N0. lia.
  - change (0 <? 0)%Z with false. cbn [orb]. destruct b; cbn [negb]; (split; [intros t H; cbn [scans]; auto with datatypes|]); intros t [K|[]] P; [injection K as <-; left; reflexivity|discriminate].
Qed.
Lemma tracks_bind s (r : res reply) (g : Z -> list out -> st -> res reply) : tracks s r -> (forall z o s', r = Ok (z, o, s') -> exists z' o', g z o s' = Ok (z', o', s') /\ calls o' = calls o) ->
  tracks s (do x <- r; let '(z, o, s) := x in g z o s).
Proof.
  intros T G. destruct r as [[[z o] s1]|]; cbn [bind]; [|apply tracks_ub]. destruct (G z o s1 eq_refl) as [z' [o' [E C]]]. rewrite E. intros z2 o2 s2 X. injection X as <- <- <-. rewrite C. eapply T. reflexivity.
Qed.
Lemma run_tracks s l : tracks s (run_on ans l s).
Proof.
  unfold run_on. destruct (cur s); [apply tracks_done; reflexivity|]. set (s0 := with_cur _ s). pose proof (wfd_tracks s0 l (text "000600111c4400c8")) as T1. destruct (set_wfd ans l (text "000600111c4400c8") s0) as [[[z1 o1] s1]|] eqn:E1; cbn [bind]; [|apply tracks_ub].
  pose proof (scan_tracks s1 l true) as T2. destruct (set_scanning ans l true s1) as [[[z2 o2] s2]|]; cbn [bind]; [|apply tracks_ub].
  destruct (T1 _ _ _ eq_refl) as [A1 B1]. destruct (T2 _ _ _ eq_refl) as [A2 B2]. intros z o s' X. unfold done in X. injection X as <- <- <-. split; [intros t H; apply A2, A1; exact H|].
  intros t. rewrite !calls_app. intros K P. rewrite !in_app_iff in K. destruct K as [K|[K|K]]; [apply A2, B1|apply B2|destruct K]; assumption.
Qed.
Lemma current_tracks pr s f : (forall l, tracks s (f l)) -> tracks s (on_current pr s f).
Proof. intros H. unfold on_current. destruct (cur s) as [t|]; [|apply tracks_done; reflexivity]. destruct (deref s t); cbn [bind]; [apply H|apply tracks_ub]. Qed.
Lemma value_tracks pr args s f : (forall l v, tracks s (f l v)) -> tracks s (link_and_value pr args s f).
Proof.
  intros H. unfold link_and_value. destruct (lenN args <? 1); [apply tracks_done; reflexivity|]. destruct (1 <? lenN args).
  - destruct (arg args 0); cbn [bind]; [|apply tracks_ub]. destruct (search_link _ _); [|apply tracks_done; reflexivity]. destruct (arg args 1); cbn [bind]; [apply H|apply tracks_ub].
  - destruct (arg args 0); cbn [bind]; [|apply tracks_ub]. apply current_tracks. intros k. apply H.
Qed.
Lemma quiet_tracks s r : quiet s r -> (forall z o s', r = Ok (z, o, s') -> scans s' = scans s) -> tracks s r.
Proof. intros Q S z o s' E. destruct (Q _ _ _ E) as [C _]. rewrite C, (S _ _ _ E). split; [auto|intros t []]. Qed.
Lemma of_peer_tracks lp c s : (forall t, c <> AskScan t true) -> tracks s (of_peer ans lp c s).
Proof.
  intros H. unfold of_peer. destruct (cl_managed (fst lp)); [|apply tracks_done; reflexivity]. pose proof (calls_ask ans c) as C. destruct (ask ans c) as [r o]. cbn [snd] in C. apply tracks_same. intros t. rewrite C. intros [K|[]]. exact (H t K).
Qed.
Lemma show_same pr args s z o s' : cmd_show pr args s = Ok (z, o, s') -> scans s' = scans s.
Proof.
  unfold cmd_show, done. destruct (0 <? lenN args).
  - destruct (arg args 0) as [a|]; cbn [bind]; [|discriminate].
    destruct (find_link (links s) a); [|destruct (find_pair (links s) a) as [[]|]; [|destruct (search_link (links s) a); [|destruct (search_peer (links s) a) as [[]|]]]]; injection 1 as <- <- <-; reflexivity.
  - destruct pr, (cur s); try (injection 1 as <- <- <-; reflexivity). destruct (deref s l); cbn [bind]; [injection 1 as <- <- <-; reflexivity|discriminate].
Qed.
Lemma command_tracks pr f args s : tracks s (command ans pr f args s).
Proof.
  destruct f; cbn [command].
  - apply quiet_tracks; [apply quiet_list|]. unfold cmd_list, done. injection 1 as <- <- <-. reflexivity.
  - apply quiet_tracks; [apply quiet_show|apply show_same].
  - unfold cmd_select. destruct (lenN args =? 0).
    + destruct (cur s) as [t|]; [|apply tracks_done; reflexivity]. destruct (deref s t); cbn [bind]; [|apply tracks_ub]. intros z o s' E. unfold done in E. injection E as <- <- <-. split; [auto|intros ? []].
    + destruct (arg args 0) as [a|]; cbn [bind]; [|apply tracks_ub]. destruct (search_link (links s) a) as [l|]; [|apply tracks_done; reflexivity].
      change (tracks (with_cur (Some (cl_label l)) s) (do r <- set_wfd ans l (text "000600111c4400c8") (with_cur (Some (cl_label l)) s); let '(_, o, s) := r in done (o ++ [Line (text "link " ++ cl_label l ++ text " selected")]) s)).
      apply (tracks_bind _ _ (fun _ o s => done (o ++ [Line (text "link " ++ cl_label l ++ text " selected")]) s)); [apply wfd_tracks|]. intros z o s' _. eexists _, _. split; [reflexivity|]. rewrite calls_app. apply app_nil_r.
  - unfold cmd_set_friendly_name. apply value_tracks. intros. apply name_tracks.
  - unfold cmd_run. destruct (cur s); [unfold already; destruct (deref s l); cbn [bind]; [apply tracks_done; reflexivity|apply tracks_ub]|].
    destruct (arg args 0) as [a|]; cbn [bind]; [|apply tracks_ub]. destruct (search_link (links s) a) as [l|]; [|apply tracks_done; reflexivity]. destruct (cl_managed l); [apply run_tracks|apply tracks_done; reflexivity].
  - unfold cmd_bind. destruct (cur s) eqn:C; [unfold already; destruct (deref s l); cbn [bind]; [apply tracks_done; reflexivity|apply tracks_ub]|].
    destruct (arg args 0) as [a|]; cbn [bind]; [|apply tracks_ub]. cbn [links]. set (s1 := mkSt (links s) _ _ _).
    destruct (search_link (links s) a) as [l|]; [destruct (cl_managed l); [exact (run_tracks s1 l)|]|]; match goal with |- tracks _ (done ?o s1) => exact (tracks_done s1 o eq_refl) end.
  - unfold cmd_set_managed. destruct pr; [|apply value_tracks; intros; apply managed_tracks].
    destruct (arg args 0) as [a|]; cbn [bind]; [|apply tracks_ub]. destruct (search_link (links s) a) as [l|]; [|apply tracks_done; reflexivity]. destruct (arg args 1); cbn [bind]; [apply managed_tracks|apply tracks_ub].
  - unfold cmd_p2p_scan. destruct (scan_args (links s) args None false) as [[[l|] b]|e]; [| |apply tracks_done; reflexivity].
    + destruct (cl_managed l); [apply scan_tracks|apply tracks_done; reflexivity].
    + apply current_tracks. intros l. destruct (cl_managed l); [apply scan_tracks|apply tracks_done; reflexivity].
  - unfold cmd_connect. destruct (lenN args <? 1); [apply tracks_done; reflexivity|]. destruct (arg args 0) as [a|]; cbn [bind]; [|apply tracks_ub].
    destruct (search_peer (links s) a) as [x|]; [|apply tracks_done; reflexivity]. match goal with |- tracks s (do x <- ?y; _) => destruct y; cbn [bind]; [apply of_peer_tracks; discriminate|apply tracks_ub] end.
  - unfold cmd_disconnect. destruct (lenN args <? 1); [apply tracks_done; reflexivity|]. destruct (arg args 0) as [a|]; cbn [bind]; [|apply tracks_ub].
    destruct (search_peer (links s) a) as [x|]; [|apply tracks_done; reflexivity]. apply of_peer_tracks. discriminate.
  - apply tracks_done. reflexivity.
Qed.
Theorem scans_kept pr prompt words s z o s' : cli_do ans pr prompt words s = Ok (z, o, s') ->
  (forall t, In t (scans s) -> In t (scans s')) /\ (forall t, In (AskScan t true) (calls o) -> (0 <= ans (AskScan t true))%Z -> In t (scans s')).
Proof.
  revert z o s'. change (tracks s (cli_do ans pr prompt words s)). destruct words as [|w args]; [apply tracks_same; intros ? []|].
  assert (H : calls (cli_help (table pr) prompt) = []).
  { unfold cli_help, calls. cbn [flat_map app]. induction (table pr) as [|e es IH]; cbn [flat_map]; [reflexivity|]. rewrite flat_map_app, IH. destruct (negb (e_desc e) || skipped prompt (e_mode e)); reflexivity. }
  assert (R : tracks s (if str_eq w (text "help") then done (cli_help (table pr) prompt) s else Ok ((- EAGAIN)%Z, [], s))) by (destruct (str_eq w (text "help")); [apply tracks_done; exact H|apply tracks_same; intros ? []]).
  unfold cli_do. destruct (find_entry (table pr) prompt w) as [e|]; [|exact R]. destruct (count_error e (lenN args)); [apply tracks_same; intros ? []|]. destruct (e_fn e) as [f|]; [|exact R].
  apply (tracks_bind s _ (fun r o s => Ok (if (r =? - EAGAIN)%Z then (- EINVAL)%Z else r, o, s))); [apply command_tracks|]. intros z o s' _. eexists _, o. split; reflexivity.
Qed.
End Ans.

(** ** Completion *)
Lemma take_prefix n : forall t name, lenN t = n -> str_eq (takeN n name) t = true <-> begins t name.
Proof.
  intros t name <-. rewrite str_eq_spec. split.
  - intros E. exists (dropN (lenN t) name). rewrite <- E at 1. symmetry. apply takeN_dropN.
  - intros [rest ->]. rewrite takeN_app, takeN_all, N.sub_diag, takeN_0 by lia. apply app_nil_r.
Qed.

(** The session ends with the command that leaves. *)
Theorem session_ends ans pr e es es2 s o s' : react ans pr e s = Ok (o, s') -> In Leave o -> session ans pr (e :: es) s = session ans pr (e :: es2) s.
Proof.
  intros E I. cbn [session]. rewrite E. cbn [bind]. replace (left o) with true; [reflexivity|]. symmetry. unfold left. apply existsb_exists. exists Leave. auto.
Qed.
Theorem session_quit ans pr w es s : w = text "quit" \/ w = text "exit" -> session ans pr (Typed w :: es) s = session ans pr [Typed w] s.
Proof.
  intros W. assert (R : react ans pr (Typed w) s = Ok ([Leave], s)) by (destruct W as [-> | ->], pr; reflexivity).
  apply (session_ends ans pr (Typed w) es [] s [Leave] s R). now left.
Qed.
