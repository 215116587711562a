(** Proofs about miracle-sinkctl, continued: players, scans, and what goes wrong. *)
From Verif Require Import Base SinkConn_Model SinkConn_Spec SinkConn_Proofs SinkCtl_Model SinkCtl_Spec SinkCtl_Proofs SinkCtl_Steady SinkCtl_More.

(** ** Players *)
(** Changes that have nothing to do with players. *)
Definition dull (a : act) : Prop := match a with Spawn _ | Kill _ _ => False | _ => True end.
Record quietly (c d : ctl) : Prop := { qu_pid : c_pid d = c_pid c; qu_procs : c_procs d = c_procs c; qu_trace : grows dull c d }.
Record about_players (P : ctl -> Prop) : Prop := {
  ab_quiet : forall c d, quietly c d -> P c -> P d;
  ab_spawn : forall c, P c -> P (spawn_gst c);
  ab_kill : forall c, P c -> P (kill_gst c) }.
Lemma quiet_same : forall c d, c_pid d = c_pid c -> c_procs d = c_procs c -> c_trace d = c_trace c -> quietly c d.
Proof. intros c d A B C. split; auto. apply grows_refl, C. Qed.
Lemma quiet_trans : forall a b c, quietly a b -> quietly b c -> quietly a c.
Proof. intros a b c [A1 A2 A3] [B1 B2 B3]. split; try congruence. eapply grows_trans; eassumption. Qed.
Lemma quiet_does : forall a c, dull a -> quietly c (does a c).
Proof. intros a c H. split; auto. apply grows_does, H. Qed.
Lemma quiet_scanning : forall l v c, quietly c (scanning l v c).
Proof.
  intros l v c. split; [| | apply grows_scanning; exact I]; unfold scanning; destruct (fetch l (c_links c)); auto; destruct (Bool.eqb _ _); auto; destruct v; auto.
Qed.
Ltac quiet := first [apply quiet_same; reflexivity | eapply quiet_trans; [| apply quiet_scanning]; apply quiet_same; reflexivity].

Local Opaque ctl_sink_connect.
Lemma timeout_quiet : forall w, quietly (w_user w) (w_user (sink_timeout_fn w)).
Proof.
  intros w. unfold sink_timeout_fn. ctls. destruct (c_rpeer (w_user w)) as [p |] eqn:R; [| quiet].
  destruct (fetch p (c_peers (w_user w))) as [q |] eqn:F; [| quiet]. destruct (_ && _); [| quiet].
  set (w1 := on (set_sinkt None) w). pose proof (connect_user (p_addr q) (o_ans (c_or (w_user w))) w1) as U.
  destruct (ctl_sink_connect _ _ _) as [w2 r]. ctls.
  assert (X : quietly (w_user w) (does (Try (p_addr q) r) (w_user w2))).
  { rewrite U. subst w1. ctls. eapply (quiet_trans _ (set_sinkt None (w_user w))); [quiet | apply quiet_does; exact I]. }
  destruct r; [exact X |]. destruct (3 <=? c_time (w_user w2)); (eapply quiet_trans; [exact X | quiet]).
Qed.
Lemma lost_quiet : forall w, quietly (w_user w) (w_user (sink_lost sinkctl w)).
Proof.
  intros w. unfold sink_lost. destruct (s_hup (w_sink w)); [| quiet]. cbn [sinkctl h_disconnected]. ctls. rewrite sink_close_user.
  destruct (c_up (w_user w)).
  - ctls. rewrite sink_close_user. eapply quiet_trans; [apply (quiet_does Down); exact I | quiet].
  - set (w1 := note _ _). assert (E : w_user w1 = w_user w) by (subst w1; ctls; apply sink_close_user). rewrite <- E. apply timeout_quiet.
Qed.
Lemma io_quiet : forall out hup p w, quietly (w_user w) (w_user (sink_io sinkctl out hup p w)).
Proof.
  intros out hup p w. unfold sink_io.
  assert (X : quietly (w_user w) (w_user (sink_connected sinkctl p w))).
  { unfold sink_connected. destruct (_ || _); [quiet |]. destruct p; try quiet; ctls; destruct (s_fd (w_sink w)); try quiet.
    cbn [sinkctl h_connected]. ctls. eapply quiet_trans; [apply (quiet_does Up); exact I | quiet]. }
  eapply quiet_trans; [| apply lost_quiet].
  destruct hup; ctls; destruct out; auto; quiet.
Qed.
Lemma players_callbacks : forall P l w, about_players P -> P (w_user w) -> P (w_user (callbacks sinkctl l w)).
Proof.
  intros P l w A. revert w. induction l as [| x l IH]; intros w H; [exact H |]. cbn [callbacks]. destruct (s_bus (w_sink w)); [| exact H].
  apply IH. unfold sink_rtsp. eapply (ab_quiet _ A); [apply lost_quiet |]. destruct x; [exact H |]. cbn [sinkctl h_message].
  destruct (_ && _); [| exact H]. ctls. apply (ab_spawn _ A), H.
Qed.
Lemma players_event : forall P e w, about_players P -> P (w_user w) -> P (w_user (event sinkctl e w)).
Proof.
  intros P e w A H. destruct e as [out hup p | n | | q]; cbn [event].
  - destruct (s_src (w_sink w)) as [[] |]; auto. eapply (ab_quiet _ A); [apply io_quiet | exact H].
  - destruct (s_bus (w_sink w)) as [b |]; [destruct (b_attached b) |]; auto. unfold rtsp_io.
    set (w1 := callbacks _ _ _). destruct (close_frame w1 (w_dying w1)) as [E1 _]. rewrite E1. apply players_callbacks; auto.
  - destruct (s_bus (w_sink w)) as [b |]; [destruct (b_attached b) |]; auto. unfold rtsp_io.
    set (w1 := callbacks _ _ _). destruct (close_frame w1 (w_dying w1)) as [E1 _]. rewrite E1. apply players_callbacks; auto.
  - destruct (s_bus (w_sink w)); auto.
Qed.
Lemma players_stop : forall P p q w, about_players P -> P (w_user w) -> P (w_user (stop_peer p q w)).
Proof.
  intros P p q w A H. unfold stop_peer. destruct (is (c_rpeer (w_user w)) p); [| exact H].
  set (w1 := on (fun c => kill_gst _) w).
  assert (G : P (w_user w1)).
  { subst w1. ctls. apply (ab_kill _ A). eapply (ab_quiet _ A); [| exact H]. eapply quiet_trans; [apply (quiet_does (Leave p)); exact I | quiet]. }
  ctls. eapply (ab_quiet _ A); [apply quiet_scanning |].
  change (kill_gst (set_sinkt None (does (Leave p) (w_user w)))) with (w_user w1).
  eapply (ab_quiet _ A); [| exact G]. destruct (c_over (w_user w1)); ctls; [quiet |]. rewrite ctl_close_user. quiet.
Qed.
Lemma players_parse : forall P p n w, about_players P -> P (w_user w) -> P (w_user (parse p n w)).
Proof.
  intros P p n w A H. unfold parse. destruct (fetch p (c_peers (w_user w))) as [q |]; [| exact H].
  destruct (n_conn n) as [v |]; [| (refine (ab_quiet _ A _ _ _ H); quiet)].
  destruct (Bool.eqb v (p_conn q)); [(refine (ab_quiet _ A _ _ _ H); quiet) |]. destruct v.
  - ctls. unfold peer_connected. destruct (ours _ _); [| (refine (ab_quiet _ A _ _ _ H); quiet)]. ctls.
    destruct (some _); [(refine (ab_quiet _ A _ _ _ H); quiet) |]. eapply (ab_quiet _ A); [| exact H].
    split; ctls; auto. eexists. split; [reflexivity | repeat constructor].
  - unfold peer_disconnected. destruct (ours _ _); [apply players_stop; [exact A |] |]; ((refine (ab_quiet _ A _ _ _ H); quiet)).
Qed.
Lemma players_free_peer : forall P p w, about_players P -> P (w_user w) -> P (w_user (free_peer p w)).
Proof.
  intros P p w A H. unfold free_peer. destruct (fetch p (c_peers (w_user w))) as [q |]; [| exact H].
  eapply (ab_quiet _ A); [apply (quiet_same (w_user (peer_free p q w))); reflexivity |]. unfold peer_free.
  destruct (ours q (w_user w)); [| exact H]. apply players_stop; [exact A |]. destruct (is _ _); [| exact H]. ctls.
  (refine (ab_quiet _ A _ _ _ H); quiet).
Qed.
Lemma players_free_link : forall P l w, about_players P -> P (w_user w) -> P (w_user (free_link l w)).
Proof.
  intros P l w A H. unfold free_link. destruct (fetch l (c_links (w_user w))); [| exact H].
  set (w1 := fold_left _ _ _). assert (G : P (w_user w1)).
  { subst w1. remember (rev (peers_of l (w_user w))) as ps eqn:E. clear E. revert w H.
    induction ps as [| x ps IH]; intros w H; [exact H |]. cbn [fold_left]. apply IH, players_free_peer; assumption. }
  eapply (ab_quiet _ A); [| exact G]. ctls. destruct (is _ _); quiet.
Qed.
Lemma players_quit : forall P w, about_players P -> P (w_user w) -> P (w_user (quit w)).
Proof.
  intros P w A H. unfold quit. set (w1 := on set_over _).
  assert (G : P (w_user w1)) by (subst w1; ctls; rewrite ctl_close_user; (refine (ab_quiet _ A _ _ _ H); quiet)).
  clearbody w1. clear w H. remember (c_links (w_user w1)) as ls eqn:E. clear E.
  set (w2 := fold_left _ ls w1). assert (G2 : P (w_user w2)).
  { subst w2. revert w1 G. induction ls as [| x ls IH]; intros w H; [exact H |]. cbn [fold_left].
    apply IH. ctls. destruct (fetch _ _) as [k |]; [| exact H]. destruct (l_have k); [| exact H]. eapply (ab_quiet _ A); [apply quiet_scanning | exact H]. }
  clearbody w2. remember (rev (c_links (w_user w2))) as l2 eqn:E. clear E. clear G w1 ls. revert w2 G2.
  induction l2 as [| x l2 IH]; intros w H; [exact H |]. cbn [fold_left]. apply IH, players_free_link; assumption.
Qed.
Lemma players_step1 : forall P i w, about_players P -> (forall p, i <> IExit p) -> (forall p, i <> IProc p) -> P (w_user w) -> P (w_user (step1 i w)).
Proof.
  intros P i w A N1 N2 H. destruct i; cbn [step1].
  - ctls. destruct (some _); [exact H | (refine (ab_quiet _ A _ _ _ H); quiet)].
  - apply players_free_link; assumption.
  - ctls. destruct (fetch _ _); [(refine (ab_quiet _ A _ _ _ H); quiet) | exact H].
  - ctls. destruct (some _); [| exact H]. unfold run_on. destruct (some _); [exact H |]. (refine (ab_quiet _ A _ _ _ H); quiet).
  - unfold new_peer. destruct (fetch p _); [exact H |]. destruct (fetch l _); [| exact H].
    set (w2 := on _ w). assert (H2 : P (w_user w2)) by (subst w2; ctls; (refine (ab_quiet _ A _ _ _ H); quiet)).
    destruct whole; [apply players_parse; assumption |]. ctls. eapply (ab_quiet _ A); [| apply (players_parse P p n w2); assumption]. quiet.
  - apply players_parse; assumption.
  - apply players_free_peer; assumption.
  - ctls. destruct (fetch _ _); [| exact H]. unfold go_neg. destruct (_ && _); [| exact H]. eapply (ab_quiet _ A); [| exact H].
    eapply quiet_trans; [apply (quiet_does (Join p)); exact I | quiet].
  - ctls. destruct (fetch _ _); [| exact H]. unfold formation_failure. destruct (_ && _); [| exact H]. (refine (ab_quiet _ A _ _ _ H); quiet).
  - ctls. (refine (ab_quiet _ A _ _ _ H); quiet).
  - destruct (due _ _); [| exact H]. ctls. eapply (ab_quiet _ A); [| exact H]. unfold scan_timeout_fn. ctls.
    destruct (c_ppeer (w_user w)) as [p |]; [destruct (some (fetch p (c_peers (w_user w)))) |]; ctls; destruct (c_rlink (w_user w)); quiet.
  - destruct (due _ _); [| exact H]. eapply (ab_quiet _ A); [apply timeout_quiet | exact H].
  - apply players_event; assumption.
  - exact H.
  - exfalso. exact (N1 pid eq_refl).
  - exfalso. exact (N2 pid eq_refl).
  - apply players_quit; assumption.
Qed.
Lemma players_app : forall a b n, players (a ++ b) n = match players a n with Some m => players b m | None => None end.
Proof.
  induction a as [| [t x] a IH]; intros b n; [reflexivity |]. cbn [app players].
  destruct x; try apply IH; destruct n; try apply IH; try reflexivity. destruct (_ =? _); [apply IH | reflexivity].
Qed.
Lemma players_dull : forall l n, Forall (fun x => dull (snd x)) l -> players l n = Some n.
Proof.
  induction l as [| [t x] l IH]; intros n F; [reflexivity |]. inversion F; subst. cbn [players]. destruct x; cbn [snd dull] in *; try contradiction; apply IH; assumption.
Qed.
Definition one_player (c : ctl) : Prop := players (c_trace c) None = Some (c_pid c).
Lemma about_one : about_players one_player.
Proof.
  split.
  - intros c d [E1 E2 [l [E3 F]]] H. unfold one_player in *. rewrite E3, players_app, H, E1. apply players_dull, F.
  - intros c H. unfold one_player, spawn_gst in *. destruct (c_pid c) eqn:E; [rewrite E; exact H |].
    destruct (o_pid (c_or c)); [| rewrite E; exact H]. destruct (some _); [rewrite E; exact H |]. ctls. rewrite players_app, H. reflexivity.
  - intros c H. unfold one_player, kill_gst in *. destruct (c_pid c) eqn:E; [| rewrite E; exact H]. ctls. rewrite players_app, H.
    cbn [players]. rewrite N.eqb_refl. reflexivity.
Qed.
Lemma players_ok : forall l o, players (c_trace (w_user (steps l (begin o)))) None = Some (c_pid (w_user (steps l (begin o)))).
Proof.
  intros l o. change (one_player (w_user (steps l (begin o)))). assert (H : one_player (w_user (begin o))) by reflexivity. revert H.
  generalize (begin o). induction l as [| [i x] l IH]; intros w H; [exact H |]. apply (IH (step (i, x) w)). unfold step. destruct (c_over (w_user w)); [exact H |].
  cbn [fst snd]. assert (H' : one_player (w_user (on (set_or x) w))) by exact H.
  destruct i; try (apply players_step1; [apply about_one | discriminate | discriminate | exact H']); cbn [step1]; ctls; auto.
  destruct (some _); exact H.
Qed.
Record owner (c : ctl) : Prop := {
  ow_pid : forall p, c_pid c = Some p -> fetch p (c_procs c) = Some true;
  ow_kills : kills_ours (c_trace c) }.
Lemma about_owner : about_players owner.
Proof.
  split.
  - intros c d [E1 E2 [l [E3 F]]] [A B]. split; [rewrite E1, E2; exact A |]. rewrite E3. intros t p o H. apply in_app_iff in H as [H | H]; [exact (B t p o H) |].
    rewrite Forall_forall in F. exact (False_ind _ (F _ H)).
  - intros c [A B]. unfold spawn_gst. destruct (c_pid c) eqn:E; [split; [rewrite E; exact A | exact B] |].
    destruct (o_pid (c_or c)) as [n |]; [| split; [rewrite E; exact A | exact B]]. destruct (some _); [split; [rewrite E; exact A | exact B] |].
    split; ctls.
    + intros p H. inversion H; subst. unfold fetch. cbn [find fst]. rewrite N.eqb_refl. reflexivity.
    + intros t p o H. apply in_app_iff in H as [H | [H | []]]; [exact (B t p o H) | discriminate].
  - intros c [A B]. unfold kill_gst. destruct (c_pid c) as [n |] eqn:E; [| split; [rewrite E; exact A | exact B]]. split; ctls; [discriminate |].
    intros t p o H. apply in_app_iff in H as [H | [H | []]]; [exact (B t p o H) |]. inversion H; subst. apply A. reflexivity.
Qed.
Lemma kills_ok : forall l o, lasting l (begin o) -> kills_ours (c_trace (w_user (steps l (begin o)))).
Proof.
  intros l o L. apply ow_kills. assert (H : owner (w_user (begin o))) by (split; [discriminate | intros t p x []]). revert H L.
  generalize (begin o). induction l as [| [i x] l IH]; intros w H L; [exact H |]. cbn [lasting] in L. destruct L as [L1 L2].
  apply (IH (step (i, x) w)); [| exact L2]. unfold step. destruct (c_over (w_user w)); [exact H |].
  cbn [fst snd] in *. assert (H' : owner (w_user (on (set_or x) w))) by (destruct H; split; assumption).
  destruct i; try (apply players_step1; [apply about_owner | discriminate | discriminate | exact H']); cbn [step1]; ctls.
  - destruct H as [A B]. split; ctls; auto. intros p E. rewrite fetch_drop. destruct (p =? pid) eqn:Z; [| apply A, E].
    exfalso. apply (L1 pid eq_refl). apply N.eqb_eq in Z. congruence.
  - destruct H as [A B]. destruct (some (fetch pid (c_procs (w_user w)))) eqn:S; ctls; [split; auto |]. split; ctls; auto. intros p E.
    unfold fetch. cbn [find fst]. destruct (pid =? p) eqn:Z; [| apply A, E]. apply N.eqb_eq in Z. subst p. rewrite (A _ E) in S. discriminate.
Qed.
