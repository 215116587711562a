(** Proofs about miracle-sinkctl, continued: attempts, players, scans. *)
From Verif Require Import Base SinkConn_Model SinkConn_Spec SinkConn_Proofs SinkCtl_Model SinkCtl_Spec SinkCtl_Proofs SinkCtl_Steady.

Lemma settled_ok : forall l o, Forall steady l -> settled (w_user (steps l (begin o))).
Proof.
  intros l o F. destruct (steps_good l _ F (begin_good o)) as [_ [A B C D E] _ _]. repeat split; auto.
  intros p Y. destruct (D p Y) as [_ [_ D']]. exact D'.
Qed.
Lemma session_ok : forall l o, Forall steady l -> exists s,
  moves (c_trace (w_user (steps l (begin o)))) SIdle = Some s /\ tells s (steps l (begin o)).
Proof.
  intros l o F. destruct (steps_good l _ F (begin_good o)) as [[K Fo] P [st [M R]] _]. set (w := steps l (begin o)) in *.
  exists st. split; [exact M |]. pose proof (co_calm _ _ K) as C. unfold tells, is_closed, is_connecting, is_connected.
  destruct st; cbn [rel] in R.
  - destruct (fo_idle _ _ Fo R) as [X [Y _]]. rewrite X. auto.
  - destruct R as [R1 [R2 [R3 _]]]. rewrite R2. auto.
  - destruct R as [R1 [R2 [R3 [R4 _]]]]. rewrite R3. destruct (s_fd (w_sink w)); [auto | congruence].
  - destruct R as [R1 [R2 R3]]. auto.
  - destruct R as [R1 [R2 R3]]. rewrite R2. auto.
Qed.

(** ** What a step adds to the trace *)
Definition grows (P : act -> Prop) (c d : ctl) : Prop := exists l, c_trace d = c_trace c ++ l /\ Forall (fun x => P (snd x)) l.
Lemma grows_refl : forall P c d, c_trace d = c_trace c -> grows P c d.
Proof. intros P c d E. exists []. rewrite app_nil_r. auto. Qed.
Lemma grows_trans : forall P a b c, grows P a b -> grows P b c -> grows P a c.
Proof. intros P a b c [l [E1 F1]] [m [E2 F2]]. exists (l ++ m). rewrite app_assoc, <- E1. split; [exact E2 | apply Forall_app; auto]. Qed.
Lemma grows_does : forall (P : act -> Prop) a c, P a -> grows P c (does a c).
Proof. intros P a c H. exists [(c_now c, a)]. split; [reflexivity | repeat constructor; exact H]. Qed.
Lemma grows_scanning : forall (P : act -> Prop) l v c, P (Scan l v) -> grows P c (scanning l v c).
Proof.
  intros P l v c H. unfold scanning. destruct (fetch l (c_links c)) as [k |]; [| apply grows_refl; reflexivity].
  destruct (Bool.eqb (l_scan k) v); [apply grows_refl; reflexivity |].
  eapply grows_trans; [| apply grows_does; exact H]. destruct v; apply grows_refl; reflexivity.
Qed.
Local Opaque ctl_sink_connect.
Definition tries_at (w : W) (a : act) : Prop :=
  match a with
  | Try t _ => exists p q, c_rpeer (w_user w) = Some p /\ fetch p (c_peers (w_user w)) = Some q /\ t = p_addr q
  | _ => True
  end.
Lemma tries_on : forall f w a, c_rpeer (f (w_user w)) = c_rpeer (w_user w) -> c_peers (f (w_user w)) = c_peers (w_user w) ->
  tries_at (on f w) a -> tries_at w a.
Proof. intros f w a E1 E2 H. destruct a; auto. cbn [tries_at] in *. ctls. rewrite E1, E2 in H. exact H. Qed.
Lemma timeout_grows : forall w, grows (tries_at w) (w_user w) (w_user (sink_timeout_fn w)).
Proof.
  intros w. unfold sink_timeout_fn. ctls. destruct (c_rpeer (w_user w)) as [p |] eqn:R; [| apply grows_refl; reflexivity].
  destruct (fetch p (c_peers (w_user w))) as [q |] eqn:F; [| apply grows_refl; reflexivity].
  destruct (_ && _); [| apply grows_refl; reflexivity].
  set (w1 := on (set_sinkt None) w). pose proof (connect_user (p_addr q) (o_ans (c_or (w_user w))) w1) as U.
  destruct (ctl_sink_connect _ _ _) as [w2 r]. ctls.
  assert (X : grows (tries_at w) (w_user w) (does (Try (p_addr q) r) (w_user w2))).
  { rewrite U. subst w1. ctls. eapply (grows_trans _ _ (set_sinkt None (w_user w))); [apply grows_refl; reflexivity |].
    apply grows_does. cbn [tries_at]. exists p, q. auto. }
  destruct r; [exact X |]. destruct (3 <=? c_time (w_user w2)); (eapply grows_trans; [exact X |]; apply grows_refl; reflexivity).
Qed.
Lemma tries_user : forall (w v : W) a, w_user w = w_user v -> tries_at w a -> tries_at v a.
Proof. intros w v a E H. destruct a; auto. cbn [tries_at] in *. rewrite E in H. exact H. Qed.
Lemma grows_weaken : forall (P Q : act -> Prop) c d, (forall a, P a -> Q a) -> grows P c d -> grows Q c d.
Proof. intros P Q c d H [l [E F]]. exists l. split; [exact E |]. eapply Forall_impl; [| exact F]. intros x. apply H. Qed.
Lemma lost_grows : forall w, grows (tries_at w) (w_user w) (w_user (sink_lost sinkctl w)).
Proof.
  intros w. unfold sink_lost. destruct (s_hup (w_sink w)); [| apply grows_refl; reflexivity]. cbn [sinkctl h_disconnected]. ctls.
  rewrite sink_close_user. destruct (c_up (w_user w)).
  - ctls. rewrite sink_close_user. apply (grows_does _ Down). exact I.
  - set (w1 := note _ _). assert (E : w_user w1 = w_user w) by (subst w1; ctls; apply sink_close_user).
    rewrite <- E. eapply grows_weaken; [| apply timeout_grows]. intros a. apply tries_user, E.
Qed.
Lemma connected_grows : forall p w, grows (tries_at w) (w_user w) (w_user (sink_connected sinkctl p w)) /\
  c_rpeer (w_user (sink_connected sinkctl p w)) = c_rpeer (w_user w) /\ c_peers (w_user (sink_connected sinkctl p w)) = c_peers (w_user w).
Proof.
  intros p w. unfold sink_connected. destruct (_ || _); [split; [apply grows_refl; reflexivity | auto] |].
  destruct p; try (split; [apply grows_refl; reflexivity | auto]); ctls; destruct (s_fd (w_sink w)); try (split; [apply grows_refl; reflexivity | auto]).
  cbn [sinkctl h_connected]. ctls. split; [| auto]. apply (grows_does _ Up). exact I.
Qed.
Lemma tries_same : forall (w v : W) a, c_rpeer (w_user w) = c_rpeer (w_user v) -> c_peers (w_user w) = c_peers (w_user v) -> tries_at w a -> tries_at v a.
Proof. intros w v a E1 E2 H. destruct a; auto. cbn [tries_at] in *. rewrite E1, E2 in H. exact H. Qed.
Lemma io_grows : forall out hup p w, grows (tries_at w) (w_user w) (w_user (sink_io sinkctl out hup p w)).
Proof.
  intros out hup p w. unfold sink_io.
  assert (X : exists w1, (w1 = w \/ w1 = sink_connected sinkctl p w) /\ (if out then sink_connected sinkctl p w else w) = w1).
  { destruct out; [exists (sink_connected sinkctl p w) | exists w]; auto. }
  destruct X as [w1 [X E]]. rewrite E. clear E.
  assert (Y : grows (tries_at w) (w_user w) (w_user w1) /\ c_rpeer (w_user w1) = c_rpeer (w_user w) /\ c_peers (w_user w1) = c_peers (w_user w)).
  { destruct X as [X | X]; subst w1; [split; [apply grows_refl; reflexivity | auto] | apply connected_grows]. }
  destruct Y as [Y1 [Y2 Y3]]. eapply grows_trans; [exact Y1 |].
  set (w2 := if hup then _ else w1). assert (E : w_user w2 = w_user w1) by (subst w2; destruct hup; reflexivity).
  rewrite <- E. eapply grows_weaken; [| apply lost_grows]. intros a. apply tries_same; congruence.
Qed.
(** What the message callbacks do, whatever they are. *)
Lemma spawn_grows : forall (P : act -> Prop) c, (forall p, P (Spawn p)) -> grows P c (spawn_gst c) /\ c_rpeer (spawn_gst c) = c_rpeer c /\ c_peers (spawn_gst c) = c_peers c.
Proof.
  intros P c H. unfold spawn_gst. destruct (c_pid c); [split; [apply grows_refl; reflexivity | auto] |].
  destruct (o_pid (c_or c)); [| split; [apply grows_refl; reflexivity | auto]].
  destruct (some _); [split; [apply grows_refl; reflexivity | auto] |]. split; [| auto]. ctls. eexists. split; [reflexivity | repeat constructor]. apply H.
Qed.
Lemma callbacks_grow : forall n w, grows (fun a => match a with Try _ _ => False | _ => True end) (w_user w) (w_user (callbacks sinkctl (repeat false n) w)) \/
  s_hup (w_sink w) = true.
Proof.
  induction n as [| n IH]; intros w; [left; apply grows_refl; reflexivity |]. cbn [repeat callbacks].
  destruct (s_bus (w_sink w)); [| left; apply grows_refl; reflexivity]. unfold sink_rtsp, sink_lost. cbn [sinkctl h_message].
  destruct (s_hup (w_sink w)) eqn:H; [right; reflexivity | left].
  destruct (o_res (c_or (w_user w)) && c_up (w_user w)); ctls; rewrite H.
  - destruct (IH (on spawn_gst w)) as [G | G]; [| ctls; congruence]. eapply grows_trans; [| exact G]. ctls. apply spawn_grows. exact (fun _ => I).
  - destruct (IH w) as [G | G]; [exact G | congruence].
Qed.
Lemma event_grows : forall e w, weak w -> grows (tries_at w) (w_user w) (w_user (event sinkctl e w)).
Proof.
  intros e w W0. pose proof W0 as [[C _ _ _] _]. destruct e as [out hup p | n | | q]; cbn [event].
  - destruct (s_src (w_sink w)) as [[] |]; try (apply grows_refl; reflexivity). apply io_grows.
  - destruct (s_bus (w_sink w)) as [b |]; [destruct (b_attached b) |]; try (apply grows_refl; reflexivity). unfold rtsp_io.
    set (w1 := callbacks _ _ _). destruct (close_frame w1 (w_dying w1)) as [E1 E2]. rewrite E1. subst w1.
    destruct (callbacks_grow n (frame true None w)) as [G | G]; [| ctls; pose proof (c_hup _ C); congruence].
    eapply grows_weaken; [| exact G]. intros []; cbn; auto; contradiction.
  - destruct (s_bus (w_sink w)) as [b |] eqn:B; [destruct (b_attached b) |]; try (apply grows_refl; reflexivity). unfold rtsp_io.
    rewrite (hup_eq w b W0 B). set (w1 := w_hup _). destruct (close_frame w1 (w_dying w1)) as [E1 E2]. rewrite E1. subst w1.
    unfold w_hup. ctls. rewrite sink_close_user. apply (grows_does _ Down). exact I.
  - destruct (s_bus (w_sink w)); apply grows_refl; reflexivity.
Qed.

(** Everything else makes no attempt. *)
Definition no_try (a : act) : Prop := match a with Try _ _ => False | _ => True end.
Lemma stop_grows : forall p q w, grows no_try (w_user w) (w_user (stop_peer p q w)).
Proof.
  intros p q w. unfold stop_peer. destruct (is (c_rpeer (w_user w)) p); [| apply grows_refl; reflexivity].
  set (w1 := on (fun c => kill_gst _) w).
  assert (G : grows no_try (w_user w) (w_user w1)).
  { subst w1. ctls. eapply grows_trans; [apply (grows_does no_try (Leave p)); exact I |]. unfold kill_gst. ctls. destruct (c_pid (w_user w)).
    - eexists. split; [reflexivity | repeat constructor].
    - apply grows_refl; reflexivity. }
  eapply grows_trans; [exact G |]. ctls. eapply grows_trans; [| apply grows_scanning; exact I]. apply grows_refl. ctls.
  change (kill_gst (set_sinkt None (does (Leave p) (w_user w)))) with (w_user w1).
  destruct (c_over (w_user w1)); [reflexivity |]. rewrite ctl_close_user. reflexivity.
Qed.
Lemma parse_grows : forall p n w, grows no_try (w_user w) (w_user (parse p n w)).
Proof.
  intros p n w. unfold parse. destruct (fetch p (c_peers (w_user w))) as [q |]; [| apply grows_refl; reflexivity].
  destruct (n_conn n) as [v |]; [| apply grows_refl; reflexivity]. destruct (Bool.eqb v (p_conn q)); [apply grows_refl; reflexivity |].
  destruct v.
  - ctls. unfold peer_connected. destruct (ours _ _); [| apply grows_refl; reflexivity]. ctls. destruct (some _); [apply grows_refl; reflexivity |].
    ctls. eexists. split; [reflexivity | repeat constructor].
  - unfold peer_disconnected. destruct (ours _ _); [| apply grows_refl; reflexivity].
    eapply grows_trans; [| apply stop_grows]. apply grows_refl; reflexivity.
Qed.
Lemma free_peer_grows : forall p w, grows no_try (w_user w) (w_user (free_peer p w)).
Proof.
  intros p w. unfold free_peer. destruct (fetch p (c_peers (w_user w))) as [q |]; [| apply grows_refl; reflexivity].
  eapply (grows_trans _ _ (w_user (peer_free p q w))); [| apply grows_refl; reflexivity]. unfold peer_free.
  destruct (ours q (w_user w)); [| apply grows_refl; reflexivity]. eapply grows_trans; [| apply stop_grows].
  destruct (is _ _); [| apply grows_refl; reflexivity]. ctls. eapply grows_trans; [| apply grows_scanning; exact I]. apply grows_refl; reflexivity.
Qed.
Lemma free_link_grows : forall l w, grows no_try (w_user w) (w_user (free_link l w)).
Proof.
  intros l w. unfold free_link. destruct (fetch l (c_links (w_user w))); [| apply grows_refl; reflexivity].
  set (w1 := fold_left _ _ _). assert (G : grows no_try (w_user w) (w_user w1)).
  { subst w1. remember (rev (peers_of l (w_user w))) as ps eqn:E. clear E. revert w.
    induction ps as [| x ps IH]; intros w; [apply grows_refl; reflexivity |]. cbn [fold_left].
    eapply grows_trans; [apply free_peer_grows | apply IH]. }
  eapply grows_trans; [exact G |]. apply grows_refl. ctls. destruct (is _ _); reflexivity.
Qed.
Lemma quit_grows : forall w, grows no_try (w_user w) (w_user (quit w)).
Proof.
  intros w. unfold quit. set (w1 := on set_over _).
  assert (G : grows no_try (w_user w) (w_user w1)) by (subst w1; ctls; rewrite ctl_close_user; apply grows_refl; reflexivity).
  eapply grows_trans; [exact G |]. clear G. clearbody w1. clear w. remember (c_links (w_user w1)) as ls eqn:E. clear E.
  set (w2 := fold_left _ ls w1). assert (G : grows no_try (w_user w1) (w_user w2)).
  { subst w2. revert w1. induction ls as [| x ls IH]; intros w; [apply grows_refl; reflexivity |]. cbn [fold_left].
    eapply grows_trans; [| apply IH]. ctls. destruct (fetch _ _) as [k |]; [| apply grows_refl; reflexivity].
    destruct (l_have k); [apply grows_scanning; exact I | apply grows_refl; reflexivity]. }
  eapply grows_trans; [exact G |]. clear G. clearbody w2. remember (rev (c_links (w_user w2))) as l2 eqn:E. clear E. revert w2.
  induction l2 as [| x l2 IH]; intros w; [apply grows_refl; reflexivity |]. cbn [fold_left].
  eapply grows_trans; [apply free_link_grows | apply IH].
Qed.
Lemma step_grows : forall x w, weak w -> grows (tries_at w) (w_user w) (w_user (step x w)).
Proof.
  intros [i o] w W0. unfold step. destruct (c_over (w_user w)) eqn:O; [apply grows_refl; reflexivity |]. cbn [fst snd].
  set (w1 := on (set_or o) w). assert (W1 : weak w1) by (apply weak_same; [exact W0 | repeat split]).
  assert (L : forall d, grows no_try (w_user w1) d -> grows (tries_at w) (w_user w) d).
  { intros d G. eapply (grows_trans _ _ (w_user w1)); [apply grows_refl; reflexivity |]. eapply grows_weaken; [| exact G].
    intros []; cbn; auto; contradiction. }
  assert (L2 : forall d, grows (tries_at w1) (w_user w1) d -> grows (tries_at w) (w_user w) d).
  { intros d G. eapply (grows_trans _ _ (w_user w1)); [apply grows_refl; reflexivity |]. eapply grows_weaken; [| exact G].
    intros a. apply tries_on; reflexivity. }
  assert (Z : forall d, c_trace d = c_trace (w_user w1) -> grows (tries_at w) (w_user w) d) by (intros d E; apply grows_refl; exact E).
  destruct i; cbn [step1].
  - apply Z. ctls. destruct (some _); reflexivity.
  - apply L, free_link_grows.
  - apply Z. ctls. destruct (fetch _ _); reflexivity.
  - apply L. ctls. destruct (some _); [| apply grows_refl; reflexivity]. unfold run_on. destruct (some _); [apply grows_refl; reflexivity |].
    eapply grows_trans; [| apply grows_scanning; exact I]. apply grows_refl; reflexivity.
  - apply L. unfold new_peer. destruct (fetch p _); [apply grows_refl; reflexivity |]. destruct (fetch l _); [| apply grows_refl; reflexivity].
    set (w2 := on _ w1). destruct whole; ctls; (eapply (grows_trans _ _ (w_user w2)); [apply grows_refl; reflexivity |]); [apply parse_grows |].
    eapply grows_trans; [apply parse_grows |]. apply grows_refl; reflexivity.
  - apply L, parse_grows.
  - apply L, free_peer_grows.
  - apply L. ctls. destruct (fetch _ _); [| apply grows_refl; reflexivity]. unfold go_neg. destruct (_ && _); [| apply grows_refl; reflexivity].
    ctls. eexists. split; [reflexivity | repeat constructor].
  - apply L. ctls. destruct (fetch _ _); [| apply grows_refl; reflexivity]. unfold formation_failure. destruct (_ && _); [| apply grows_refl; reflexivity].
    eapply grows_trans; [| apply grows_scanning; exact I]. apply grows_refl; reflexivity.
  - apply Z. reflexivity.
  - apply L. destruct (due _ _); [| apply grows_refl; reflexivity]. ctls. unfold scan_timeout_fn. ctls.
    destruct (c_ppeer (w_user w1)) as [p |]; [destruct (some (fetch p (c_peers (w_user w1)))) |]; ctls;
      (destruct (c_rlink (w_user w1)); [| apply grows_refl; reflexivity]);
      (eapply grows_trans; [| apply grows_scanning; exact I]; apply grows_refl; reflexivity).
  - apply L2. destruct (due _ _); [apply timeout_grows | apply grows_refl; reflexivity].
  - apply L2, event_grows, W1.
  - apply Z. reflexivity.
  - apply Z. reflexivity.
  - apply Z. ctls. destruct (some _); reflexivity.
  - apply L, quit_grows.
Qed.
Lemma address_ok : forall l o x t a r, let w := steps l (begin o) in
  In (t, Try a r) (skipn (length (c_trace (w_user w))) (c_trace (w_user (step x w)))) ->
  exists p q, c_rpeer (w_user w) = Some p /\ fetch p (c_peers (w_user w)) = Some q /\ a = p_addr q.
Proof.
  intros l o x t a r w H. destruct (step_grows x w (steps_weak l _ (begin_weak o))) as [m [E F]]. rewrite E in H.
  rewrite skipn_app, skipn_all, Nat.sub_diag in H. cbn [app skipn] in H. rewrite Forall_forall in F. exact (F _ H).
Qed.

(** The running peer stays. *)
Lemma timeout_rpeer : forall w, c_rpeer (w_user (sink_timeout_fn w)) = c_rpeer (w_user w).
Proof.
  intros w. unfold sink_timeout_fn. ctls. destruct (c_rpeer (w_user w)) as [p |] eqn:R; [| exact R].
  destruct (fetch p (c_peers (w_user w))) as [q |] eqn:F; [| exact R]. destruct (_ && _); [| exact R].
  set (w1 := on (set_sinkt None) w). pose proof (connect_user (p_addr q) (o_ans (c_or (w_user w))) w1) as U.
  destruct (ctl_sink_connect _ _ _) as [w2 r]. ctls. assert (X : c_rpeer (w_user w2) = Some p) by (rewrite U; exact R).
  destruct r; [exact X |]. destruct (3 <=? c_time (w_user w2)); exact X.
Qed.
Lemma lost_rpeer : forall w, c_rpeer (w_user (sink_lost sinkctl w)) = c_rpeer (w_user w).
Proof.
  intros w. unfold sink_lost. destruct (s_hup (w_sink w)); [| reflexivity]. cbn [sinkctl h_disconnected]. ctls. rewrite sink_close_user.
  destruct (c_up (w_user w)); [ctls; rewrite sink_close_user; reflexivity |]. rewrite timeout_rpeer. ctls. rewrite sink_close_user. reflexivity.
Qed.
Lemma callbacks_rpeer : forall l w, c_rpeer (w_user (callbacks sinkctl l w)) = c_rpeer (w_user w).
Proof.
  induction l as [| x l IH]; intros w; [reflexivity |]. cbn [callbacks]. destruct (s_bus (w_sink w)); [| reflexivity].
  rewrite IH. unfold sink_rtsp. rewrite lost_rpeer. destruct x; [reflexivity |]. cbn [sinkctl h_message]. destruct (_ && _); [| reflexivity].
  ctls. apply (spawn_grows (fun _ => True)). auto.
Qed.
Lemma event_rpeer : forall e w, c_rpeer (w_user (event sinkctl e w)) = c_rpeer (w_user w).
Proof.
  intros e w. destruct e as [out hup p | n | | q]; cbn [event].
  - destruct (s_src (w_sink w)) as [[] |]; auto. unfold sink_io. rewrite lost_rpeer.
    destruct hup; ctls; destruct out; auto; apply connected_grows.
  - destruct (s_bus (w_sink w)) as [b |]; [destruct (b_attached b) |]; auto. unfold rtsp_io.
    set (w1 := callbacks _ _ _). destruct (close_frame w1 (w_dying w1)) as [E1 _]. rewrite E1. apply (callbacks_rpeer _ (frame true None w)).
  - destruct (s_bus (w_sink w)) as [b |]; [destruct (b_attached b) |]; auto. unfold rtsp_io.
    set (w1 := callbacks _ _ _). destruct (close_frame w1 (w_dying w1)) as [E1 _]. rewrite E1. apply (callbacks_rpeer _ (frame true None w)).
  - destruct (s_bus (w_sink w)); reflexivity.
Qed.
