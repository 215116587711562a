(** Proofs about miracle-sinkctl. *)
From Verif Require Import Base SinkConn_Model SinkConn_Spec SinkConn_Proofs SinkCtl_Model SinkCtl_Spec.

Ltac ctls := cbn [on c_peers c_links c_rlink c_rpeer c_ppeer c_scan c_sinkt c_time c_up c_pid c_procs c_now c_or c_trace c_bad c_over
  set_peers set_links set_rlink set_rpeer set_ppeer set_scan set_sinkt set_time set_up set_pid set_now set_or does set_bad set_over
  w_kern w_sink w_inside w_dying w_log w_user note put put_kern put_user frame
  with_fd with_conn with_hup with_bus with_src with_addr s_fd s_conn s_hup s_bus s_src s_addr
  k_open k_next b_fd b_attached b_stuck fst snd] in *.

(** ** What holds for all inputs *)
(** The connection. *)
Record core (i : bool) (w : W) : Prop := {
  co_calm : calm (w_sink w); co_told : told w; co_safe : safe w; co_in : w_inside w = i }.
(** The program. *)
Record follows (s : sink) (c : ctl) : Prop := {
  fo_up : s_fd s <> None -> c_up c = s_conn s;
  fo_wait : c_sinkt c <> None -> s_fd s = None /\ c_up c = false;
  fo_idle : c_rpeer c = None -> s_fd s = None /\ c_sinkt c = None /\ c_pid c = None;
  fo_over : c_over c = true -> s_fd s = None }.
Definition weak (w : W) : Prop := core false w /\ follows (w_sink w) (w_user w).

Lemma core_on : forall i f w, core i w -> core i (on f w).
Proof. intros i f w [A B C D]. split; auto. apply safe_user, C. Qed.
Lemma weak_on : forall f w, weak w -> follows (w_sink w) (f (w_user w)) -> weak (on f w).
Proof. intros f w [A B] C. split; [apply core_on, A | exact C]. Qed.
(** Changes that leave the four members alone. *)
Definition same (c d : ctl) : Prop :=
  c_up c = c_up d /\ c_sinkt c = c_sinkt d /\ c_rpeer c = c_rpeer d /\ c_pid c = c_pid d /\ c_over c = c_over d.
Lemma follows_same : forall s c d, same c d -> follows s c -> follows s d.
Proof. intros s c d [E1 [E2 [E3 [E4 E5]]]] [A B C D]. split; rewrite <- ?E1, <- ?E2, <- ?E3, <- ?E4, <- ?E5; assumption. Qed.
Lemma weak_same : forall f w, weak w -> same (w_user w) (f (w_user w)) -> weak (on f w).
Proof. intros f w H S. apply weak_on; [exact H |]. apply (follows_same _ _ _ S). apply H. Qed.
Lemma same_refl : forall c, same c c.
Proof. intros; repeat split. Qed.
Lemma same_trans : forall a b c, same a b -> same b c -> same a c.
Proof. intros a b c [A1 [A2 [A3 [A4 A5]]]] [B1 [B2 [B3 [B4 B5]]]]. repeat split; congruence. Qed.
Lemma scanning_same : forall l v c, same c (scanning l v c).
Proof.
  intros. unfold scanning. destruct (fetch l (c_links c)); [| repeat split].
  destruct (Bool.eqb _ _); [repeat split |]. destruct v; repeat split.
Qed.
Lemma scan_timeout_same : forall c, same c (scan_timeout_fn c).
Proof.
  intros c. unfold scan_timeout_fn. ctls. destruct (c_ppeer c) as [p |].
  - destruct (some (fetch p (c_peers c))); ctls; destruct (c_rlink c); try (repeat split; fail);
      (eapply same_trans; [| apply scanning_same]; repeat split).
  - ctls; destruct (c_rlink c); [eapply same_trans; [| apply scanning_same]; repeat split | repeat split].
Qed.

(** The connection is closed by the program. *)
Lemma told_close : forall w, core false w -> core false (ctl_sink_close w).
Proof.
  intros w [A B C D]. assert (F : fine w) by (split; assumption). pose proof (fine_close w F) as [A' B'].
  split; auto; [apply safe_ctl_close, C |]. exact (ucall_inside UClose w D).
Qed.
Lemma ctl_close_user : forall w : W, w_user (ctl_sink_close w) = w_user w.
Proof. intros w. exact (ucall_user UClose w). Qed.
Lemma ctl_close_fd : forall w : W, calm (w_sink w) -> s_fd (w_sink (ctl_sink_close w)) = None /\ s_conn (w_sink (ctl_sink_close w)) = false.
Proof.
  intros w C. unfold ctl_sink_close. destruct (s_fd (w_sink w)) as [fd |] eqn:F.
  - rewrite (sink_close_sink _ fd); [split; reflexivity | exact F].
  - split; [exact F |]. destruct (s_conn (w_sink w)) eqn:E; [| reflexivity]. exfalso. exact (c_fd _ C E F).
Qed.

(** Connecting. *)
Lemma connect_core : forall t a w, core false w -> core false (fst (ctl_sink_connect t a w)).
Proof.
  intros t a w [A B C D]. assert (F : fine w) by (split; assumption). pose proof (fine_connect t a w F) as [A' B'].
  split; auto; [apply safe_connect; assumption |]. exact (ucall_inside (UConnect t a) w D).
Qed.
Lemma connect_user : forall t a (w : W), w_user (fst (ctl_sink_connect t a w)) = w_user w.
Proof. intros t a w. exact (ucall_user (UConnect t a) w). Qed.
Lemma connect_sink : forall t a (w : W), s_fd (w_sink w) = None -> s_conn (w_sink w) = false ->
  s_conn (w_sink (fst (ctl_sink_connect t a w))) = false /\
  (s_fd (w_sink (fst (ctl_sink_connect t a w))) <> None <-> snd (ctl_sink_connect t a w) = true).
Proof.
  intros t a w F C. unfold ctl_sink_connect, sink_connect, k_new, k_close. rewrite F.
  destruct t; [| ctls; split; [exact C | split; [congruence | discriminate]]].
  destruct (a_dup a); [| ctls; split; [exact C | split; [congruence | discriminate]]]. ctls. rewrite F.
  destruct (a_socket a); [destruct (a_connect a && a_add a) |]; ctls; (split; [exact C | split; try congruence; try discriminate]);
    intros; discriminate.
Qed.

Lemma calm_conn : forall s, calm s -> s_fd s = None -> s_conn s = false.
Proof. intros s C F. destruct (s_conn s) eqn:E; [| reflexivity]. exfalso. exact (c_fd _ C E F). Qed.

Local Opaque ctl_sink_connect.
Lemma timeout_weak : forall w, core false w -> s_fd (w_sink w) = None -> c_up (w_user w) = false -> c_over (w_user w) = false ->
  (c_rpeer (w_user w) = None -> c_pid (w_user w) = None) -> weak (sink_timeout_fn w).
Proof.
  intros w C F U Ov I. pose proof (calm_conn _ (co_calm _ _ C) F) as Cn.
  unfold sink_timeout_fn. ctls.
  assert (W0 : forall f, (forall c, c_sinkt c = None -> c_rpeer c = c_rpeer (w_user w) -> c_pid c = c_pid (w_user w) ->
     c_over c = c_over (w_user w) -> c_over (f c) = c_over (w_user w) /\ c_sinkt (f c) = None /\ c_rpeer (f c) = c_rpeer (w_user w) /\ c_pid (f c) = c_pid (w_user w)) -> weak (on f (on (set_sinkt None) w))).
  { intros f H. split; [apply core_on, core_on, C |]. ctls. destruct (H (set_sinkt None (w_user w))) as [H0 [H1 [H2 H3]]]; try reflexivity.
    split; [congruence | congruence | | congruence]. intros E. rewrite H2 in E. repeat split; auto. rewrite H3. auto. }
  destruct (c_rpeer (w_user w)) as [p |] eqn:R.
  2: { apply (W0 (fun c => c)); intros c H1 H2 H3 H4; auto. }
  destruct (fetch p (c_peers (w_user w))) as [q |].
  2: { apply (W0 set_bad); intros c H1 H2 H3 H4; ctls; auto. }
  destruct (_ && _).
  2: { apply (W0 (fun c => c)); intros c H1 H2 H3 H4; auto. }
  set (w1 := on (set_sinkt None) w).
  assert (C1 : core false w1) by (apply (core_on false (set_sinkt None)), C).
  pose proof (connect_core (p_addr q) (o_ans (c_or (w_user w))) w1 C1) as C2.
  pose proof (connect_user (p_addr q) (o_ans (c_or (w_user w))) w1) as U2.
  destruct (connect_sink (p_addr q) (o_ans (c_or (w_user w))) w1 F Cn) as [N2 F2].
  destruct (ctl_sink_connect (p_addr q) (o_ans (c_or (w_user w))) w1) as [w2 r]. ctls.
  destruct r.
  - split; [apply core_on, C2 |]. ctls. rewrite U2. subst w1. split; ctls; [congruence | congruence | rewrite R; discriminate | congruence].
  - assert (F3 : s_fd (w_sink w2) = None) by (destruct (s_fd (w_sink w2)); [destruct F2 as [F2 _]; discriminate F2; discriminate | reflexivity]).
    rewrite U2. subst w1. ctls. destruct (3 <=? c_time (w_user w)).
    + split; [apply core_on, core_on, C2 |]. ctls. rewrite U2. split; ctls; [congruence | congruence | rewrite R; discriminate | congruence].
    + split; [apply core_on, core_on, core_on, C2 |].
      ctls. rewrite U2. split; ctls; [congruence | auto | rewrite R; discriminate | congruence].
Qed.

Lemma close_in : forall w : W, w_inside (sink_close w) = w_inside w.
Proof.
  intros w. unfold sink_close, bus_unref, k_close. destruct (s_fd (w_sink w)); [| reflexivity].
  destruct (s_bus (w_sink w)) as [b |]; [destruct (b_stuck b); [| destruct (w_inside w) eqn:E] |]; ctls; congruence.
Qed.
Lemma lost_core : forall i w fd, s_fd (w_sink w) = Some fd -> told w -> safe w -> w_inside w = i ->
  core i (note Disconnected (sink_close w)) /\ s_fd (w_sink (note Disconnected (sink_close w))) = None /\
  w_user (note Disconnected (sink_close w)) = w_user w.
Proof.
  intros i w fd F T S I. split; [| split; [ctls; rewrite (sink_close_sink _ fd F); reflexivity | ctls; apply sink_close_user]].
  split.
  - ctls. rewrite (sink_close_sink _ fd F). apply calm_closed.
  - unfold told. ctls. rewrite (sink_close_sink _ fd F). destruct (sink_close_log w) as [q [E Q]]. rewrite E.
    rewrite <- app_assoc, lives_app. unfold told in T. rewrite T, lives_app, lives_quiet by exact Q.
    unfold status. rewrite F. destruct (s_conn (w_sink w)); reflexivity.
  - apply safe_note; [apply safe_close, S | discriminate].
  - ctls. rewrite close_in. exact I.
Qed.
Lemma safe_put : forall s (w : W), safe w -> base (put s w) -> s_fd s = s_fd (w_sink w) -> safe (put s w).
Proof. intros s w [B K O D I] B' E. split; auto. intros fd F. ctls. apply (O fd). congruence. Qed.

(** The state when a descriptor is ready that is not connected yet. *)
Lemma src_true : forall s, calm s -> s_src s = Some true -> exists fd, s_fd s = Some fd /\ s_conn s = false /\ s_hup s = false /\ s_bus s = None.
Proof.
  intros s C S. pose proof (c_src _ C) as CS. rewrite S in CS. destruct (s_fd s) as [fd |]; [| discriminate]. exists fd.
  assert (E : s_conn s = false) by (destruct (s_conn s); [discriminate | reflexivity]). repeat split; auto; [apply C |].
  destruct (s_bus s) eqn:B; [| reflexivity]. assert (X : s_conn s = true) by (apply (c_bus _ C); rewrite B; discriminate). congruence.
Qed.

(** The three ways in which sink_io can go. *)
Definition w_fail (s : sink) (w : W) : W := sinkctl.(h_disconnected) (note Disconnected (sink_close (put s w))).
Definition s_connected (fd : N) (s : sink) : sink :=
  with_conn true (with_bus (Some {| b_fd := fd; b_attached := true; b_stuck := false |}) (with_src (Some false) s)).
Definition w_connected (fd : N) (w : W) : W :=
  on (fun c => set_up true (does Up c)) (note Connected (put (s_connected fd (w_sink w)) w)).
Lemma io_cases : forall out hup p w fd, s_fd (w_sink w) = Some fd -> s_conn (w_sink w) = false -> s_hup (w_sink w) = false ->
  s_src (w_sink w) = Some true -> s_bus (w_sink w) = None ->
  (sink_io sinkctl out hup p w = w) \/
  (exists s, s_fd s = Some fd /\ s_conn s = false /\ (s_bus s = None \/ exists b, s_bus s = Some b /\ b_fd b = fd) /\
     sink_io sinkctl out hup p w = w_fail s w) \/
  (sink_io sinkctl out hup p w = w_connected fd w) \/
  (sink_io sinkctl out hup p w = w_fail (with_hup true (s_connected fd (w_sink w))) (w_connected fd w)).
Proof.
  intros out hup p w fd F C H S B. unfold sink_io, sink_lost. destruct out.
  2: { destruct hup; ctls; [right; left | left; rewrite H; reflexivity].
       exists (with_hup true (w_sink w)). ctls. split; [exact F |]. split; [exact C |]. split; [left; exact B | reflexivity]. }
  unfold sink_connected. rewrite C, H, S. cbn [orb]. ctls. rewrite F.
  destruct p.
  - right; left. exists (with_hup true (with_src (Some false) (w_sink w))). ctls. destruct hup; repeat split; auto.
  - right; left. exists (with_hup true (with_src (Some false) (w_sink w))). ctls. destruct hup; repeat split; auto.
  - right; left. exists (with_hup true (with_src (Some false) (w_sink w))). ctls. destruct hup; repeat split; auto.
  - right; left. exists (with_hup true (with_bus (Some {| b_fd := fd; b_attached := false; b_stuck := false |}) (with_src (Some false) (w_sink w)))).
    ctls. destruct hup; repeat split; eauto.
  - right; left. exists (with_hup true (with_bus (Some {| b_fd := fd; b_attached := true; b_stuck := false |}) (with_src (Some false) (w_sink w)))).
    ctls. destruct hup; repeat split; eauto.
  - right; right. destruct hup; [right; reflexivity | left]. cbn [sinkctl h_connected]. ctls. rewrite H. reflexivity.
Qed.
Lemma base_same_fd : forall s (w : W) fd, base w -> s_fd (w_sink w) = Some fd -> s_fd s = Some fd ->
  (s_bus s = None \/ exists b, s_bus s = Some b /\ b_fd b = fd) -> base (put s w).
Proof.
  intros s w fd [A B C D] F E X. split; ctls; auto; [congruence | |].
  - intros b Y. destruct X as [X | [b' [X1 X2]]]; congruence.
  - intros f n I. ctls. rewrite E. rewrite <- F. exact (D f n I).
Qed.
Lemma connected_weak : forall fd w, weak w -> s_src (w_sink w) = Some true -> s_fd (w_sink w) = Some fd -> weak (w_connected fd w).
Proof.
  intros fd w [[C T S I] [U V X Z]] Sr F. destruct (src_true _ C Sr) as [fd' [F' [Cn [H B]]]]. assert (fd' = fd) by congruence. subst fd'.
  split.
  - split; unfold w_connected, s_connected; ctls.
    + split; ctls; rewrite ?F; auto; [split; [reflexivity | discriminate] | discriminate].
    + unfold told in *. ctls. rewrite (lives_snoc _ _ _ _ T). unfold status. ctls. rewrite F, Cn. reflexivity.
    + apply safe_user, safe_note; [| discriminate]. apply safe_put; [exact S | | reflexivity].
      apply (base_same_fd _ _ fd); ctls; auto; [apply S |]. right. eexists. split; reflexivity.
    + exact I.
  - unfold w_connected, s_connected. split; ctls.
    + reflexivity.
    + intros Y. destruct (V Y). congruence.
    + intros Y. destruct (X Y). congruence.
    + intros Y. specialize (Z Y). congruence.
Qed.
Lemma fail_weak : forall s w fd, core false w -> s_fd (w_sink w) = Some fd -> s_conn (w_sink w) = s_conn s -> s_fd s = Some fd ->
  (s_bus s = None \/ exists b, s_bus s = Some b /\ b_fd b = fd) ->
  follows (w_sink w) (w_user w) -> weak (w_fail s w).
Proof.
  intros s w fd [C T S I] F Cn Fs B [U V X Z].
  assert (S' : safe (put s w)).
  { apply safe_put; [exact S | apply (base_same_fd _ _ fd); auto; apply S | congruence]. }
  assert (T' : told (put s w)) by (unfold told in *; ctls; rewrite T; unfold status; ctls; rewrite F, Fs, Cn; reflexivity).
  destruct (lost_core false (put s w) fd Fs T' S' I) as [K [Fn Un]].
  unfold w_fail. cbn [sinkctl h_disconnected]. rewrite Un. ctls.
  assert (R : c_rpeer (w_user w) <> None) by (intros Y; destruct (X Y); congruence).
  assert (Sk : c_sinkt (w_user w) = None) by (destruct (c_sinkt (w_user w)) eqn:Q; [destruct V; [discriminate | congruence] | reflexivity]).
  destruct (c_up (w_user w)) eqn:Up.
  - split; [apply core_on, K |]. ctls. split; ctls; rewrite ?sink_close_user in *; ctls; congruence.
  - apply timeout_weak; [exact K | exact Fn | ctls; rewrite sink_close_user; exact Up | |].
    { ctls. rewrite sink_close_user. ctls. destruct (c_over (w_user w)); [specialize (Z eq_refl); congruence | reflexivity]. }
    ctls. rewrite sink_close_user. ctls. congruence.
Qed.
Lemma io_weak : forall out hup p w, weak w -> s_src (w_sink w) = Some true -> weak (sink_io sinkctl out hup p w).
Proof.
  intros out hup p w W0 Sr. pose proof W0 as [[C T S I] Fo]. destruct (src_true _ C Sr) as [fd [F [Cn [H B]]]].
  destruct (io_cases out hup p w fd F Cn H Sr B) as [E | [[s [Fs [Cs [Bs E]]]] | [E | E]]]; rewrite E.
  - exact W0.
  - apply (fail_weak s w fd); auto; [split; assumption | congruence].
  - apply connected_weak; assumption.
  - pose proof (connected_weak fd w W0 Sr F) as [K Fo']. apply (fail_weak _ _ fd); auto.
    right. eexists. split; reflexivity.
Qed.

(** rtsp_io_fn. *)
Lemma msgs_weak : forall n w, core true w -> follows (w_sink w) (w_user w) -> core true (callbacks sinkctl (repeat false n) w) /\
  follows (w_sink (callbacks sinkctl (repeat false n) w)) (w_user (callbacks sinkctl (repeat false n) w)) /\
  w_dying (callbacks sinkctl (repeat false n) w) = w_dying w.
Proof.
  induction n as [| n IH]; intros w K Fo; [split; [| split]; auto |]. cbn [repeat callbacks].
  destruct (s_bus (w_sink w)) eqn:B; [| split; [| split]; auto].
  assert (E : exists f, sink_rtsp sinkctl false w = on f w /\ follows (w_sink w) (f (w_user w))).
  { unfold sink_rtsp, sink_lost. cbn [sinkctl h_message].
    assert (R : c_rpeer (w_user w) <> None).
    { intros Y. destruct (fo_idle _ _ Fo Y) as [Y1 _]. apply (c_fd _ (co_calm _ _ K)); [| exact Y1].
      apply (c_bus _ (co_calm _ _ K)). rewrite B. discriminate. }
    destruct (o_res (c_or (w_user w)) && c_up (w_user w)).
    - exists spawn_gst. ctls. rewrite (c_hup _ (co_calm _ _ K)). split; [reflexivity |].
      unfold spawn_gst. destruct (c_pid (w_user w)); [exact Fo |]. destruct (o_pid (c_or (w_user w))) as [pid |]; [| exact Fo].
      destruct (some (fetch pid (c_procs (w_user w)))); [exact Fo |]. destruct Fo as [U V X Z]. split; ctls; auto; congruence.
    - exists (fun c => c). rewrite (c_hup _ (co_calm _ _ K)). split; [destruct w; reflexivity | exact Fo]. }
  destruct E as [f [E Ff]]. rewrite E. destruct (IH (on f w)) as [A1 [A2 A3]]; [apply core_on, K | exact Ff |].
  split; [| split]; auto.
Qed.
Lemma frame_in : forall w, weak w -> core true (frame true None w) /\ follows (w_sink (frame true None w)) (w_user (frame true None w)).
Proof.
  intros w [[C T S I] Fo]. split; [| exact Fo]. split; auto. destruct S as [B K O D J]. split; ctls; auto; try discriminate. apply base_frame, B.
Qed.
Lemma frame_out : forall w, core true w -> follows (w_sink w) (w_user w) ->
  weak (match w_dying w with Some fd => k_close fd (frame false None w) | None => frame false None w end).
Proof.
  intros w [C T S I] Fo. destruct S as [B K O D J]. destruct (w_dying w) as [d |] eqn:Q.
  - specialize (D d eq_refl). split; [| exact Fo]. split; unfold k_close; ctls; auto.
    + unfold told in *. ctls. rewrite (lives_snoc _ _ _ _ T). reflexivity.
    + split; ctls; auto; try discriminate.
      * apply (base_close d (frame false None w)), base_frame, B.
      * apply kept_snoc; [exact K |]. rewrite (object_at_none d) by exact D. discriminate.
      * intros fd F. ctls. destruct (O fd F) as [n X]. exists n. apply without_in. split; [exact X |].
        cbn [fst]. intros Z. apply D. apply in_map_iff. exists (fd, Socket n). split; [exact Z | exact X].
  - split; [| exact Fo]. split; ctls; auto. split; ctls; auto; try discriminate. apply base_frame, B.
Qed.
Definition w_hup (w : W) : W := on (fun c => set_up false (does Down c)) (note Disconnected (sink_close (put (with_hup true (w_sink w)) w))).
Lemma hup_eq : forall w b, weak w -> s_bus (w_sink w) = Some b -> callbacks sinkctl [true] (frame true None w) = w_hup (frame true None w).
Proof.
  intros w b [[C T S I] Fo] B. cbn [callbacks]. ctls. rewrite B. unfold sink_rtsp, sink_lost. ctls. cbn [sinkctl h_disconnected].
  assert (Cn : s_conn (w_sink w) = true) by (apply (c_bus _ C); rewrite B; discriminate).
  assert (U : c_up (w_user w) = true) by (rewrite (fo_up _ _ Fo); [exact Cn | exact (c_fd _ C Cn)]).
  ctls. rewrite sink_close_user. ctls. rewrite U. reflexivity.
Qed.
Lemma hup_weak : forall w b, weak w -> s_bus (w_sink w) = Some b -> weak (rtsp_io sinkctl [true] w).
Proof.
  intros w b W0 B. unfold rtsp_io. rewrite (hup_eq w b W0 B). destruct (frame_in w W0) as [[C T S I] Fo].
  assert (Cn : s_conn (w_sink w) = true) by (apply (c_bus _ C); ctls; rewrite B; discriminate).
  pose proof (c_fd _ C Cn) as Fd. ctls. destruct (s_fd (w_sink w)) as [fd |] eqn:F; [| congruence].
  assert (S' : safe (put (with_hup true (w_sink w)) (frame true None w))).
  { apply safe_put; [exact S | apply (base_hup true (frame true None w)), S | reflexivity]. }
  destruct (lost_core true (put (with_hup true (w_sink w)) (frame true None w)) fd F) as [K [Fn Un]]; auto.
  apply frame_out; [apply core_on, K |]. destruct Fo as [U V X Z]. unfold w_hup. split; ctls; rewrite ?Un, ?Fn; ctls; [congruence | | |].
  - intros Y. auto.
  - intros Y. destruct (X Y). congruence.
  - reflexivity.
Qed.
Lemma event_weak : forall e w, weak w -> weak (event sinkctl e w).
Proof.
  intros [out hup p | n | | q] w W0; cbn [event].
  - destruct (s_src (w_sink w)) as [[] |] eqn:S; try exact W0. apply io_weak; assumption.
  - destruct (s_bus (w_sink w)) as [b |]; [destruct (b_attached b) |]; try exact W0.
    destruct (frame_in w W0) as [K Fo]. destruct (msgs_weak n _ K Fo) as [A1 [A2 A3]]. unfold rtsp_io. apply frame_out; assumption.
  - destruct (s_bus (w_sink w)) as [b |] eqn:B; [destruct (b_attached b) |]; try exact W0. apply (hup_weak w b); assumption.
  - destruct (s_bus (w_sink w)) as [b |] eqn:B; [| exact W0]. destruct W0 as [[C T S I] Fo]. split; [| destruct Fo; split; assumption]. split; auto.
    + destruct C as [C1 C2 C3 C4]. split; ctls; auto. split; [intros _; apply C3; rewrite B; discriminate | discriminate].
    + apply safe_put; [exact S | | reflexivity]. destruct (sf_base _ S) as [B1 B2 B3 B4]. split; ctls; auto.
      intros b' Y. inversion Y; subst. ctls. apply B2. exact B.
Qed.

(** The peers. *)
Lemma kill_facts : forall c, c_pid (kill_gst c) = None /\ c_sinkt (kill_gst c) = c_sinkt c /\ c_over (kill_gst c) = c_over c /\
  c_up (kill_gst c) = c_up c /\ c_rpeer (kill_gst c) = c_rpeer c.
Proof. intros c. unfold kill_gst. destruct (c_pid c) eqn:E; ctls; auto. Qed.
Lemma follows_closed : forall s c, s_fd s = None -> c_sinkt c = None -> c_pid c = None -> follows s c.
Proof. intros s c F S P. split; auto; congruence. Qed.
Lemma stop_weak : forall p q w, weak w -> weak (stop_peer p q w).
Proof.
  intros p q w W0. unfold stop_peer. destruct (is (c_rpeer (w_user w)) p); [| exact W0].
  pose proof W0 as [K Fo]. set (w1 := on _ w).
  assert (K1 : core false w1) by apply core_on, K.
  destruct (kill_facts (set_sinkt None (does (Leave p) (w_user w)))) as [P1 [P2 [P3 _]]]. ctls.
  assert (U1 : w_user w1 = kill_gst (set_sinkt None (does (Leave p) (w_user w)))) by reflexivity.
  set (w2 := if c_over (w_user w1) then on set_bad w1 else ctl_sink_close w1).
  assert (X : core false w2 /\ s_fd (w_sink w2) = None /\ c_sinkt (w_user w2) = None /\ c_pid (w_user w2) = None).
  { subst w2. destruct (c_over (w_user w1)) eqn:O.
    - split; [apply core_on, K1 |]. ctls. split; [apply (fo_over _ _ Fo); congruence |]. rewrite U1. split; assumption.
    - split; [apply told_close, K1 |]. rewrite ctl_close_user. split; [apply (ctl_close_fd w1), K1 |]. rewrite U1. split; assumption. }
  destruct X as [K2 [F2 [S2 Pd2]]]. split; [apply core_on, K2 |].
  ctls. eapply follows_same; [apply scanning_same |]. apply follows_closed; assumption.
Qed.
Lemma peer_free_weak : forall p q w, weak w -> weak (peer_free p q w).
Proof.
  intros p q w W0. unfold peer_free. destruct (ours q (w_user w)); [| exact W0]. apply stop_weak.
  destruct (is (c_ppeer (w_user w)) p); [| exact W0]. apply weak_same; [exact W0 |].
  eapply same_trans; [| apply scanning_same]. repeat split.
Qed.
Lemma connected_same : forall p q w, weak w -> weak (on (peer_connected p q) w).
Proof.
  intros p q w W0. pose proof W0 as [K Fo]. apply weak_on; [exact W0 |]. unfold peer_connected.
  destruct (ours q (w_user w)); [| exact Fo]. ctls. destruct (c_rpeer (w_user w)) eqn:R; cbn [some]; ctls.
  - eapply follows_same; [| exact Fo]. repeat split; ctls; auto.
  - destruct (fo_idle _ _ Fo R) as [F [S P]]. split; ctls; auto; congruence.
Qed.
Lemma parse_weak : forall p n w, weak w -> weak (parse p n w).
Proof.
  intros p n w W0. unfold parse. destruct (fetch p (c_peers (w_user w))) as [q |]; [| exact W0].
  set (w1 := on _ w). assert (W1 : weak w1) by (apply weak_same; [exact W0 | repeat split]).
  destruct (n_conn n) as [v |]; [| exact W1]. destruct (Bool.eqb v (p_conn q)); [exact W1 |].
  set (w2 := on _ w1). assert (W2 : weak w2) by (apply weak_same; [exact W1 | repeat split]).
  destruct v; [apply connected_same, W2 |]. unfold peer_disconnected. destruct (ours _ _); [apply stop_weak |]; exact W2.
Qed.
Lemma free_peer_weak : forall p w, weak w -> weak (free_peer p w).
Proof.
  intros p w W0. unfold free_peer. destruct (fetch p (c_peers (w_user w))) as [q |]; [| exact W0].
  apply weak_same; [apply peer_free_weak, W0 | repeat split].
Qed.
Lemma free_link_weak : forall l w, weak w -> weak (free_link l w).
Proof.
  intros l w W0. unfold free_link. destruct (fetch l (c_links (w_user w))); [| exact W0].
  apply weak_same; [| repeat split]. apply weak_same.
  - remember (rev (peers_of l (w_user w))) as ps eqn:E. clear E. revert w W0. induction ps as [| x ps IH]; intros w W0; [exact W0 |].
    cbn [fold_left]. apply IH, free_peer_weak, W0.
  - destruct (is _ _); repeat split.
Qed.
Lemma quit_weak : forall w, weak w -> weak (quit w).
Proof.
  intros w W0. unfold quit. pose proof W0 as [K Fo].
  assert (W1 : weak (on set_over (ctl_sink_close w))).
  { split; [apply core_on, told_close, K |]. ctls. rewrite ctl_close_user. destruct (ctl_close_fd w (co_calm _ _ K)) as [F C].
    destruct Fo as [U V X Z]. split; ctls; try congruence.
    - intros Y. split; [exact F |]. apply V, Y.
    - intros Y. split; [exact F |]. apply X, Y. }
  set (w1 := on set_over _) in *. clearbody w1. clear w W0 K Fo. remember (c_links (w_user w1)) as ls eqn:E. clear E.
  set (w2 := fold_left _ ls w1).
  assert (W2 : weak w2).
  { subst w2. revert w1 W1. induction ls as [| x ls IH]; intros w W0; [exact W0 |]. cbn [fold_left]. apply IH.
    apply weak_same; [exact W0 |]. destruct (fetch _ _) as [k |]; [| apply same_refl]. destruct (l_have k); [apply scanning_same | apply same_refl]. }
  clearbody w2. remember (rev (c_links (w_user w2))) as l2 eqn:E. clear E. revert w2 W2.
  induction l2 as [| x l2 IH]; intros w W0; [exact W0 |]. cbn [fold_left]. apply IH, free_link_weak, W0.
Qed.
Lemma step1_weak : forall i w, c_over (w_user w) = false -> weak w -> weak (step1 i w).
Proof.
  intros i w Ov W0. destruct i; cbn [step1].
  - apply weak_same; [exact W0 |]. destruct (some _); repeat split.
  - apply free_link_weak, W0.
  - apply weak_same; [exact W0 |]. destruct (fetch _ _); repeat split.
  - apply weak_same; [exact W0 |]. destruct (some _); [| repeat split]. unfold run_on. destruct (some _); [repeat split |].
    eapply same_trans; [| apply scanning_same]. repeat split.
  - unfold new_peer. destruct (fetch p _); [exact W0 |]. destruct (fetch l _); [| exact W0].
    set (w1 := on _ w). assert (W1 : weak w1) by (apply weak_same; [exact W0 | repeat split]).
    destruct whole; [apply parse_weak, W1 |]. apply weak_same; [apply parse_weak, W1 | repeat split].
  - apply parse_weak, W0.
  - apply free_peer_weak, W0.
  - apply weak_same; [exact W0 |]. destruct (fetch _ _); [| repeat split]. unfold go_neg. destruct (_ && _); repeat split.
  - apply weak_same; [exact W0 |]. destruct (fetch _ _); [| repeat split]. unfold formation_failure. destruct (_ && _); [| repeat split].
    eapply same_trans; [| apply scanning_same]. repeat split.
  - apply weak_same; [exact W0 | repeat split].
  - destruct (due _ _); [| exact W0]. apply weak_same; [exact W0 | apply scan_timeout_same].
  - destruct (due (c_sinkt (w_user w)) (w_user w)) eqn:D; [| exact W0]. destruct W0 as [K Fo].
    assert (S : c_sinkt (w_user w) <> None) by (destruct (c_sinkt (w_user w)); discriminate).
    destruct (fo_wait _ _ Fo S) as [F U]. apply timeout_weak; auto. intros Y. apply (fo_idle _ _ Fo Y).
  - apply event_weak, W0.
  - destruct W0 as [[C T S I] Fo]. split; [| exact Fo]. assert (F : fine w) by (split; assumption). pose proof (fine_file w F) as [A B].
    split; auto. apply safe_file; assumption.
  - apply weak_same; [exact W0 | repeat split].
  - apply weak_same; [exact W0 |]. destruct (some _); repeat split.
  - apply quit_weak, W0.
Qed.
Lemma step_weak : forall x w, weak w -> weak (step x w).
Proof.
  intros x w W0. unfold step. destruct (c_over (w_user w)) eqn:O; [exact W0 |]. apply step1_weak; [exact O |].
  apply weak_same; [exact W0 | repeat split].
Qed.
Lemma begin_weak : forall o, weak (begin o).
Proof.
  intros o. split; [split |].
  - apply calm_closed.
  - reflexivity.
  - split; [split; ctls; try discriminate; [constructor | intros fd n []] | intros fd n [] | intros fd F; discriminate | discriminate | reflexivity].
  - reflexivity.
  - split; ctls; auto; discriminate.
Qed.
Lemma steps_weak : forall l w, weak w -> weak (steps l w).
Proof. induction l as [| x l IH]; intros w W0; [exact W0 |]. apply (IH (step x w)), step_weak, W0. Qed.

Lemma quiet_ok : forall l o, let w := steps l (begin o) in
  c_rpeer (w_user w) = None -> is_closed w = true /\ c_sinkt (w_user w) = None /\ c_pid (w_user w) = None.
Proof.
  intros l o w E. destruct (steps_weak l _ (begin_weak o)) as [K Fo]. destruct (fo_idle _ _ Fo E) as [F [S P]].
  fold w in F, S, P. split; [unfold is_closed; rewrite F; reflexivity | split; assumption].
Qed.
Lemma ctl_descriptors_ok : forall l o, let w := steps l (begin o) in
  files_kept (w_log w) /\ socket_open w /\ no_leak w.
Proof.
  intros l o w. destruct (steps_weak l _ (begin_weak o)) as [[_ _ S _] _]. fold w in S. repeat split; [apply S | apply S |]. apply b_leak, S.
Qed.
Lemma ctl_reports_ok : forall l o, let w := steps l (begin o) in
  exists s, lives (w_log w) Idle = Some s /\ answer w s.
Proof.
  intros l o w. destruct (steps_weak l _ (begin_weak o)) as [[_ T S _] _]. fold w in T, S. exists (status (w_sink w)).
  split; [exact T | apply base_answer, S].
Qed.
