(** Proofs about miracle-sinkctl, continued: peers stay Wi-Fi Display devices. *)
From Verif Require Import Base SinkConn_Model SinkConn_Spec SinkConn_Proofs SinkCtl_Model SinkCtl_Spec SinkCtl_Proofs.

(** ** Tables *)
Lemma fetch_store : forall {A} k j (v : A) l, fetch k (store j v l) = match fetch k l with None => None | Some x => Some (if k =? j then v else x) end.
Proof.
  intros A k j v l. unfold fetch, store. induction l as [| [a x] l IH]; [reflexivity |]. cbn [map find fst].
  destruct (a =? j) eqn:E1; cbn [fst snd].
  - destruct (j =? k) eqn:E2.
    + replace (a =? k) with true by lia. replace (k =? j) with true by lia. reflexivity.
    + replace (a =? k) with false by lia. exact IH.
  - destruct (a =? k) eqn:E2; [replace (k =? j) with false by lia; reflexivity | exact IH].
Qed.
Lemma fetch_drop : forall {A} k j (l : list (N * A)), fetch k (drop j l) = if k =? j then None else fetch k l.
Proof.
  intros A k j l. unfold fetch, drop. induction l as [| [a x] l IH]; [cbn; destruct (k =? j); reflexivity |]. cbn [filter fst].
  destruct (a =? j) eqn:E1; cbn [negb find fst snd].
  - rewrite IH. destruct (k =? j) eqn:E2; [reflexivity |]. replace (a =? k) with false by lia. reflexivity.
  - destruct (a =? k) eqn:E2; [replace (k =? j) with false by lia; reflexivity | exact IH].
Qed.
Lemma fetch_app : forall {A} k (l r : list (N * A)), fetch k (l ++ r) = match fetch k l with Some x => Some x | None => fetch k r end.
Proof.
  intros A k l r. unfold fetch. induction l as [| [a x] l IH]; [reflexivity |]. cbn [app find fst]. destruct (a =? k); [reflexivity | exact IH].
Qed.
Lemma fetch_in : forall {A} k (x : A) l, fetch k l = Some x -> In (k, x) l.
Proof.
  intros A k x l H. unfold fetch in H. destruct (find _ l) as [[a y] |] eqn:F; [| discriminate]. apply find_some in F as [I E].
  cbn [fst snd] in *. inversion H; subst. replace k with a by lia. exact I.
Qed.

(** ** Pointers *)
Record ptrs (c : ctl) : Prop := {
  pt_bad : c_bad c = false;
  pt_link : forall l, c_rlink c = Some l -> fetch l (c_links c) <> None;
  pt_home : forall p q, fetch p (c_peers c) = Some q -> fetch (p_link q) (c_links c) <> None;
  pt_run : forall p, c_rpeer c = Some p -> c_ppeer c = None /\ c_scan c = None /\
    exists q, fetch p (c_peers c) = Some q /\ p_conn q = true /\ p_wfd q = true /\ c_rlink c = Some (p_link q);
  pt_pend : forall p, c_ppeer c = Some p ->
    exists q, fetch p (c_peers c) = Some q /\ p_wfd q = true /\ c_rlink c = Some (p_link q);
  pt_scan : c_scan c <> None -> c_ppeer c <> None }.

(** The same pointers to the same things. *)
Record keeps (c d : ctl) : Prop := {
  ke_bad : c_bad d = c_bad c; ke_rlink : c_rlink d = c_rlink c; ke_rpeer : c_rpeer d = c_rpeer c; ke_ppeer : c_ppeer d = c_ppeer c;
  ke_scan : c_scan d = c_scan c; ke_peers : c_peers d = c_peers c;
  ke_links : forall l, fetch l (c_links d) <> None <-> fetch l (c_links c) <> None }.
Lemma ptrs_keeps : forall c d, keeps c d -> ptrs c -> ptrs d.
Proof.
  intros c d [E1 E2 E3 E4 E5 E6 E7] [A B C D E Sn]. split; rewrite ?E1, ?E2, ?E3, ?E4, ?E5, ?E6; auto.
  - intros l H. apply E7. auto.
  - intros p q H. apply E7. exact (C p q H).
Qed.
Lemma scanning_keeps : forall l v c, fetch l (c_links c) <> None -> keeps c (scanning l v c).
Proof.
  intros l v c H. unfold scanning. destruct (fetch l (c_links c)) as [k |] eqn:E; [| congruence].
  destruct (Bool.eqb (l_scan k) v); [split; auto; reflexivity |]. destruct v; split; ctls; auto; try reflexivity.
  intros j. rewrite fetch_store. destruct (fetch j (c_links c)); split; intros; congruence.
Qed.

(** ** The session *)
Lemma moves_app : forall a b s, moves (a ++ b) s = match moves a s with Some s' => moves b s' | None => None end.
Proof. induction a as [| x a IH]; intros b s; [reflexivity |]. cbn [app moves]. destruct (move x s); [apply IH | reflexivity]. Qed.
Lemma moves_snoc : forall a x s s', moves a s = Some s' -> moves (a ++ [x]) s = move x s'.
Proof. intros a x s s' H. rewrite moves_app, H. cbn [moves]. destruct (move x s'); reflexivity. Qed.

Definition rel (st : session) (s : sink) (c : ctl) : Prop :=
  match st with
  | SIdle => c_rpeer c = None
  | SWait e f => c_rpeer c <> None /\ s_fd s = None /\ c_sinkt c = Some e /\ c_time c = f + 1 /\ f <= 2
  | STry f => c_rpeer c <> None /\ s_fd s <> None /\ s_conn s = false /\ c_sinkt c = None /\ c_time c = f + 1 /\ f <= 2
  | SUp => c_rpeer c <> None /\ s_conn s = true /\ c_sinkt c = None
  | SOver => c_rpeer c <> None /\ s_fd s = None /\ c_sinkt c = None
  end.
Definition sess (s : sink) (c : ctl) : Prop := exists st, moves (c_trace c) SIdle = Some st /\ rel st s c.

(** Things done that have nothing to do with it. *)
Definition neutral (x : N * act) : Prop := match snd x with Scan _ _ | Join _ | Kill _ _ => True | _ => False end.
Lemma moves_neutral : forall l s, Forall neutral l -> moves l s = Some s.
Proof.
  induction l as [| [t a] l IH]; intros s F; [reflexivity |]. inversion F as [| ? ? N F']; subst. cbn [moves].
  destruct a; cbn in N; try contradiction; destruct s; cbn [move snd]; apply IH; exact F'.
Qed.
Record mild (c d : ctl) : Prop := {
  mi_rpeer : c_rpeer d = c_rpeer c; mi_sinkt : c_sinkt d = c_sinkt c; mi_time : c_time d = c_time c;
  mi_trace : exists l, c_trace d = c_trace c ++ l /\ Forall neutral l }.
Lemma sess_mild : forall s c d, mild c d -> sess s c -> sess s d.
Proof.
  intros s c d [E1 E2 E3 [l [E4 N]]] [st [M R]]. exists st. split.
  - rewrite E4, moves_app, M. apply moves_neutral, N.
  - destruct st; cbn [rel] in *; rewrite ?E1, ?E2, ?E3; exact R.
Qed.
Lemma mild_same : forall c d, c_rpeer d = c_rpeer c -> c_sinkt d = c_sinkt c -> c_time d = c_time c -> c_trace d = c_trace c -> mild c d.
Proof. intros c d A B C D. split; auto. exists []. rewrite app_nil_r. auto. Qed.
Lemma mild_trans : forall a b c, mild a b -> mild b c -> mild a c.
Proof.
  intros a b c [A1 A2 A3 [l [A4 A5]]] [B1 B2 B3 [m [B4 B5]]]. split; try congruence. exists (l ++ m).
  rewrite app_assoc, <- A4. split; [exact B4 | apply Forall_app; auto].
Qed.
Lemma scanning_mild : forall l v c, mild c (scanning l v c).
Proof.
  intros l v c. unfold scanning. destruct (fetch l (c_links c)) as [k |]; [| apply mild_same; reflexivity].
  destruct (Bool.eqb (l_scan k) v); [apply mild_same; reflexivity |].
  destruct v; split; ctls; auto; eexists; (split; [reflexivity | repeat constructor]).
Qed.
Lemma kill_mild : forall c, mild c (kill_gst c).
Proof.
  intros c. unfold kill_gst. destruct (c_pid c); [| apply mild_same; reflexivity].
  split; ctls; auto. eexists. split; [reflexivity | repeat constructor].
Qed.
Lemma kill_keeps : forall c, keeps c (kill_gst c).
Proof. intros c. unfold kill_gst. destruct (c_pid c); split; ctls; auto; reflexivity. Qed.

(** ** All together *)
Record good (w : W) : Prop := { go_weak : weak w; go_ptrs : ptrs (w_user w); go_sess : sess (w_sink w) (w_user w); go_over : c_over (w_user w) = false }.

Lemma good_on : forall f w, good w -> same (w_user w) (f (w_user w)) -> ptrs (f (w_user w)) -> mild (w_user w) (f (w_user w)) -> good (on f w).
Proof.
  intros f w [A B C D] S P M. split; [apply weak_same; assumption | exact P | apply (sess_mild _ _ _ M C) |].
  destruct S as [_ [_ [_ [_ S]]]]. ctls. congruence.
Qed.
Lemma keeps_refl : forall c, keeps c c.
Proof. intros; split; auto; reflexivity. Qed.

Lemma rpeer_session : forall s c st, rel st s c -> c_rpeer c <> None -> st <> SIdle.
Proof. intros s c st R H E. subst st. cbn [rel] in R. congruence. Qed.

(** A peer goes. *)
Lemma stop_good : forall p q w, weak w -> c_over (w_user w) = false -> sess (w_sink w) (w_user w) ->
  fetch (p_link q) (c_links (w_user w)) <> None ->
  c_bad (w_user w) = false ->
  (forall l, c_rlink (w_user w) = Some l -> fetch l (c_links (w_user w)) <> None) ->
  (forall p q, fetch p (c_peers (w_user w)) = Some q -> fetch (p_link q) (c_links (w_user w)) <> None) ->
  c_ppeer (w_user w) = None -> c_rpeer (w_user w) = Some p -> good (stop_peer p q w).
Proof.
  intros p q w W0 Ov Se Hl Hb H1 H2 Pp R.
  split; [apply stop_weak, W0 | | |].
  - unfold stop_peer. rewrite R. cbn [is]. rewrite N.eqb_refl.
    destruct (kill_facts (set_sinkt None (does (Leave p) (w_user w)))) as [_ [_ [K3 _]]].
    pose proof (kill_keeps (set_sinkt None (does (Leave p) (w_user w)))) as Kk. ctls. rewrite K3, Ov.
    change (ptrs (scanning (p_link q) true (set_scan None (set_rpeer None
      (w_user (ctl_sink_close (on (fun c => kill_gst (set_sinkt None (does (Leave p) c))) w))))))).
    rewrite ctl_close_user. ctls. destruct Kk as [E1 E2 E3 E4 E5 E6 E7]. ctls.
    apply (ptrs_keeps (set_scan None (set_rpeer None (kill_gst (set_sinkt None (does (Leave p) (w_user w))))))).
    + apply scanning_keeps. ctls. apply E7. exact Hl.
    + split; ctls; rewrite ?E1, ?E2, ?E4, ?E6; try (intros; congruence).
      * intros l Y. apply E7. auto.
      * intros a b Y. apply E7. exact (H2 a b Y).
  - unfold stop_peer. rewrite R. cbn [is]. rewrite N.eqb_refl.
    destruct (kill_facts (set_sinkt None (does (Leave p) (w_user w)))) as [_ [_ [K3 _]]].
    pose proof (kill_mild (set_sinkt None (does (Leave p) (w_user w)))) as Km. ctls. rewrite K3, Ov. ctls.
    rewrite ctl_close_user. ctls.
    eapply sess_mild; [apply scanning_mild |]. ctls.
    destruct Km as [E1 E2 E3 [l [E4 N]]]. ctls. exists SIdle. split; [| reflexivity]. ctls. rewrite E4.
    destruct Se as [st [M Rl]]. rewrite moves_app, (moves_snoc _ _ _ _ M). cbn [move snd].
    assert (X : st <> SIdle) by (apply (rpeer_session _ _ _ Rl); congruence).
    destruct st; try congruence; apply moves_neutral, N.
  - unfold stop_peer. rewrite R. cbn [is]. rewrite N.eqb_refl.
    destruct (kill_facts (set_sinkt None (does (Leave p) (w_user w)))) as [_ [_ [K3 _]]]. ctls. rewrite K3, Ov. ctls.
    destruct (scanning_same (p_link q) true (set_scan None (set_rpeer None
      (w_user (ctl_sink_close (on (fun c => kill_gst (set_sinkt None (does (Leave p) c))) w)))))) as [_ [_ [_ [_ S]]]].
    ctls. rewrite <- S, ctl_close_user. ctls. congruence.
Qed.

(** ** The timer for attempts *)
Local Opaque ctl_sink_connect.
Lemma timeout_good : forall w st f, core false w -> s_fd (w_sink w) = None -> c_up (w_user w) = false -> c_over (w_user w) = false ->
  c_rpeer (w_user w) <> None -> ptrs (w_user w) -> moves (c_trace (w_user w)) SIdle = Some st ->
  (st = STry f \/ exists e, st = SWait e f /\ e <= c_now (w_user w)) -> c_time (w_user w) = f + 1 -> f <= 2 ->
  good (sink_timeout_fn w).
Proof.
  intros w st f C F U Ov R P M St Tm Lf.
  assert (Wk : weak (sink_timeout_fn w)) by (apply timeout_weak; auto; intros; congruence).
  pose proof (calm_conn _ (co_calm _ _ C) F) as Cn.
  assert (G : forall ok, move (c_now (w_user w), Try ok true) st = Some (STry f) /\ move (c_now (w_user w), Try ok false) st = Some (failed (c_now (w_user w)) f)).
  { intros ok. destruct St as [St | [e [St L]]]; subst st; cbn [move fst snd]; [split; reflexivity |].
    replace (c_now (w_user w) <? e) with false by lia. split; reflexivity. }
  revert Wk. unfold sink_timeout_fn. ctls. destruct (c_rpeer (w_user w)) as [p |] eqn:Rp; [| congruence].
  destruct (pt_run _ P p Rp) as [Pp [Sc [q [Fq [Q1 [Q2 Q3]]]]]]. rewrite Fq, Q1.
  replace (is_closed (on (set_sinkt None) w)) with true by (unfold is_closed; ctls; rewrite F; reflexivity). cbn [andb].
  set (w1 := on (set_sinkt None) w).
  pose proof (connect_user (p_addr q) (o_ans (c_or (w_user w))) w1) as U2.
  destruct (connect_sink (p_addr q) (o_ans (c_or (w_user w))) w1 F Cn) as [N2 F2].
  destruct (ctl_sink_connect (p_addr q) (o_ans (c_or (w_user w))) w1) as [w2 r]. ctls.
  destruct (G (p_addr q)) as [G1 G2].
  destruct r; intros Wk.
  - split; [exact Wk | | |].
    + ctls. rewrite U2. apply (ptrs_keeps (w_user w)); [split; subst w1; ctls; auto; reflexivity | exact P].
    + exists (STry f). ctls. rewrite U2. subst w1. ctls. split; [rewrite (moves_snoc _ _ _ _ M); exact G1 |].
      cbn [rel]. ctls. rewrite Rp. repeat split; auto; try discriminate. apply F2; reflexivity.
    + ctls. rewrite U2. exact Ov.
  - assert (F3 : s_fd (w_sink w2) = None) by (destruct (s_fd (w_sink w2)); [destruct F2 as [F2 _]; discriminate F2; discriminate | reflexivity]).
    revert Wk. rewrite U2. subst w1. ctls. rewrite Tm. unfold failed in G2.
    destruct (3 <=? f + 1) eqn:T3; intros Wk; (split; [exact Wk | | |]); ctls.
    + rewrite U2. apply (ptrs_keeps (w_user w)); [split; ctls; auto; reflexivity | exact P].
    + rewrite U2. exists SOver. ctls. replace (f =? 2) with true in G2 by lia. split; [rewrite (moves_snoc _ _ _ _ M); exact G2 |].
      cbn [rel]. ctls. rewrite Rp. repeat split; auto; try discriminate.
    + rewrite U2. exact Ov.
    + rewrite U2. apply (ptrs_keeps (w_user w)); [split; ctls; auto; reflexivity | exact P].
    + rewrite U2. exists (SWait (c_now (w_user w) + (f + 2) * 1000000) (f + 1)). ctls. replace (f =? 2) with false in G2 by lia.
      split; [rewrite (moves_snoc _ _ _ _ M); exact G2 |].
      cbn [rel]. ctls. rewrite Rp. repeat split; auto; try discriminate; try lia; f_equal; lia.
    + rewrite U2. exact Ov.
Qed.

(** ** Events of the connection *)
Lemma sess_try : forall s c, sess s c -> follows s c -> s_fd s <> None -> s_conn s = false ->
  exists f, moves (c_trace c) SIdle = Some (STry f) /\ c_rpeer c <> None /\ c_sinkt c = None /\ c_time c = f + 1 /\ f <= 2.
Proof.
  intros s c [st [M R]] Fo F C. destruct st as [| e f | f | |]; cbn [rel] in R.
  - destruct (fo_idle _ _ Fo R). congruence.
  - destruct R as [_ [R _]]. congruence.
  - exists f. destruct R as [R1 [R2 [R3 [R4 [R5 R6]]]]]. auto.
  - destruct R as [_ [R _]]. congruence.
  - destruct R as [_ [R _]]. congruence.
Qed.
Lemma sess_up : forall s c, sess s c -> follows s c -> s_fd s <> None -> s_conn s = true ->
  moves (c_trace c) SIdle = Some SUp /\ c_rpeer c <> None /\ c_sinkt c = None.
Proof.
  intros s c [st [M R]] Fo F C. destruct st as [| e f | f | |]; cbn [rel] in R.
  - destruct (fo_idle _ _ Fo R). congruence.
  - destruct R as [_ [R _]]. congruence.
  - destruct R as [_ [_ [R _]]]. congruence.
  - destruct R as [R1 [R2 R3]]. auto.
  - destruct R as [_ [R _]]. congruence.
Qed.
Lemma keeps_same : forall c d, c_bad d = c_bad c -> c_rlink d = c_rlink c -> c_rpeer d = c_rpeer c -> c_ppeer d = c_ppeer c ->
  c_scan d = c_scan c -> c_peers d = c_peers c -> c_links d = c_links c -> keeps c d.
Proof. intros c d E1 E2 E3 E4 E5 E6 E7. split; auto. rewrite E7. reflexivity. Qed.
Lemma connected_good : forall fd w, good w -> s_src (w_sink w) = Some true -> s_fd (w_sink w) = Some fd -> good (w_connected fd w).
Proof.
  intros fd w [W0 P S O] Sr F. pose proof W0 as [K Fo]. destruct (src_true _ (co_calm _ _ K) Sr) as [fd' [F' [Cn [H B]]]].
  destruct (sess_try _ _ S Fo) as [f [M [R [Sk [Tm L]]]]]; [congruence | exact Cn |].
  split; [apply connected_weak; assumption | | | exact O].
  - unfold w_connected. ctls. apply (ptrs_keeps (w_user w)); [apply keeps_same; reflexivity | exact P].
  - unfold w_connected, s_connected. exists SUp. ctls. rewrite (moves_snoc _ _ _ _ M). split; [reflexivity |].
    cbn [rel]. ctls. auto.
Qed.
Lemma fail_good : forall s w fd, good w -> s_fd (w_sink w) = Some fd -> s_conn (w_sink w) = s_conn s -> s_fd s = Some fd ->
  (s_bus s = None \/ exists b, s_bus s = Some b /\ b_fd b = fd) -> good (w_fail s w).
Proof.
  intros s w fd [W0 P Se O] F Cn Fs B. pose proof W0 as [[C T S I] Fo].
  pose proof (fail_weak s w fd (proj1 W0) F Cn Fs B Fo) as Wk.
  assert (S' : safe (put s w)).
  { apply safe_put; [exact S | apply (base_same_fd _ _ fd); auto; apply S | congruence]. }
  assert (T' : told (put s w)) by (unfold told in *; ctls; rewrite T; unfold status; ctls; rewrite F, Fs, Cn; reflexivity).
  destruct (lost_core false (put s w) fd Fs T' S' I) as [K [Fn Un]].
  assert (U0 : c_up (w_user w) = s_conn (w_sink w)) by (apply (fo_up _ _ Fo); congruence).
  revert Wk. unfold w_fail. cbn [sinkctl h_disconnected]. rewrite Un. ctls. intros Wk.
  destruct (c_up (w_user w)) eqn:Up.
  - destruct (sess_up _ _ Se Fo) as [M [R Sk]]; [congruence | congruence |].
    split; [exact Wk | | |]; ctls; rewrite sink_close_user; ctls.
    + apply (ptrs_keeps (w_user w)); [apply keeps_same; reflexivity | exact P].
    + exists SOver. ctls. rewrite (moves_snoc _ _ _ _ M). split; [reflexivity |]. cbn [rel]. ctls. auto.
    + exact O.
  - destruct (sess_try _ _ Se Fo) as [f [M [R [Sk [Tm L]]]]]; [congruence | congruence |].
    apply (timeout_good _ (STry f) f); ctls; rewrite ?sink_close_user; ctls; auto.
Qed.
Lemma io_good : forall out hup p w, good w -> s_src (w_sink w) = Some true -> good (sink_io sinkctl out hup p w).
Proof.
  intros out hup p w G Sr. pose proof G as [[[C T S I] Fo] _ _ _]. destruct (src_true _ C Sr) as [fd [F [Cn [H B]]]].
  destruct (io_cases out hup p w fd F Cn H Sr B) as [E | [[s [Fs [Cs [Bs E]]]] | [E | E]]]; rewrite E.
  - exact G.
  - apply (fail_good s w fd); auto. congruence.
  - apply connected_good; assumption.
  - pose proof (connected_good fd w G Sr F) as G'. apply (fail_good _ _ fd); auto. right. eexists. split; reflexivity.
Qed.
Lemma msgs_good : forall n w, core true w -> follows (w_sink w) (w_user w) -> ptrs (w_user w) -> sess (w_sink w) (w_user w) ->
  let w' := callbacks sinkctl (repeat false n) w in
  ptrs (w_user w') /\ sess (w_sink w') (w_user w') /\ c_over (w_user w') = c_over (w_user w).
Proof.
  induction n as [| n IH]; intros w K Fo P Se; cbv zeta; [split; [| split]; auto |]. cbn [repeat callbacks].
  destruct (s_bus (w_sink w)) eqn:B; [| split; [| split]; auto].
  assert (Cn : s_conn (w_sink w) = true) by (apply (c_bus _ (co_calm _ _ K)); rewrite B; discriminate).
  pose proof (c_fd _ (co_calm _ _ K) Cn) as Fd.
  destruct (sess_up _ _ Se Fo Fd Cn) as [M [R Sk]].
  assert (E : exists f, sink_rtsp sinkctl false w = on f w /\ follows (w_sink w) (f (w_user w)) /\ ptrs (f (w_user w)) /\
    sess (w_sink w) (f (w_user w)) /\ c_over (f (w_user w)) = c_over (w_user w)).
  { unfold sink_rtsp, sink_lost. cbn [sinkctl h_message].
    destruct (o_res (c_or (w_user w)) && c_up (w_user w)).
    - exists spawn_gst. ctls. rewrite (c_hup _ (co_calm _ _ K)). split; [reflexivity |].
      unfold spawn_gst. destruct (c_pid (w_user w)); [auto |]. destruct (o_pid (c_or (w_user w))) as [pid |]; [| auto].
      destruct (some (fetch pid (c_procs (w_user w)))); [auto |]. destruct Fo as [U V X Z]. split; [split; ctls; auto; congruence |].
      split; [| split; [| reflexivity]].
      + apply (ptrs_keeps (w_user w)); [apply keeps_same; reflexivity | exact P].
      + exists SUp. ctls. rewrite (moves_snoc _ _ _ _ M). split; [reflexivity |]. cbn [rel]. ctls. auto.
    - exists (fun c => c). rewrite (c_hup _ (co_calm _ _ K)). split; [destruct w; reflexivity | auto]. }
  destruct E as [f [E [Ff [Fp [Fs Fv]]]]]. rewrite E. destruct (IH (on f w)) as [A1 [A2 A3]]; [apply core_on, K | exact Ff | exact Fp | exact Fs |].
  split; [| split]; auto. ctls. congruence.
Qed.
Lemma close_frame : forall (w : W) d, w_user (match d with Some fd => k_close fd (frame false None w) | None => frame false None w end) = w_user w /\
  w_sink (match d with Some fd => k_close fd (frame false None w) | None => frame false None w end) = w_sink w.
Proof. intros w [d |]; split; reflexivity. Qed.
Lemma event_good : forall e w, good w -> good (event sinkctl e w).
Proof.
  intros e w G. pose proof G as [W0 P Se O]. pose proof (event_weak e w W0) as Wk. revert Wk.
  destruct e as [out hup p | n | | q]; cbn [event]; intros Wk.
  - destruct (s_src (w_sink w)) as [[] |] eqn:S; try exact G. apply io_good; assumption.
  - destruct (s_bus (w_sink w)) as [b |]; [destruct (b_attached b) |]; try exact G.
    destruct (frame_in w W0) as [K Fo]. destruct (msgs_good n _ K Fo P Se) as [A1 [A2 A3]]. revert Wk. unfold rtsp_io.
    set (w1 := callbacks _ _ _) in *. destruct (close_frame w1 (w_dying w1)) as [E1 E2]. intros Wk.
    split; [exact Wk | | |]; rewrite ?E1, ?E2; auto. ctls. congruence.
  - destruct (s_bus (w_sink w)) as [b |] eqn:B; [destruct (b_attached b) |]; try exact G. revert Wk. unfold rtsp_io.
    rewrite (hup_eq w b W0 B). set (w1 := w_hup _) in *. destruct (close_frame w1 (w_dying w1)) as [E1 E2]. intros Wk.
    destruct W0 as [[C T S I] Fo].
    assert (Cn : s_conn (w_sink w) = true) by (apply (c_bus _ C); ctls; rewrite B; discriminate).
    pose proof (c_fd _ C Cn) as Fd. destruct (sess_up _ _ Se Fo Fd Cn) as [M [R Sk]].
    destruct (s_fd (w_sink w)) as [fd |] eqn:F; [| congruence].
    split; [exact Wk | | |]; rewrite ?E1, ?E2; subst w1; unfold w_hup; ctls; rewrite ?sink_close_user; ctls; auto.
    + apply (ptrs_keeps (w_user w)); [apply keeps_same; reflexivity | exact P].
    + exists SOver. ctls. rewrite (moves_snoc _ _ _ _ M). split; [reflexivity |]. cbn [rel]. ctls.
      split; [exact R |]. split; [| exact Sk]. rewrite (sink_close_sink _ fd); [reflexivity |]. exact F.
  - destruct (s_bus (w_sink w)) as [b |] eqn:B; [| exact G]. split; auto.
Qed.

(** ** Peers *)
Lemma pend_good : forall q w, good w -> fetch (p_link q) (c_links (w_user w)) <> None ->
  good (on (fun c => scanning (p_link q) true (set_scan None (set_ppeer None c))) w).
Proof.
  intros q w G H. apply good_on; [exact G | | |].
  - eapply same_trans; [| apply scanning_same]. repeat split.
  - eapply ptrs_keeps; [apply scanning_keeps; exact H |]. destruct (go_ptrs _ G) as [A B C D E Sn].
    split; ctls; auto; try discriminate. intros x Y. destruct (D x Y) as [D1 [D2 D3]]. auto.
  - eapply mild_trans; [| apply scanning_mild]. apply mild_same; reflexivity.
Qed.
Lemma stop_gone : forall p q w, is (c_rpeer (w_user (stop_peer p q w))) p = false.
Proof.
  intros p q w. unfold stop_peer. destruct (is (c_rpeer (w_user w)) p) eqn:E; [| exact E]. ctls.
  set (c := set_scan _ _). destruct (scanning_same (p_link q) true c) as [_ [_ [S _]]]. rewrite <- S. reflexivity.
Qed.
Lemma scanning_ppeer : forall l v c, c_ppeer (scanning l v c) = c_ppeer c /\ c_peers (scanning l v c) = c_peers c /\ c_rlink (scanning l v c) = c_rlink c.
Proof.
  intros l v c. unfold scanning. destruct (fetch l (c_links c)); [| auto]. destruct (Bool.eqb _ _); [auto |]. destruct v; auto.
Qed.
Lemma stop_ppeer : forall p q w, c_ppeer (w_user (stop_peer p q w)) = c_ppeer (w_user w) /\ c_peers (w_user (stop_peer p q w)) = c_peers (w_user w) /\
  c_rlink (w_user (stop_peer p q w)) = c_rlink (w_user w).
Proof.
  intros p q w. unfold stop_peer. destruct (is (c_rpeer (w_user w)) p); [| auto]. ctls.
  set (c := set_scan _ _). destruct (scanning_ppeer (p_link q) true c) as [S1 [S2 S3]]. rewrite S1, S2, S3. subst c. ctls.
  set (w1 := on (fun c => kill_gst _) w).
  assert (E : c_ppeer (w_user w1) = c_ppeer (w_user w) /\ c_peers (w_user w1) = c_peers (w_user w) /\ c_rlink (w_user w1) = c_rlink (w_user w)).
  { subst w1. ctls. unfold kill_gst. ctls. destruct (c_pid (w_user w)); auto. }
  change (kill_gst (set_sinkt None (does (Leave p) (w_user w)))) with (w_user w1).
  destruct (c_over (w_user w1)); [exact E |]. rewrite ctl_close_user. exact E.
Qed.
Lemma peer_free_good : forall p q w, good w -> fetch p (c_peers (w_user w)) = Some q ->
  good (peer_free p q w) /\ is (c_rpeer (w_user (peer_free p q w))) p = false /\ is (c_ppeer (w_user (peer_free p q w))) p = false /\
  c_peers (w_user (peer_free p q w)) = c_peers (w_user w).
Proof.
  intros p q w G Fq. unfold peer_free. destruct (ours q (w_user w)) eqn:Ou.
  - set (w1 := if is (c_ppeer (w_user w)) p then _ else w).
    pose proof (pt_home _ (go_ptrs _ G) p q Fq) as Hl.
    assert (X : good w1 /\ is (c_ppeer (w_user w1)) p = false /\ c_peers (w_user w1) = c_peers (w_user w)).
    { subst w1. destruct (is (c_ppeer (w_user w)) p) eqn:E; [| auto]. split; [apply pend_good; assumption |]. ctls.
      set (c := set_scan _ _). destruct (scanning_ppeer (p_link q) true c) as [S1 [S2 S3]]. rewrite S1, S2. auto. }
    destruct X as [G1 [X1 X2]]. clearbody w1. destruct (stop_ppeer p q w1) as [Y1 [Y2 Y3]]. rewrite Y1, Y2, stop_gone, X1, X2.
    split; [| auto]. destruct (c_rpeer (w_user w1)) as [r |] eqn:R.
    2: { unfold stop_peer. rewrite R. exact G1. }
    destruct (r =? p) eqn:E.
    2: { unfold stop_peer. rewrite R. cbn [is]. rewrite E. exact G1. }
    apply N.eqb_eq in E. subst r. destruct (go_ptrs _ G1) as [A B C D E Sn]. destruct (D p R) as [D1 [D2 D3]].
    pose proof (C p q) as Cq. rewrite X2 in Cq. apply stop_good; auto; [exact (go_weak _ G1) | exact (go_over _ G1) | exact (go_sess _ G1)].
  - split; [exact G |]. destruct (go_ptrs _ G) as [A B C D E Sn]. unfold ours in Ou. split; [| split; [| reflexivity]].
    + destruct (c_rpeer (w_user w)) as [r |] eqn:R; [| reflexivity]. cbn [is]. destruct (r =? p) eqn:Z; [| reflexivity].
      apply N.eqb_eq in Z. subst r. destruct (D p eq_refl) as [_ [_ [q' [D1 [D2 [D3 D4]]]]]]. rewrite D1 in Fq. inversion Fq; subst q'.
      rewrite D4 in Ou. cbn [is] in Ou. rewrite N.eqb_refl, D3 in Ou. discriminate.
    + destruct (c_ppeer (w_user w)) as [r |] eqn:R; [| reflexivity]. cbn [is]. destruct (r =? p) eqn:Z; [| reflexivity].
      apply N.eqb_eq in Z. subst r. destruct (E p eq_refl) as [q' [D1 [D3 D4]]]. rewrite D1 in Fq. inversion Fq; subst q'.
      rewrite D4 in Ou. cbn [is] in Ou. rewrite N.eqb_refl, D3 in Ou. discriminate.
Qed.
Lemma free_peer_good : forall p w, good w -> good (free_peer p w).
Proof.
  intros p w G. unfold free_peer. destruct (fetch p (c_peers (w_user w))) as [q |] eqn:Fq; [| exact G].
  destruct (peer_free_good p q w G Fq) as [G1 [E1 [E2 E3]]]. set (w1 := peer_free p q w) in *. clearbody w1.
  apply good_on; [exact G1 | repeat split | | apply mild_same; reflexivity].
  destruct (go_ptrs _ G1) as [A B C D E Sn]. split; ctls; auto.
  - intros x y Y. rewrite fetch_drop in Y. destruct (x =? p); [discriminate |]. exact (C x y Y).
  - intros x Y. destruct (D x Y) as [D1 [D2 [r D3]]]. split; [exact D1 |]. split; [exact D2 |]. exists r. rewrite fetch_drop.
    rewrite Y in E1. cbn [is] in E1. rewrite E1. exact D3.
  - intros x Y. destruct (E x Y) as [r D3]. exists r. rewrite fetch_drop. rewrite Y in E2. cbn [is] in E2. rewrite E2. exact D3.
Qed.
Lemma fetch_free : forall x p w, fetch x (c_peers (w_user (free_peer p w))) = if x =? p then None else fetch x (c_peers (w_user w)).
Proof.
  intros x p w. unfold free_peer. destruct (fetch p (c_peers (w_user w))) as [q |] eqn:F.
  - ctls. rewrite fetch_drop. destruct (x =? p); [reflexivity |]. f_equal. unfold peer_free. destruct (ours q (w_user w)); [| reflexivity].
    destruct (stop_ppeer p q (if is (c_ppeer (w_user w)) p then on (fun c => scanning (p_link q) true (set_scan None (set_ppeer None c))) w else w)) as [_ [Y _]].
    rewrite Y. destruct (is (c_ppeer (w_user w)) p); [| reflexivity]. ctls. set (c := set_scan _ _).
    destruct (scanning_ppeer (p_link q) true c) as [_ [S _]]. rewrite S. reflexivity.
  - destruct (x =? p) eqn:E; [| reflexivity]. apply N.eqb_eq in E. congruence.
Qed.
Lemma fold_free : forall ps w, good w -> let w' := fold_left (fun w p => free_peer p w) ps w in
  good w' /\ forall x q, fetch x (c_peers (w_user w')) = Some q -> fetch x (c_peers (w_user w)) = Some q /\ ~ In x ps.
Proof.
  induction ps as [| p ps IH]; intros w G; cbv zeta; [split; [exact G | cbn; auto] |]. cbn [fold_left].
  destruct (IH (free_peer p w) (free_peer_good p w G)) as [G' H]. split; [exact G' |]. intros x q Y.
  destruct (H x q Y) as [H1 H2]. rewrite fetch_free in H1. destruct (x =? p) eqn:E; [discriminate |]. split; [exact H1 |].
  intros [Z | Z]; [| exact (H2 Z)]. subst. rewrite N.eqb_refl in E. discriminate.
Qed.
Lemma free_link_good : forall l w, good w -> good (free_link l w).
Proof.
  intros l w G. unfold free_link. destruct (fetch l (c_links (w_user w))); [| exact G].
  destruct (fold_free (rev (peers_of l (w_user w))) w G) as [G1 H]. set (w1 := fold_left _ _ _) in *.
  assert (Z : forall x q, fetch x (c_peers (w_user w1)) = Some q -> p_link q <> l).
  { intros x q Y E. destruct (H x q Y) as [H1 H2]. apply H2. apply -> in_rev. apply in_map_iff. exists (x, q). split; [reflexivity |].
    apply filter_In. split; [apply fetch_in, H1 |]. cbn [snd]. apply N.eqb_eq, E. }
  clearbody w1. clear H w G.
  change (good (on (fun c => set_links (drop l (c_links c)) c) (on (fun c => if is (c_rlink c) l then set_scan None (set_rlink None c) else c) w1))).
  assert (G2 : good (on (fun c => if is (c_rlink c) l then set_scan None (set_rlink None c) else c) w1)).
  { apply good_on; [exact G1 | destruct (is _ _); repeat split | | destruct (is _ _); apply mild_same; reflexivity].
    destruct (go_ptrs _ G1) as [A B C D E Sn]. destruct (c_rlink (w_user w1)) as [k |] eqn:R; [| apply G1]. cbn [is].
    destruct (k =? l) eqn:Kl; [| apply G1]. apply N.eqb_eq in Kl. subst k. split; ctls; auto; try discriminate.
    - intros p Y. exfalso. destruct (D p Y) as [_ [_ [q [D1 [_ [_ D2]]]]]]. apply (Z p q D1). congruence.
    - intros p Y. exfalso. destruct (E p Y) as [q [D1 [_ D2]]]. apply (Z p q D1). congruence. }
  apply good_on; [exact G2 | repeat split | | apply mild_same; reflexivity].
  assert (Rl : is (c_rlink (w_user (on (fun c => if is (c_rlink c) l then set_scan None (set_rlink None c) else c) w1))) l = false).
  { ctls. destruct (is (c_rlink (w_user w1)) l) eqn:E; [reflexivity | exact E]. }
  assert (Pe : c_peers (w_user (on (fun c => if is (c_rlink c) l then set_scan None (set_rlink None c) else c) w1)) = c_peers (w_user w1)).
  { ctls. destruct (is (c_rlink (w_user w1)) l); reflexivity. }
  set (w2 := on _ w1) in *. clearbody w2. destruct (go_ptrs _ G2) as [A B C D E Sn]. rewrite Pe in *. split; ctls; rewrite ?Pe; auto.
  - intros k Y. rewrite fetch_drop. rewrite Y in Rl. cbn [is] in Rl. rewrite Rl. exact (B k Y).
  - intros x q Y. rewrite fetch_drop. replace (p_link q =? l) with false by (pose proof (Z x q Y); lia). exact (C x q Y).
Qed.

(** ** What is heard of peers *)
Lemma store_ptrs : forall p q q' c, ptrs c -> fetch p (c_peers c) = Some q -> p_link q' = p_link q -> (p_wfd q = true -> p_wfd q' = true) ->
  (c_rpeer c = Some p -> p_conn q' = true) -> ptrs (set_peers (store p q' (c_peers c)) c).
Proof.
  intros p q q' c [A B C D E Sn] F L Wf Cn. split; ctls; auto.
  - intros x y Y. rewrite fetch_store in Y. destruct (fetch x (c_peers c)) as [z |] eqn:Z; [| discriminate].
    destruct (x =? p) eqn:X; inversion Y; subst y; [rewrite L; exact (C p q F) | exact (C x z Z)].
  - intros x Y. destruct (D x Y) as [D1 [D2 [r [D3 [D4 [D5 D6]]]]]]. split; [exact D1 |]. split; [exact D2 |].
    rewrite fetch_store, D3. destruct (x =? p) eqn:X; [| eauto]. apply N.eqb_eq in X. subst x. assert (r = q) by congruence. subst r.
    exists q'. repeat split; auto. congruence.
  - intros x Y. destruct (E x Y) as [r [D3 [D5 D6]]]. rewrite fetch_store, D3. destruct (x =? p) eqn:X; [| eauto].
    apply N.eqb_eq in X. subst x. assert (r = q) by congruence. subst r. exists q'. repeat split; auto. congruence.
Qed.
Lemma store_good : forall p q q' w, good w -> fetch p (c_peers (w_user w)) = Some q -> p_link q' = p_link q -> (p_wfd q = true -> p_wfd q' = true) ->
  (c_rpeer (w_user w) = Some p -> p_conn q' = true) -> good (on (fun c => set_peers (store p q' (c_peers c)) c) w).
Proof.
  intros p q q' w G F L Wf Cn. apply good_on; [exact G | repeat split | | apply mild_same; reflexivity].
  apply (store_ptrs p q); auto. apply G.
Qed.
Lemma connected_peer_good : forall p q w, good w -> fetch p (c_peers (w_user w)) = Some q -> p_conn q = true -> good (on (peer_connected p q) w).
Proof.
  intros p q w G F Cn. pose proof (connected_same p q w (go_weak _ G)) as Wk. pose proof G as [W0 P Se O].
  destruct (ours q (w_user w)) eqn:Ou.
  2: { split; auto; ctls; unfold peer_connected; rewrite Ou; auto. }
  unfold ours in Ou. apply andb_prop in Ou as [Ou1 Ou2].
  destruct (c_rpeer (w_user w)) as [r |] eqn:R.
  - split; [exact Wk | | |]; ctls; unfold peer_connected, ours; rewrite Ou1, Ou2; cbn [andb]; ctls; rewrite R; cbn [some]; auto.
    + destruct P as [A B C D E Sn]. split; ctls; auto; try discriminate. 
      * intros x Y. destruct (D x Y) as [_ D']. auto.
      * destruct (D r R) as [_ [D' _]]. congruence.
  - destruct (fo_idle _ _ (proj2 W0) R) as [Fd [Sk Pd]].
    split; [exact Wk | | |]; ctls; unfold peer_connected, ours; rewrite Ou1, Ou2; cbn [andb]; ctls; rewrite R; cbn [some]; ctls; auto.
    + destruct P as [A B C D E Sn]. split; ctls; auto; try discriminate. intros x Y. inversion Y; subst x. split; [reflexivity |]. split; [reflexivity |].
      exists q. repeat split; auto. destruct (c_rlink (w_user w)) as [k |]; [| discriminate]. cbn [is] in Ou1. f_equal. lia.
    + destruct Se as [st [M Rl]]. assert (st = SIdle).
      { destruct st; cbn [rel] in Rl; [reflexivity | | | |]; destruct Rl as [Rl _]; congruence. }
      subst st. exists (SWait (c_now (w_user w) + 1000000) 0). ctls. rewrite (moves_snoc _ _ _ _ M). split; [reflexivity |].
      cbn [rel]. ctls. repeat split; auto; try discriminate; try lia.
Qed.
Lemma parse_good : forall p n w, good w -> (forall q, fetch p (c_peers (w_user w)) = Some q -> p_wfd q = true -> n_wfd n <> Some false) -> good (parse p n w).
Proof.
  intros p n w G H. unfold parse. destruct (fetch p (c_peers (w_user w))) as [q |] eqn:F; [| exact G].
  set (q1 := {| p_link := p_link q; p_wfd := or (n_wfd n) (p_wfd q); p_conn := p_conn q; p_addr := or (n_addr n) (p_addr q) |}).
  set (w1 := on (fun c => set_peers (store p q1 (c_peers c)) c) w).
  assert (Wf : p_wfd q = true -> p_wfd q1 = true).
  { intros E. specialize (H q eq_refl E). cbn [q1 p_wfd]. unfold or. destruct (n_wfd n) as [[] |]; congruence. }
  assert (G1 : good w1).
  { apply (store_good p q); auto. intros R. destruct (pt_run _ (go_ptrs _ G) p R) as [_ [_ [r [D1 [D2 _]]]]]. cbn [q1 p_conn]. congruence. }
  destruct (n_conn n) as [v |]; [| exact G1]. destruct (Bool.eqb v (p_conn q)) eqn:Ev; [exact G1 |].
  set (q2 := {| p_link := p_link q1; p_wfd := p_wfd q1; p_conn := v; p_addr := p_addr q1 |}).
  assert (F1 : fetch p (c_peers (w_user w1)) = Some q1).
  { subst w1. ctls. rewrite fetch_store, F, N.eqb_refl. reflexivity. }
  clearbody w1. set (w2 := on (fun c => set_peers (store p q2 (c_peers c)) c) w1).
  assert (F2 : fetch p (c_peers (w_user w2)) = Some q2).
  { subst w2. ctls. rewrite fetch_store, F1, N.eqb_refl. reflexivity. }
  assert (X : (c_rpeer (w_user w1) = Some p -> v = true) -> good w2).
  { intros Y. apply (store_good p q1); auto. }
  destruct v.
  - apply connected_peer_good; [apply X; reflexivity | exact F2 | reflexivity].
  - unfold peer_disconnected. destruct (c_rpeer (w_user w1)) as [r |] eqn:R.
    2: { assert (G2 : good w2) by (apply X; discriminate). destruct (ours q2 (w_user w2)); [| exact G2]. unfold stop_peer.
         replace (c_rpeer (w_user w2)) with (@None N) by (symmetry; exact R). exact G2. }
    destruct (r =? p) eqn:Rp.
    2: { assert (G2 : good w2) by (apply X; intros Y; inversion Y; lia). destruct (ours q2 (w_user w2)); [| exact G2]. unfold stop_peer.
         replace (c_rpeer (w_user w2)) with (Some r) by (symmetry; exact R). cbn [is]. rewrite Rp. exact G2. }
    apply N.eqb_eq in Rp. subst r. pose proof (go_ptrs _ G1) as [A B C D E Sn]. destruct (D p R) as [D1 [D2 [r [D3 [D4 [D5 D6]]]]]].
    assert (r = q1) by congruence. subst r.
    replace (ours q2 (w_user w2)) with true.
    2: { unfold ours. subst w2 q2. ctls. cbn [p_link p_wfd]. rewrite D6. cbn [is]. rewrite N.eqb_refl, D5. reflexivity. }
    apply stop_good; auto.
    + apply weak_same; [apply G1 | repeat split].
    + exact (go_over _ G1).
    + eapply sess_mild; [| exact (go_sess _ G1)]. apply mild_same; reflexivity.
    + intros x y Y. subst w2. ctls. rewrite fetch_store in Y. destruct (fetch x (c_peers (w_user w1))) as [z |] eqn:Zf; [| discriminate].
      destruct (x =? p); inversion Y; subst y; [exact (C p q1 D3) | exact (C x z Zf)].
Qed.
Lemma fetch_new : forall p q c, fetch p (c_peers c) = None -> ptrs c -> fetch (p_link q) (c_links c) <> None -> ptrs (set_peers (c_peers c ++ [(p, q)]) c).
Proof.
  intros p q c F [A B C D E Sn] L. split; ctls; auto.
  - intros x y Y. rewrite fetch_app in Y. destruct (fetch x (c_peers c)) as [z |] eqn:Z; [inversion Y; subst; exact (C x y Z) |].
    unfold fetch in Y. cbn [find fst] in Y. destruct (p =? x); [| discriminate]. cbn [snd] in Y. inversion Y; subst. exact L.
  - intros x Y. destruct (D x Y) as [D1 [D2 [r [D3 D4]]]]. split; [exact D1 |]. split; [exact D2 |]. exists r. rewrite fetch_app, D3. auto.
  - intros x Y. destruct (E x Y) as [r [D3 D4]]. exists r. rewrite fetch_app, D3. auto.
Qed.
Lemma new_peer_good : forall p l n w, good w -> good (new_peer p l n true w).
Proof.
  intros p l n w G. unfold new_peer. destruct (fetch p (c_peers (w_user w))) eqn:F; [exact G |].
  destruct (fetch l (c_links (w_user w))) eqn:L; [| exact G]. apply parse_good.
  - apply good_on; [exact G | repeat split | | apply mild_same; reflexivity]. apply fetch_new; [exact F | apply G |]. cbn [p_link]. congruence.
  - intros q Y Z. ctls. rewrite fetch_app, F in Y. unfold fetch in Y. cbn [find fst] in Y. rewrite N.eqb_refl in Y. cbn [snd] in Y.
    inversion Y; subst q. discriminate.
Qed.

Lemma links_ptrs : forall ls c, ptrs c -> (forall l, fetch l (c_links c) <> None -> fetch l ls <> None) -> ptrs (set_links ls c).
Proof. intros ls c [A B C D E Sn] H. split; ctls; auto. intros p q Y. apply H. exact (C p q Y). Qed.
Lemma step1_good : forall i w, good w -> steady (i, c_or (w_user w)) -> good (step1 i w).
Proof.
  intros i w G St. pose proof G as [W0 P Se O]. destruct i; cbn [step1]; cbn [steady fst] in St.
  - apply good_on; [exact G | destruct (some _); repeat split | | destruct (some _); apply mild_same; reflexivity].
    destruct (some _) eqn:E; [exact P |]. apply links_ptrs; [exact P |]. intros k Y. rewrite fetch_app. destruct (fetch k _); congruence.
  - apply free_link_good, G.
  - apply good_on; [exact G | destruct (fetch _ _); repeat split | | destruct (fetch _ _); apply mild_same; reflexivity].
    destruct (fetch _ _) eqn:E; [| exact P]. apply links_ptrs; [exact P |]. intros k Y. rewrite fetch_store. destruct (fetch k _); congruence.
  - destruct (fetch l (c_links (w_user w))) eqn:L; cbn [some].
    2: { apply good_on; [exact G | rewrite L; repeat split | rewrite L; exact P | rewrite L; apply mild_same; reflexivity]. }
    apply good_on; [exact G | | |]; rewrite L; cbn [some]; unfold run_on; destruct (c_rlink (w_user w)) eqn:R; cbn [some]; auto.
    + repeat split.
    + eapply same_trans; [| apply scanning_same]. repeat split.
    + eapply ptrs_keeps; [apply scanning_keeps; ctls; congruence |]. destruct P as [A B C D E Sn]. split; ctls; auto.
      * intros k Y. inversion Y; subst. congruence.
      * intros p Y. destruct (D p Y) as [_ [_ [q [_ [_ [_ D']]]]]]. congruence.
      * intros p Y. destruct (E p Y) as [q [_ [_ D']]]. congruence.
    + apply mild_same; reflexivity.
    + eapply mild_trans; [| apply scanning_mild]. apply mild_same; reflexivity.
  - subst whole. apply new_peer_good, G.
  - apply parse_good; [exact G |]. intros; exact St.
  - apply free_peer_good, G.
  - destruct (fetch p (c_peers (w_user w))) as [q |] eqn:F.
    2: { apply good_on; [exact G | rewrite F; repeat split | rewrite F; exact P | rewrite F; apply mild_same; reflexivity]. }
    apply good_on; [exact G | | |]; rewrite F; unfold go_neg; destruct (ours q (w_user w) && negb (some (c_rpeer (w_user w)))) eqn:Ou; auto; try (repeat split; fail).
    + apply andb_prop in Ou as [Ou R]. unfold ours in Ou. apply andb_prop in Ou as [Ou1 Ou2].
      destruct (c_rpeer (w_user w)) eqn:Rp; [discriminate |]. destruct P as [A B C D E Sn]. split; ctls; auto; [congruence | | discriminate].
      intros x Y. inversion Y; subst x. exists q. repeat split; auto.
      destruct (c_rlink (w_user w)) as [k |]; [| discriminate]. cbn [is] in Ou1. f_equal. lia.
    + split; ctls; auto. eexists. split; [reflexivity | repeat constructor].
    + apply mild_same; reflexivity.
  - destruct (fetch p (c_peers (w_user w))) as [q |] eqn:F.
    2: { apply good_on; [exact G | rewrite F; repeat split | rewrite F; exact P | rewrite F; apply mild_same; reflexivity]. }
    apply good_on; [exact G | | |]; rewrite F; unfold formation_failure; destruct (_ && _) eqn:Ou; auto; try (repeat split; fail).
    + eapply same_trans; [| apply scanning_same]. repeat split.
    + eapply ptrs_keeps; [apply scanning_keeps; exact (pt_home _ P p q F) |]. destruct P as [A B C D E Sn]. split; ctls; auto.
      intros x Y. destruct (D x Y) as [D1 [D2 D3]]. auto.
    + eapply mild_trans; [| apply scanning_mild]. apply mild_same; reflexivity.
    + apply mild_same; reflexivity.
  - apply good_on; [exact G | repeat split | | apply mild_same; reflexivity]. apply (ptrs_keeps (w_user w)); [apply keeps_same; reflexivity | exact P].
  - destruct (due (c_scan (w_user w)) (w_user w)) eqn:D; [| exact G].
    assert (Sc : c_scan (w_user w) <> None) by (destruct (c_scan (w_user w)); discriminate).
    assert (R : c_rpeer (w_user w) = None).
    { destruct (c_rpeer (w_user w)) as [p |] eqn:R; [| reflexivity]. destruct (pt_run _ P p R) as [_ [Y _]]. congruence. }
    apply good_on; [exact G | apply scan_timeout_same | |].
    + assert (Y : forall c, ptrs c -> ptrs (match c_rlink c with Some l => scanning l true c | None => c end)).
      { intros c Pc. destruct (c_rlink c) eqn:L; [| exact Pc]. eapply ptrs_keeps; [apply scanning_keeps; exact (pt_link _ Pc _ L) | exact Pc]. }
      unfold scan_timeout_fn. apply Y. ctls. destruct P as [A B C D' E Sn]. destruct (c_ppeer (w_user w)) as [p |] eqn:Pp.
      * destruct (E p eq_refl) as [q [E1 _]]. rewrite E1. cbn [some]. split; ctls; auto; congruence.
      * split; ctls; auto; congruence.
    + unfold scan_timeout_fn. ctls. destruct (c_ppeer (w_user w)) as [p |]; [destruct (some (fetch p (c_peers (w_user w)))) |]; ctls;
        (destruct (c_rlink (w_user w)); [eapply mild_trans; [| apply scanning_mild] |]; apply mild_same; reflexivity).
  - destruct (due (c_sinkt (w_user w)) (w_user w)) eqn:D; [| exact G]. unfold due in D. destruct (c_sinkt (w_user w)) as [e |] eqn:Sk; [| discriminate].
    destruct W0 as [K Fo]. destruct (fo_wait _ _ Fo) as [F U]; [congruence |]. destruct Se as [st [M R]].
    destruct st as [| e' f | f | |]; cbn [rel] in R.
    + destruct (fo_idle _ _ Fo R) as [_ [Y _]]. congruence.
    + destruct R as [R1 [R2 [R3 [R4 R5]]]]. rewrite Sk in R3. inversion R3; subst e'.
      apply (timeout_good w (SWait e f) f); auto. right. exists e. split; [reflexivity | lia].
    + destruct R as [_ [_ [_ [R _]]]]. congruence.
    + destruct R as [_ [_ R]]. congruence.
    + destruct R as [_ [_ R]]. congruence.
  - apply event_good, G.
  - pose proof (step1_weak IFile w O W0) as Wk. split; [exact Wk | exact P | exact Se | exact O].
  - apply good_on; [exact G | repeat split | | apply mild_same; reflexivity]. apply (ptrs_keeps (w_user w)); [apply keeps_same; reflexivity | exact P].
  - apply good_on; [exact G | destruct (some _); repeat split | | destruct (some _); apply mild_same; reflexivity].
    apply (ptrs_keeps (w_user w)); [destruct (some _); apply keeps_same; reflexivity | exact P].
  - contradiction.
Qed.
Lemma step_good : forall x w, steady x -> good w -> good (step x w).
Proof.
  intros [i o] w St G. unfold step. rewrite (go_over _ G). cbn [fst snd]. apply step1_good.
  - apply good_on; [exact G | repeat split | | apply mild_same; reflexivity]. apply (ptrs_keeps (w_user w)); [apply keeps_same; reflexivity | apply G].
  - exact St.
Qed.
Lemma begin_good : forall o, good (begin o).
Proof.
  intros o. split; [apply begin_weak | | | reflexivity].
  - split; ctls; try discriminate; try reflexivity. intros H; exact H.
  - exists SIdle. split; reflexivity.
Qed.
Lemma steps_good : forall l w, Forall steady l -> good w -> good (steps l w).
Proof.
  induction l as [| x l IH]; intros w F G; [exact G |]. inversion F; subst. apply (IH (step x w)); [assumption |]. apply step_good; assumption.
Qed.
