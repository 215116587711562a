(** Proofs about miracle-sinkctl, continued: scans, and what goes wrong. *)
From Verif Require Import Base SinkConn_Model SinkConn_Spec SinkConn_Proofs SinkCtl_Model SinkCtl_Spec SinkCtl_Proofs SinkCtl_Steady SinkCtl_More SinkCtl_Players.

(** ** Scans *)
Lemma scans_scanning : forall k c d lk, c_links d = c_links c -> c_trace d = c_trace c -> c_now d = c_now c -> fetch k (c_links c) = Some lk ->
  rescans k c (scanning k true d).
Proof.
  intros k c d lk E1 E2 E3 F. unfold scanning. rewrite E1, F. destruct (l_scan lk) eqn:S; cbn [Bool.eqb].
  - exists []. rewrite app_nil_r. split; [exact E2 |]. right. eauto.
  - eexists. ctls. rewrite E2, E3. split; [reflexivity |]. left. left. reflexivity.
Qed.
Lemma scans_grows : forall P k a b c, rescans k a b -> grows P b c -> rescans k a c.
Proof.
  intros P k a b c [m [E H]] [l [E2 _]]. exists (m ++ l). rewrite app_assoc, <- E. split; [exact E2 |].
  destruct H as [H | H]; [left; apply in_app_iff; auto | right; exact H].
Qed.
Lemma scans_stop : forall p q w lk, c_rpeer (w_user w) = Some p -> c_over (w_user w) = false -> fetch (p_link q) (c_links (w_user w)) = Some lk ->
  rescans (p_link q) (w_user w) (w_user (stop_peer p q w)).
Proof.
  intros p q w lk R O F. unfold stop_peer. rewrite R. cbn [is]. rewrite N.eqb_refl.
  set (w1 := on (fun c => kill_gst _) w).
  assert (G : exists m, c_trace (w_user w1) = c_trace (w_user w) ++ m).
  { subst w1. ctls. unfold kill_gst. ctls. destruct (c_pid (w_user w)); ctls; [rewrite <- app_assoc |]; eexists; reflexivity. }
  assert (E : c_links (w_user w1) = c_links (w_user w) /\ c_now (w_user w1) = c_now (w_user w)).
  { subst w1. ctls. unfold kill_gst. ctls. destruct (c_pid (w_user w)); auto. }
  destruct G as [m G]. destruct E as [E1 E2].
  assert (X : rescans (p_link q) (w_user w1) (w_user (on (fun c => scanning (p_link q) true (set_scan None (set_rpeer None c)))
     (if c_over (w_user w1) then on set_bad w1 else ctl_sink_close w1)))).
  { ctls. apply (scans_scanning _ _ _ lk); [| | | rewrite E1; exact F];
      (destruct (c_over (w_user w1)); ctls; [reflexivity | rewrite ctl_close_user; reflexivity]). }
  destruct X as [l [X1 X2]]. exists (m ++ l). rewrite app_assoc, <- G. split; [exact X1 |]. rewrite E1, E2 in X2.
  destruct X2 as [X2 | X2]; [left; apply in_app_iff; auto | right; exact X2].
Qed.
Lemma free_cases : forall p x q k lk w, good w -> c_rpeer (w_user w) = Some p -> fetch p (c_peers (w_user w)) = Some q -> p_link q = k -> fetch k (c_links (w_user w)) = Some lk ->
  rescans k (w_user w) (w_user (free_peer x w)) \/
  (c_rpeer (w_user (free_peer x w)) = Some p /\ fetch p (c_peers (w_user (free_peer x w))) = Some q /\ c_links (w_user (free_peer x w)) = c_links (w_user w) /\
   c_now (w_user (free_peer x w)) = c_now (w_user w) /\ c_trace (w_user (free_peer x w)) = c_trace (w_user w)).
Proof.
  intros p x q k lk w G R Fq L Fl. destruct (pt_run _ (go_ptrs _ G) p R) as [Pp [_ [q' [F1 [_ [F3 F4]]]]]]. assert (q' = q) by congruence. subst q'.
  destruct (N.eq_dec x p) as [E | E].
  - subst x. left. unfold free_peer. rewrite Fq. unfold peer_free, ours. rewrite F4. cbn [is]. rewrite N.eqb_refl, F3. cbn [andb]. rewrite Pp. cbn [is].
    subst k. destruct (scans_stop p q w lk R (go_over _ G) Fl) as [m H]. exists m. exact H.
  - right. split; [| split; [rewrite fetch_free; replace (p =? x) with false by lia; exact Fq |]].
    + unfold free_peer. destruct (fetch x (c_peers (w_user w))) as [r |]; [| exact R]. unfold peer_free. destruct (ours r (w_user w)); [| exact R].
      rewrite Pp. cbn [is]. unfold stop_peer. rewrite R. cbn [is]. replace (p =? x) with false by lia. exact R.
    + unfold free_peer. destruct (fetch x (c_peers (w_user w))) as [r |]; [| auto]. unfold peer_free. destruct (ours r (w_user w)); [| auto].
      rewrite Pp. cbn [is]. unfold stop_peer. rewrite R. cbn [is]. replace (p =? x) with false by lia. auto.
Qed.
Lemma folds_grow : forall ps w, grows no_try (w_user w) (w_user (fold_left (fun w p => free_peer p w) ps w)).
Proof.
  induction ps as [| x ps IH]; intros w; [apply grows_refl; reflexivity |]. cbn [fold_left].
  eapply grows_trans; [apply free_peer_grows | apply IH].
Qed.
Lemma scans_fold : forall ps p q k lk w, good w -> c_rpeer (w_user w) = Some p -> fetch p (c_peers (w_user w)) = Some q -> p_link q = k -> fetch k (c_links (w_user w)) = Some lk ->
  let w' := fold_left (fun w p => free_peer p w) ps w in
  rescans k (w_user w) (w_user w') \/ c_rpeer (w_user w') = Some p.
Proof.
  induction ps as [| x ps IH]; intros p q k lk w G R Fq L Fl w'; [right; exact R |]. subst w'. cbn [fold_left].
  destruct (free_cases p x q k lk w G R Fq L Fl) as [H | [H1 [H2 [H3 [H4 H5]]]]].
  - left. eapply scans_grows; [exact H | apply folds_grow].
  - destruct (IH p q k lk (free_peer x w) (free_peer_good x w G) H1 H2 L) as [H | H]; [congruence | | right; exact H].
    left. destruct H as [m [E H]]. exists m. rewrite <- H5, <- H4, <- H3. split; assumption.
Qed.
Lemma lost_scans : forall l o x p, Forall steady l -> steady x -> let w := steps l (begin o) in
  c_rpeer (w_user w) = Some p -> c_rpeer (w_user (step x w)) = None ->
  exists k, c_rlink (w_user w) = Some k /\ rescans k (w_user w) (w_user (step x w)).
Proof.
  intros l o [i a] p F Sx w R Rn. pose proof (steps_good l _ F (begin_good o)) as G. fold w in G. clearbody w. clear F l.
  unfold step in *. rewrite (go_over _ G) in *. cbn [fst snd] in *.
  set (w1 := on (set_or a) w) in *.
  assert (G1 : good w1).
  { apply good_on; [exact G | repeat split | | apply mild_same; reflexivity]. apply (ptrs_keeps (w_user w)); [apply keeps_same; reflexivity | apply G]. }
  assert (X : exists k, c_rlink (w_user w1) = Some k /\ rescans k (w_user w1) (w_user (step1 i w1))).
  2: { destruct X as [k [X1 X2]]. exists k. split; [exact X1 | exact X2]. }
  assert (R1 : c_rpeer (w_user w1) = Some p) by exact R. clearbody w1. clear R G w.
  destruct (pt_run _ (go_ptrs _ G1) p R1) as [Pp [Sc [q [F1 [F2 [F3 F4]]]]]]. exists (p_link q). split; [exact F4 |].
  pose proof (pt_home _ (go_ptrs _ G1) p q F1) as Hl. destruct (fetch (p_link q) (c_links (w_user w1))) as [lk |] eqn:Fl; [| congruence].
  assert (Same : forall f, c_rpeer (f (w_user w1)) = c_rpeer (w_user w1) -> c_rpeer (w_user (on f w1)) = None -> False).
  { intros f E H. ctls. congruence. }
  assert (Pa : forall x n w, good w -> c_rpeer (w_user w) = Some p -> fetch p (c_peers (w_user w)) = Some q -> c_links (w_user w) = c_links (w_user w1) ->
     c_now (w_user w) = c_now (w_user w1) -> c_trace (w_user w) = c_trace (w_user w1) -> c_rlink (w_user w) = Some (p_link q) ->
     (forall q, fetch x (c_peers (w_user w)) = Some q -> p_wfd q = true -> n_wfd n <> Some false) ->
     c_rpeer (w_user (parse x n w)) = None -> rescans (p_link q) (w_user w1) (w_user (parse x n w))).
  { intros x n w G R Fq E1 E2 E3 E4 Wf. unfold parse. destruct (fetch x (c_peers (w_user w))) as [r |] eqn:Fx; [| congruence].
    destruct (n_conn n) as [v |]; [| ctls; congruence]. destruct (Bool.eqb v (p_conn r)) eqn:Ev; [ctls; congruence |]. destruct v.
    - ctls. unfold peer_connected. destruct (ours _ _); ctls; [rewrite R; cbn [some]; ctls; congruence | congruence].
    - unfold peer_disconnected. destruct (ours _ _) eqn:Ou; [| ctls; congruence]. destruct (N.eq_dec x p) as [E | E].
      + subst x. intros _. assert (r = q) by congruence. subst r.
        set (q2 := {| p_link := _ |}). set (w2 := on _ (on _ w)).
        assert (X : rescans (p_link q2) (w_user w2) (w_user (stop_peer p q2 w2))).
        { apply (scans_stop p q2 w2 lk); [exact R | exact (go_over _ G) |]. subst w2 q2. ctls. cbn [p_link]. rewrite E1. exact Fl. }
        destruct X as [m [X1 X2]]. exists m. subst w2. ctls. rewrite E3 in X1. rewrite E2, E1 in X2. split; assumption.
      + unfold stop_peer. ctls. rewrite R. cbn [is]. replace (p =? x) with false by lia. ctls. congruence. }
  assert (NoEv : forall e, c_rpeer (w_user (event sinkctl e w1)) = None -> False).
  { intros e H. destruct (event_good e w1 G1) as [Wk _ _ _]. assert (E : c_rpeer (w_user (event sinkctl e w1)) = c_rpeer (w_user w1)) by apply event_rpeer.
    congruence. }
  destruct i; cbn [step1] in *; cbn [steady fst] in Sx.
  - exfalso. apply (Same _) in Rn; auto. destruct (some _); reflexivity.
  - unfold free_link in *. destruct (fetch l (c_links (w_user w1))); [| congruence].
    destruct (scans_fold (rev (peers_of l (w_user w1))) p q (p_link q) lk w1 G1 R1 F1 eq_refl Fl) as [H | H].
    + destruct H as [m [E H]]. exists m. split; [| exact H]. ctls. rewrite <- E. destruct (is _ _); reflexivity.
    + exfalso. ctls. destruct (is _ _); ctls; congruence.
  - exfalso. apply (Same _) in Rn; auto. destruct (fetch l (c_links (w_user w1))); reflexivity.
  - exfalso. ctls. destruct (some (fetch l (c_links (w_user w1)))); [| congruence]. unfold run_on in Rn. rewrite F4 in Rn. cbn [some] in Rn. congruence.
  - subst whole. unfold new_peer in *. destruct (fetch p0 (c_peers (w_user w1))) eqn:Fn; [congruence |].
    destruct (fetch l (c_links (w_user w1))) eqn:Ln; [| congruence]. apply Pa; auto.
    + apply good_on; [exact G1 | repeat split | | apply mild_same; reflexivity]. apply fetch_new; [exact Fn | apply G1 |]. cbn [p_link]. congruence.
    + ctls. rewrite fetch_app, F1. reflexivity.
    + intros r Y Z. ctls. rewrite fetch_app, Fn in Y. unfold fetch in Y. cbn [find fst] in Y. rewrite N.eqb_refl in Y. cbn [snd] in Y.
      inversion Y; subst r. discriminate.
  - apply Pa; auto.
  - destruct (free_cases p p0 q (p_link q) lk w1 G1 R1 F1 eq_refl Fl) as [H | [H _]]; [exact H | congruence].
  - exfalso. apply (Same _) in Rn; auto. destruct (fetch p0 (c_peers (w_user w1))); [| reflexivity]. unfold go_neg. destruct (_ && _); reflexivity.
  - exfalso. apply (Same _) in Rn; auto. destruct (fetch p0 (c_peers (w_user w1))) as [r |]; [| reflexivity]. unfold formation_failure. destruct (_ && _); [| reflexivity].
    destruct (scanning_same (p_link r) true (set_scan None (w_user w1))) as [_ [_ [E _]]]. rewrite <- E. reflexivity.
  - exfalso. apply (Same _) in Rn; auto.
  - exfalso. unfold due in Rn. rewrite Sc in Rn. congruence.
  - exfalso. destruct (due _ _); [| congruence]. rewrite timeout_rpeer in Rn. congruence.
  - exfalso. exact (NoEv e Rn).
  - exfalso. unfold k_new in Rn. ctls. congruence.
  - exfalso. ctls. congruence.
  - exfalso. apply (Same _) in Rn; auto. destruct (some _); reflexivity.
  - contradiction.
Qed.
Lemma scan_timer_ok : forall l o, Forall steady l -> let c := w_user (steps l (begin o)) in
  c_scan c <> None -> c_rpeer c = None /\ c_ppeer c <> None.
Proof.
  intros l o F c S. pose proof (go_ptrs _ (steps_good l _ F (begin_good o))) as P. fold c in P. split; [| exact (pt_scan _ P S)].
  destruct (c_rpeer c) as [p |] eqn:R; [| reflexivity]. destruct (pt_run _ P p R) as [_ [S' _]]. congruence.
Qed.
Lemma timer_scans : forall l o a k, Forall steady l -> let w := steps l (begin o) in
  due (c_scan (w_user w)) (w_user w) = true -> c_rlink (w_user w) = Some k -> rescans k (w_user w) (w_user (step (IScanTimer, a) w)).
Proof.
  intros l o a k F w D L. pose proof (steps_good l _ F (begin_good o)) as G. fold w in G. clearbody w.
  pose proof (pt_link _ (go_ptrs _ G) k L) as Hl. destruct (fetch k (c_links (w_user w))) as [lk |] eqn:Fl; [| congruence].
  unfold step. rewrite (go_over _ G). cbn [fst snd step1]. ctls. unfold due in *. ctls. rewrite D. ctls. unfold scan_timeout_fn. ctls.
  destruct (c_ppeer (w_user w)) as [p |]; [destruct (some (fetch p (c_peers (w_user w)))) |]; ctls; rewrite L;
    (apply (scans_scanning _ _ _ lk); [reflexivity | reflexivity | reflexivity | exact Fl]).
Qed.
Lemma failure_scans : forall l o a p q, Forall steady l -> let w := steps l (begin o) in
  fetch p (c_peers (w_user w)) = Some q -> p_wfd q = true -> c_rlink (w_user w) = Some (p_link q) -> c_rpeer (w_user w) = None ->
  rescans (p_link q) (w_user w) (w_user (step (IFail p, a) w)) /\ c_scan (w_user (step (IFail p, a) w)) = None.
Proof.
  intros l o a p q F w Fq Wf L R. pose proof (steps_good l _ F (begin_good o)) as G. fold w in G. clearbody w.
  pose proof (pt_link _ (go_ptrs _ G) _ L) as Hl. destruct (fetch (p_link q) (c_links (w_user w))) as [lk |] eqn:Fl; [| congruence].
  unfold step. rewrite (go_over _ G). cbn [fst snd step1]. ctls. rewrite Fq. unfold formation_failure, ours. ctls. rewrite L, R, Wf. cbn [is some negb andb].
  rewrite N.eqb_refl. cbn [andb]. split.
  2: { unfold scanning. ctls. rewrite Fl. destruct (Bool.eqb _ _); reflexivity. }
  apply (scans_scanning _ _ _ lk); [reflexivity | reflexivity | reflexivity | exact Fl].
Qed.

(** The end. *)
Lemma asked_snoc : forall k tr x, asked k (tr ++ [x]) = match snd x with Scan l b => if l =? k then Some b else asked k tr | _ => asked k tr end.
Proof. intros k tr x. unfold asked. rewrite fold_left_app. reflexivity. Qed.
Lemma free_none : forall p w, no_peer (w_user w) -> no_peer (w_user (free_peer p w)) /\ c_trace (w_user (free_peer p w)) = c_trace (w_user w).
Proof.
  intros p w [R P]. unfold free_peer. destruct (fetch p (c_peers (w_user w))) as [q |]; [| repeat split; assumption].
  unfold peer_free, stop_peer. destruct (ours q (w_user w)); rewrite ?P; cbn [is]; rewrite ?R; cbn [is]; repeat split; ctls; assumption.
Qed.
Lemma free_link_none : forall l w, no_peer (w_user w) -> no_peer (w_user (free_link l w)) /\ c_trace (w_user (free_link l w)) = c_trace (w_user w).
Proof.
  intros l w H. unfold free_link. destruct (fetch l (c_links (w_user w))); [| auto].
  set (w1 := fold_left _ _ _). assert (G : no_peer (w_user w1) /\ c_trace (w_user w1) = c_trace (w_user w)).
  { subst w1. remember (rev (peers_of l (w_user w))) as ps eqn:E. clear E. revert w H.
    induction ps as [| x ps IH]; intros w H; [auto |]. cbn [fold_left]. destruct (free_none x w H) as [A B]. destruct (IH _ A) as [C D]. split; [exact C | congruence]. }
  destruct G as [[G1 G2] G3]. unfold no_peer. ctls. destruct (is _ _); ctls; auto.
Qed.
Lemma exit_scans : forall l o a k lk, Forall steady l -> let w := steps l (begin o) in
  no_peer (w_user w) -> fetch k (c_links (w_user w)) = Some lk -> l_have lk = true -> l_scan lk = true ->
  asked k (c_trace (w_user (step (IQuit, a) w))) = Some false.
Proof.
  intros l o a k lk F w Np Fk Hv Sc. pose proof (steps_good l _ F (begin_good o)) as G. fold w in G. clearbody w.
  unfold step. rewrite (go_over _ G). cbn [fst snd step1]. unfold quit. set (w1 := on set_over _).
  assert (E1 : no_peer (w_user w1) /\ fetch k (c_links (w_user w1)) = Some lk).
  { subst w1. ctls. rewrite ctl_close_user. ctls. split; [exact Np | exact Fk]. }
  clearbody w1. clear G Np Fk w a F l. destruct E1 as [Np Fk].
  assert (In1 : In k (map fst (c_links (w_user w1)))) by (apply in_map_iff; exists (k, lk); split; [reflexivity | apply fetch_in, Fk]).
  set (w2 := fold_left _ (c_links (w_user w1)) w1).
  assert (H : no_peer (w_user w2) /\ asked k (c_trace (w_user w2)) = Some false).
  { assert (K : forall ls w, no_peer (w_user w) -> c_links (w_user w) = c_links (w_user w1) -> (In k (map fst ls) \/ asked k (c_trace (w_user w)) = Some false) ->
        let w' := fold_left (fun w (l : N * link) => on (fun c => match fetch (fst l) (c_links c) with
             | Some k => if l_have k then scanning (fst l) false c else c
             | None => c end) w) ls w in no_peer (w_user w') /\ asked k (c_trace (w_user w')) = Some false).
    { induction ls as [| [x y] ls IH]; intros w H1 H2 H3; cbv zeta; [destruct H3 as [[] | H3]; split; assumption |]. cbn [fold_left fst].
      set (f := fun c : ctl => match fetch x (c_links c) with Some k => if l_have k then scanning x false c else c | None => c end).
      assert (X : no_peer (f (w_user w)) /\ c_links (f (w_user w)) = c_links (w_user w) /\
        (x = k \/ asked k (c_trace (w_user w)) = Some false -> asked k (c_trace (f (w_user w))) = Some false)).
      { subst f. cbv beta. destruct (fetch x (c_links (w_user w))) as [kx |] eqn:Fx.
        2: { split; [exact H1 |]. split; [reflexivity |]. intros [E | E]; [| exact E]. subst x. rewrite H2 in Fx. congruence. }
        destruct (l_have kx) eqn:Hx.
        2: { split; [exact H1 |]. split; [reflexivity |]. intros [E | E]; [| exact E]. subst x. rewrite H2 in Fx. congruence. }
        unfold scanning. rewrite Fx. destruct (l_scan kx) eqn:Sx; cbn [Bool.eqb].
        - split; [exact H1 |]. split; [reflexivity |]. intros E. ctls. rewrite asked_snoc. cbn [snd]. destruct (x =? k) eqn:Z; [reflexivity |].
          destruct E as [E | E]; [lia | exact E].
        - split; [exact H1 |]. split; [reflexivity |]. intros [E | E]; [| exact E]. subst x. rewrite H2 in Fx. congruence. }
      destruct X as [X1 [X2 X3]]. apply (IH (on f w)); ctls; [exact X1 | congruence |].
      destruct H3 as [[H3 | H3] | H3]; auto. }
    apply K; auto. }
  destruct H as [H1 H2]. clearbody w2. remember (rev (c_links (w_user w2))) as l2 eqn:E. clear E. revert w2 H1 H2.
  induction l2 as [| x l2 IH]; intros w H1 H2; [exact H2 |]. cbn [fold_left]. destruct (free_link_none (fst x) w H1) as [A B]. apply IH; [exact A | congruence].
Qed.

(** ** What goes wrong *)

(** The attempts after a refused connection. *)
Local Opaque ctl_sink_connect.
Lemma connect_fine : forall t (w : W), s_fd (w_sink w) = None -> snd (ctl_sink_connect (Some t) fine_answers w) = true.
Proof.
  Local Transparent ctl_sink_connect.
  intros t w F. unfold ctl_sink_connect, sink_connect, k_new. rewrite F. cbn [a_dup fine_answers]. ctls. rewrite F. reflexivity.
  Local Opaque ctl_sink_connect.
Qed.
Definition refused : inp * oracle := (ISink (EIo true false PError), usual).
Definition waits (n : nat) (w : W) : Prop :=
  good w /\ s_fd (w_sink w) <> None /\ s_conn (w_sink w) = false /\
  attempts (c_trace (w_user w)) = repeat 1000000 n /\ c_now (w_user w) = 1000000 /\
  exists p q, c_rpeer (w_user w) = Some p /\ fetch p (c_peers (w_user w)) = Some q /\ p_addr q = Some 9.
Lemma refused_again : forall n w, waits n w -> waits (S n) (step refused w).
Proof.
  intros n w [G [Fd [Cn [At [Nw [p [q [R [Fq Ad]]]]]]]]].
  assert (G' : good (step refused w)) by (apply step_good; [exact I | exact G]).
  split; [exact G' |]. clear G'. pose proof G as [[[C T S Ins] Fo] P Se O].
  unfold step, refused. rewrite O. cbn [fst snd step1 event]. set (w1 := on (set_or usual) w).
  assert (Sr : s_src (w_sink w1) = Some true).
  { pose proof (c_src _ C) as Sr. subst w1. ctls. rewrite Sr. destruct (s_fd (w_sink w)); [| congruence]. rewrite Cn. reflexivity. }
  destruct (s_fd (w_sink w)) as [fd |] eqn:F; [| congruence].
  destruct (src_true (w_sink w1) C Sr) as [fd' [F' [Cn' [H B]]]].
  rewrite Sr. unfold sink_io, sink_connected. rewrite Cn', H, Sr. cbn [orb]. ctls. unfold sink_lost. ctls.
  cbn [sinkctl h_disconnected]. set (w2 := note Disconnected _).
  assert (U2 : w_user w2 = w_user w1) by (subst w2; ctls; rewrite sink_close_user; reflexivity).
  assert (F2 : s_fd (w_sink w2) = None /\ s_conn (w_sink w2) = false).
  { subst w2. ctls. rewrite (sink_close_sink _ fd); [split; reflexivity | exact F]. }
  clearbody w2. destruct F2 as [F2 C2]. rewrite U2.
  assert (Up : c_up (w_user w) = false) by (rewrite (fo_up _ _ Fo); [exact Cn | congruence]).
  destruct (pt_run _ P p R) as [_ [_ [q' [Fq' [Q1 _]]]]]. assert (q' = q) by congruence. subst q'.
  subst w1. ctls. rewrite Up. unfold sink_timeout_fn. ctls. rewrite U2. ctls. rewrite R, Fq, Q1.
  replace (is_closed (on (set_sinkt None) w2)) with true by (unfold is_closed; ctls; rewrite F2; reflexivity). cbn [andb]. ctls. rewrite ?U2. ctls.
  cbn [usual o_ans]. set (w3 := on (set_sinkt None) w2). pose proof (connect_user (p_addr q) fine_answers w3) as U3.
  destruct (connect_sink (p_addr q) fine_answers w3 F2 C2) as [N3 F3]. pose proof (connect_fine 9 w3 F2) as Ok. rewrite <- Ad in Ok.
  destruct (ctl_sink_connect (p_addr q) fine_answers w3) as [w4 r]. cbn [fst snd] in *. subst r. ctls. rewrite U3. subst w3. ctls. rewrite U2. ctls.
  split; [apply F3; reflexivity |]. split; [exact N3 |]. split; [| split; [exact Nw | exists p, q; auto]].
  unfold attempts in *. rewrite flat_map_app, At. cbn [flat_map snd fst app]. rewrite Nw. rewrite <- repeat_cons. reflexivity.
Qed.
Lemma steps_app : forall a b w, steps (a ++ b) w = steps b (steps a w).
Proof. intros. unfold steps. apply fold_left_app. Qed.
Lemma hot_refuted : forall n, exists l t, Forall steady l /\
  attempts (c_trace (w_user (steps l (begin usual)))) = repeat t n.
Proof.
  intros [| n]; [exists [], 0; split; [constructor | reflexivity] |].
  exists (usually (meet ++ attempt) ++ repeat refused n), 1000000.
  assert (St : Forall steady (usually (meet ++ attempt))) by (repeat constructor; vm_compute; discriminate).
  split; [apply Forall_app; split; [exact St | apply Forall_forall; intros x H; apply repeat_spec in H; subst x; exact I] |].
  assert (H : waits 1 (steps (usually (meet ++ attempt)) (begin usual))).
  { split; [apply steps_good; [exact St | apply begin_good] |]. Local Transparent ctl_sink_connect. vm_compute. repeat split; try discriminate.
    exists 2. eexists. repeat split. Local Opaque ctl_sink_connect. }
  assert (H2 : waits (S n) (steps (usually (meet ++ attempt) ++ repeat refused n) (begin usual))).
  { rewrite steps_app.
    replace (S n) with (n + 1)%nat by lia. revert H. generalize (steps (usually (meet ++ attempt)) (begin usual)) as w. generalize 1%nat as m.
    induction n as [| n IH]; intros m w H; [exact H |]. replace (S n + m)%nat with (n + S m)%nat by lia. apply (IH (S m) (step refused w)), refused_again, H. }
  apply H2.
Qed.
Local Transparent ctl_sink_connect.
Ltac try_all := repeat constructor; cbn; try discriminate; auto.
Lemma vanished_refuted : exists l, Forall whole_messages l /\ Forall goes_on l /\ c_bad (w_user (steps l (begin usual))) = true.
Proof. exists (usually (meet ++ [IProps 2 no_display; IUnpeer 2] ++ attempt)). split; [try_all | split; [try_all | vm_compute; reflexivity]]. Qed.
Lemma broken_refuted : exists l, Forall displays l /\ Forall goes_on l /\ c_bad (w_user (steps l (begin usual))) = true.
Proof.
  exists (usually ([ILink 1 false; IRun 1; IPeer 2 1 {| n_wfd := Some true; n_conn := Some true; n_addr := Some (Some 9) |} false] ++ attempt)).
  split; [try_all | split; [try_all | vm_compute; reflexivity]].
Qed.
Lemma quit_refuted : exists l, Forall steady l /\ c_bad (w_user (steps l (begin usual))) = false /\
  c_bad (w_user (step (IQuit, usual) (steps l (begin usual)))) = true.
Proof. exists (usually meet). split; [try_all | split; vm_compute; reflexivity]. Qed.
Lemma stuck_refuted : exists l p p' q, Forall whole_messages l /\ Forall goes_on l /\ let c := w_user (steps l (begin usual)) in
  c_bad c = false /\ c_rpeer c = Some p /\ fetch p (c_peers c) = None /\
  fetch p' (c_peers c) = Some q /\ p_conn q = true /\ p_wfd q = true /\ c_rlink c = Some (p_link q).
Proof.
  exists (usually (meet ++ [IProps 2 no_display; IUnpeer 2; IPeer 3 1 display true; IProps 3 joins])), 2, 3. eexists.
  split; [try_all | split; [try_all |]]. vm_compute. repeat split.
Qed.
Lemma exit_running_refuted : exists l k, Forall steady l /\ asked k (c_trace (w_user (step (IQuit, usual) (steps l (begin usual))))) = Some true /\
  exists lk, fetch k (c_links (w_user (steps l (begin usual)))) = Some lk /\ l_have lk = true /\ l_scan lk = false.
Proof. exists (usually (meet ++ [IScanning 1 false])), 1. split; [try_all |]. split; [vm_compute; reflexivity | vm_compute; eauto]. Qed.
Lemma exit_early_refuted : exists l k, Forall steady l /\ no_peer (w_user (steps l (begin usual))) /\
  asked k (c_trace (w_user (step (IQuit, usual) (steps l (begin usual))))) = Some true.
Proof. exists (usually [ILink 1 false; IRun 1]), 1. split; [try_all |]. split; vm_compute; auto. Qed.
Lemma kill_refuted : exists l t p, Forall steady l /\ In (t, Kill p (Some false)) (c_trace (w_user (steps l (begin usual)))).
Proof.
  exists (usually (session_on ++ [IExit 100; IProc 100; IProps 2 parts])), 1000000, 100. split; [try_all |]. vm_compute. auto 20.
Qed.
Lemma no_player_refuted : exists l x, Forall steady l /\ let w := steps l (begin usual) in
  is_connected w = true /\ c_procs (w_user w) = [] /\ o_res (snd x) = true /\ o_pid (snd x) <> None /\ fst x = ISink (EMsgs 1) /\
  c_procs (w_user (step x w)) = [] /\ c_trace (w_user (step x w)) = c_trace (w_user w).
Proof.
  exists (usually (session_on ++ [IExit 100])), (ISink (EMsgs 1), usual). split; [try_all |]. vm_compute. repeat split. discriminate.
Qed.
