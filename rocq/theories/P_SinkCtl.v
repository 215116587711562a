(** Properties C111 to C116: miracle-sinkctl. *)
From Verif Require Import Base SinkConn_Model SinkConn_Spec SinkCtl_Model SinkCtl_Spec SinkCtl_Proofs SinkCtl_Steady SinkCtl_More SinkCtl_Players SinkCtl_Scans.

(** ** C111: the peers and links remembered are there *)
Theorem C111_pointers_partial : forall l o, Forall steady l -> settled (w_user (steps l (begin o))).
Proof. exact settled_ok. Qed.
Print Assumptions C111_pointers_partial.
Theorem C111_vanished_refuted : exists l, Forall whole_messages l /\ Forall goes_on l /\ c_bad (w_user (steps l (begin usual))) = true.
Proof. exact vanished_refuted. Qed.
Print Assumptions C111_vanished_refuted.
Theorem C111_broken_refuted : exists l, Forall displays l /\ Forall goes_on l /\ c_bad (w_user (steps l (begin usual))) = true.
Proof. exact broken_refuted. Qed.
Print Assumptions C111_broken_refuted.
Theorem C111_quit_refuted : exists l, Forall steady l /\ c_bad (w_user (steps l (begin usual))) = false /\
  c_bad (w_user (step (IQuit, usual) (steps l (begin usual)))) = true.
Proof. exact quit_refuted. Qed.
Print Assumptions C111_quit_refuted.
Theorem C111_stuck_refuted : exists l p p' q, Forall whole_messages l /\ Forall goes_on l /\ let c := w_user (steps l (begin usual)) in
  c_bad c = false /\ c_rpeer c = Some p /\ fetch p (c_peers c) = None /\
  fetch p' (c_peers c) = Some q /\ p_conn q = true /\ p_wfd q = true /\ c_rlink c = Some (p_link q).
Proof. exact stuck_refuted. Qed.
Print Assumptions C111_stuck_refuted.
Example C111_ex : let c := w_user (steps (usually meet) (begin usual)) in
  Forall steady (usually meet) /\ c_rpeer c = Some 2 /\ c_rlink c = Some 1 /\
  let d := w_user (steps (usually (meet ++ [IUnlink 1])) (begin usual)) in c_rpeer d = None /\ c_rlink d = None /\ c_bad d = false.
Proof. split; [repeat constructor; cbn; discriminate | vm_compute; repeat split]. Qed.

(** ** C112: without a peer nothing goes on *)
Theorem C112_quiet : forall l o, let w := steps l (begin o) in
  c_rpeer (w_user w) = None -> is_closed w = true /\ c_sinkt (w_user w) = None /\ c_pid (w_user w) = None.
Proof. exact quiet_ok. Qed.
Print Assumptions C112_quiet.
Example C112_ex :
  let w := steps (usually session_on) (begin usual) in let v := steps (usually (session_on ++ [IProps 2 parts])) (begin usual) in
  is_closed w = false /\ c_pid (w_user w) = Some 100 /\ c_rpeer (w_user v) = None /\ is_closed v = true /\ c_pid (w_user v) = None.
Proof. vm_compute. repeat split. Qed.

(** ** C113: attempts *)
Theorem C113_session_partial : forall l o, Forall steady l -> exists s,
  moves (c_trace (w_user (steps l (begin o)))) SIdle = Some s /\ tells s (steps l (begin o)).
Proof. exact session_ok. Qed.
Print Assumptions C113_session_partial.
Theorem C113_address : forall l o x t a r, let w := steps l (begin o) in
  In (t, Try a r) (skipn (length (c_trace (w_user w))) (c_trace (w_user (step x w)))) ->
  exists p q, c_rpeer (w_user w) = Some p /\ fetch p (c_peers (w_user w)) = Some q /\ a = p_addr q.
Proof. exact address_ok. Qed.
Print Assumptions C113_address.
Theorem C113_hot_refuted : forall n, exists l t, Forall steady l /\
  attempts (c_trace (w_user (steps l (begin usual)))) = repeat t n.
Proof. exact hot_refuted. Qed.
Print Assumptions C113_hot_refuted.
(** No address at first: tried after one, two and three seconds, then no more. *)
Example C113_ex :
  let lost : props := {| n_wfd := None; n_conn := None; n_addr := Some None |} in
  let l := meet ++ [IProps 2 lost] ++ concat (repeat attempt 9) in
  attempts (c_trace (w_user (steps (usually l) (begin usual)))) = [1000000; 3000000; 6000000] /\
  c_trace (w_user (steps (usually (session_on ++ [ISink EHup; IProps 2 parts])) (begin usual))) =
  [(0, Scan 1 true); (0, Join 2); (0, Serve 2); (1000000, Try (Some 9) true); (1000000, Up); (1000000, Spawn 100);
   (1000000, Down); (1000000, Leave 2); (1000000, Kill 100 (Some true))].
Proof. vm_compute. split; reflexivity. Qed.

(** ** C114: the connection *)
Theorem C114_descriptors : forall l o, let w := steps l (begin o) in files_kept (w_log w) /\ socket_open w /\ no_leak w.
Proof. exact ctl_descriptors_ok. Qed.
Print Assumptions C114_descriptors.
Theorem C114_reports : forall l o, let w := steps l (begin o) in exists s, lives (w_log w) Idle = Some s /\ answer w s.
Proof. exact ctl_reports_ok. Qed.
Print Assumptions C114_reports.
Example C114_ex : w_log (steps (usually (meet ++ attempt ++ [IFile; ISink (EIo true true PError); ISink (EIo true false PFine); IProps 2 parts])) (begin usual)) =
  [Opened 3 (Socket 0); Attempt 9 true; Opened 4 (File 1); Closed 3 (Some (Socket 0)); Disconnected; Opened 3 (Socket 2); Attempt 9 true;
   Connected; Given_up; Closed 3 (Some (Socket 2)); Closed 3 None].
Proof. vm_compute. reflexivity. Qed.

(** ** C115: scans *)
Theorem C115_lost : forall l o x p, Forall steady l -> steady x -> let w := steps l (begin o) in
  c_rpeer (w_user w) = Some p -> c_rpeer (w_user (step x w)) = None ->
  exists k, c_rlink (w_user w) = Some k /\ rescans k (w_user w) (w_user (step x w)).
Proof. exact lost_scans. Qed.
Print Assumptions C115_lost.
Theorem C115_timer : forall l o a k, Forall steady l -> let w := steps l (begin o) in
  due (c_scan (w_user w)) (w_user w) = true -> c_rlink (w_user w) = Some k -> rescans k (w_user w) (w_user (step (IScanTimer, a) w)).
Proof. exact timer_scans. Qed.
Print Assumptions C115_timer.
Theorem C115_failure : forall l o a p q, Forall steady l -> let w := steps l (begin o) in
  fetch p (c_peers (w_user w)) = Some q -> p_wfd q = true -> c_rlink (w_user w) = Some (p_link q) -> c_rpeer (w_user w) = None ->
  rescans (p_link q) (w_user w) (w_user (step (IFail p, a) w)) /\ c_scan (w_user (step (IFail p, a) w)) = None.
Proof. exact failure_scans. Qed.
Print Assumptions C115_failure.
Theorem C115_no_timer : forall l o, Forall steady l -> let c := w_user (steps l (begin o)) in
  c_scan c <> None -> c_rpeer c = None /\ c_ppeer c <> None.
Proof. exact scan_timer_ok. Qed.
Print Assumptions C115_no_timer.
Theorem C115_exit_partial : forall l o a k lk, Forall steady l -> let w := steps l (begin o) in
  no_peer (w_user w) -> fetch k (c_links (w_user w)) = Some lk -> l_have lk = true -> l_scan lk = true ->
  asked k (c_trace (w_user (step (IQuit, a) w))) = Some false.
Proof. exact exit_scans. Qed.
Print Assumptions C115_exit_partial.
Theorem C115_running_refuted : exists l k, Forall steady l /\ asked k (c_trace (w_user (step (IQuit, usual) (steps l (begin usual))))) = Some true /\
  exists lk, fetch k (c_links (w_user (steps l (begin usual)))) = Some lk /\ l_have lk = true /\ l_scan lk = false.
Proof. exact exit_running_refuted. Qed.
Print Assumptions C115_running_refuted.
Theorem C115_early_refuted : exists l k, Forall steady l /\ no_peer (w_user (steps l (begin usual))) /\
  asked k (c_trace (w_user (step (IQuit, usual) (steps l (begin usual))))) = Some true.
Proof. exact exit_early_refuted. Qed.
Print Assumptions C115_early_refuted.
Example C115_ex :
  asked 1 (c_trace (w_user (steps (usually [ILink 1 false; IRun 1; IScanning 1 true; IQuit]) (begin usual)))) = Some false /\
  asked 1 (c_trace (w_user (steps (usually [ILink 1 true; IRun 1; IQuit]) (begin usual)))) = None /\
  let d := w_user (steps (usually [ILink 1 true; IRun 1; IPeer 2 1 display true; IGoNeg 2; IScanning 1 false; ITime 60000000; IScanTimer]) (begin usual)) in
  c_trace d = [(0, Join 2); (60000000, Scan 1 true)] /\ c_ppeer d = None.
Proof. vm_compute. repeat split. Qed.

(** ** C116: players *)
Theorem C116_one : forall l o, players (c_trace (w_user (steps l (begin o)))) None = Some (c_pid (w_user (steps l (begin o)))).
Proof. exact players_ok. Qed.
Print Assumptions C116_one.
Theorem C116_ours_partial : forall l o, lasting l (begin o) -> kills_ours (c_trace (w_user (steps l (begin o)))).
Proof. exact kills_ok. Qed.
Print Assumptions C116_ours_partial.
Theorem C116_kill_refuted : exists l t p, Forall steady l /\ In (t, Kill p (Some false)) (c_trace (w_user (steps l (begin usual)))).
Proof. exact kill_refuted. Qed.
Print Assumptions C116_kill_refuted.
Theorem C116_again_refuted : exists l x, Forall steady l /\ let w := steps l (begin usual) in
  is_connected w = true /\ c_procs (w_user w) = [] /\ o_res (snd x) = true /\ o_pid (snd x) <> None /\ fst x = ISink (EMsgs 1) /\
  c_procs (w_user (step x w)) = [] /\ c_trace (w_user (step x w)) = c_trace (w_user w).
Proof. exact no_player_refuted. Qed.
Print Assumptions C116_again_refuted.
Example C116_ex : lasting (usually (session_on ++ [IProc 7; IExit 7; IProps 2 parts])) (begin usual) /\
  In (1000000, Kill 100 (Some true)) (c_trace (w_user (steps (usually (session_on ++ [IProc 7; IExit 7; IProps 2 parts])) (begin usual)))).
Proof. split; [cbn [lasting usually map app session_on meet attempt fst]; repeat split; intros p E; try discriminate E; inversion E; vm_compute; discriminate | vm_compute; auto 20]. Qed.
