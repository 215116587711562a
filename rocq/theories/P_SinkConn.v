(** Properties C108 to C110: the connection of the sink. *)
From Verif Require Import Base SinkConn_Model SinkConn_Spec SinkConn_Proofs.

(** ** C108: connecting, connected or closed *)
Theorem C108_one_answer : forall u l, exists s, answer (run l (start u)) s.
Proof. exact one_answer_ok. Qed.
Print Assumptions C108_one_answer.
Theorem C108_closed : forall u l, let w := run l (start u) in
  is_closed (ctl_sink_close w) = true /\ is_connecting (ctl_sink_close w) = false /\ is_connected (ctl_sink_close w) = false.
Proof. exact close_ok. Qed.
Print Assumptions C108_closed.
Theorem C108_busy : forall U (w : world U) t a, is_closed w = false -> ctl_sink_connect t a w = (w, false).
Proof. exact @connect_refused_ok. Qed.
Print Assumptions C108_busy.
Example C108_ex :
  answer (run [] (start idle)) Idle /\ answer (run [connect] (start idle)) Trying /\
  answer (run [connect; up] (start idle)) Up /\ answer (run [connect; up; Event EHup] (start idle)) Idle.
Proof. vm_compute. repeat split. Qed.

(** ** C109: the callbacks tell the life of every connection *)
Theorem C109_reports_partial : forall u l, leaves_alone u -> exists s,
  lives (w_log (run l (start u))) Idle = Some s /\ answer (run l (start u)) s.
Proof. exact reports_ok. Qed.
Print Assumptions C109_reports_partial.
Theorem C109_hasty_refuted : exists u l, lives (w_log (run l (start u))) Idle = None.
Proof. exact hasty_refuted. Qed.
Print Assumptions C109_hasty_refuted.
Theorem C109_next_refuted : exists u l, is_closed (run l (start u)) = true /\
  ~ In Connected (skipn (length (w_log (run l (start u)))) (w_log (run (l ++ [connect; up]) (start u)))) /\
  is_closed (run (l ++ [connect; up]) (start u)) = true.
Proof. exact hasty_next_refuted. Qed.
Print Assumptions C109_next_refuted.
(** The source is not there at first, the user tries again; then it hangs up. *)
Example C109_ex :
  let u := {| u_connected := [[UFile]]; u_disconnected := [[UConnect (Some 7) yes]]; u_message := [[]; [UClose]] |} in
  leaves_alone u /\
  filter (fun x => match x with Opened _ _ | Closed _ _ => false | _ => true end)
    (w_log (run [connect; Event (EIo true true PError); up; Event (EMsgs 1); Event (EMsgs 2)] (start u))) =
  [Attempt 1 true; Disconnected; Attempt 7 true; Connected; Given_up].
Proof. split; [repeat constructor | vm_compute; reflexivity]. Qed.

(** ** C110: descriptors *)
Theorem C110_no_leak_partial : forall u l, no_leak (run l (start u)).
Proof. exact no_leak_ok. Qed.
Print Assumptions C110_no_leak_partial.
Theorem C110_kept_partial : forall u l, opens_later u ->
  files_kept (w_log (run l (start u))) /\ socket_open (run l (start u)).
Proof. exact descriptors_ok. Qed.
Print Assumptions C110_kept_partial.
Theorem C110_unconnected_partial : forall u l, Forall no_connection l ->
  no_bad_close (w_log (run l (start u))) /\ socket_open (run l (start u)).
Proof. exact unconnected_ok. Qed.
Print Assumptions C110_unconnected_partial.
Theorem C110_twice_refuted : exists u l, leaves_alone u /\ opens_later u /\ ~ no_bad_close (w_log (run l (start u))).
Proof. exact twice_refuted. Qed.
Print Assumptions C110_twice_refuted.
Theorem C110_file_refuted : exists u l, leaves_alone u /\ ~ files_kept (w_log (run l (start u))).
Proof. exact file_refuted. Qed.
Print Assumptions C110_file_refuted.
Theorem C110_reconnect_refuted : exists u l, leaves_alone u /\
  is_connecting (run l (start u)) = true /\ ~ socket_open (run l (start u)).
Proof. exact reconnect_refuted. Qed.
Print Assumptions C110_reconnect_refuted.
Example C110_ex :
  w_log (run [connect; Call UFile; up; Event EHup] (start idle)) =
  [Opened 3 (Socket 0); Attempt 1 true; Opened 4 (File 1); Connected; Closed 3 (Some (Socket 0)); Disconnected; Closed 3 None] /\
  w_log (run [connect; Event (EIo false true PFine)] (start idle)) =
  [Opened 3 (Socket 0); Attempt 1 true; Closed 3 (Some (Socket 0)); Disconnected].
Proof. split; vm_compute; reflexivity. Qed.
