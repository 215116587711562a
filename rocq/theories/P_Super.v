(** Properties C117 to C123: the supervision of wpa_supplicant. *)
From Verif Require Import Base Super_Model Super_Spec Super_Proofs Super_More Super_Rate Super_Ends.
From Verif Require Setup_Model.

(** A launch that succeeds; a process that comes up and answers its setup requests. *)
Definition good : launch := mkLaunch true true true.
Definition yes (p2p : bool) : event := Answer (Setup_Model.mkAnswer p2p true true Setup_Model.PEnd).
Definition begins (t : N) : list (N * event) := [(t, Start true true good)].
Definition attached (t : N) : list (N * event) := [(t, Tick good true); (t, GlobalAttach Sent); (t, DevAttach true)].

(** ** C117: the supervision never gets stuck *)
Theorem C117_progress_partial : forall es, abandoned fresh es = 0 -> let v := run fresh es in managed v -> waiting v \/ ready v.
Proof. exact progress. Qed.
Print Assumptions C117_progress_partial.
Theorem C117_never_ready_partial : forall es es', 0 < abandoned fresh es -> abandoned fresh (es ++ es') + 4 < two64 -> ~ ready (run fresh (es ++ es')).
Proof. exact never_ready. Qed.
Print Assumptions C117_never_ready_partial.
(** The process ends before it answers STATUS; the next one answers everything. *)
Theorem C117_stuck_refuted : exists es, let v := run fresh es in managed v /\ ~ waiting v /\ ~ ready v.
Proof.
  exists (begins 1 ++ attached 300000 ++ [(300001, Exit); (600000, Tick good true)] ++ attached 900000 ++ [(900001, yes true); (900002, yes true); (900003, yes true); (900004, yes true)]).
  vm_compute. split; [discriminate|]. split; [|discriminate]. intros [[t H]|[H|[H|H]]]; try discriminate. apply H. reflexivity.
Qed.
Print Assumptions C117_stuck_refuted.
Example C117_ex :
  let es := begins 1 ++ attached 300000 ++ [(300001, yes true); (300002, yes true); (300003, yes true)] in
  abandoned fresh es = 0 /\ ~ ready (run fresh es) /\ waiting (run fresh es) /\ ready (run fresh (es ++ [(300004, yes true)]))
  /\ abandoned fresh (es ++ [(300004, Exit)]) = 1 /\ waiting (run fresh (es ++ [(300004, yes true); (300005, Exit)])).
Proof. vm_compute. repeat split; try discriminate; [right; right; right; discriminate|left; eauto]. Qed.

(** ** C118: the times of the timer *)
Theorem C118_times : forall v now e t, now + 200 * 1000 * 1000 < 2 ^ 64 -> v_timer (step v (now, e)) = Some (Some t) ->
  v_timer v = Some (Some t) \/ now + 200 * 1000 <= t <= now + 200 * 1000 * 1000.
Proof. exact timer_range. Qed.
Print Assumptions C118_times.
Theorem C118_retry : forall es now e, abandoned fresh es + 4 < two64 -> now + 200 * 1000 * 1000 < 2 ^ 64 -> ends (run fresh es) e = true ->
  let v := step (run fresh es) (now, e) in
  v_pid v = Grace /\ exists b pre rest, v_acts v = pre ++ Failure b now :: rest /\ failures pre = 0
    /\ v_timer v = Some (Some (now + (if b then 200 * 1000 else 30 * 1000 * 1000))).
Proof. exact retry_after. Qed.
Print Assumptions C118_retry.
Theorem C118_backoff : forall es now l p t, abandoned fresh es + 4 < two64 -> now + 200 * 1000 * 1000 < 2 ^ 64 -> let v := run fresh es in
  v_pid v = Proc p -> v_timer v = Some (Some t) -> t <= now ->
  let v' := step v (now, Tick l false) in v_open v' = N.min (v_open v + 1) 1000 /\ v_timer v' = Some (Some (now + v_open v' * (200 * 1000))) /\ v_pid v' = Proc p.
Proof. exact backoff. Qed.
Print Assumptions C118_backoff.
Theorem C118_anew : forall v e p, v_pid (step v e) = Proc p -> v_pid v <> Proc p -> v_open (step v e) = 0.
Proof. exact launch_open. Qed.
Print Assumptions C118_anew.
(** The socket is not there three times; then the process ends three times in a row. *)
Example C118_ex :
  let no t := (t, Tick good false) in
  let es := begins 1 ++ [no 300000; no 600000; no 1200000] in
  let es' := begins 1 ++ [(1, Exit); (300000, Tick good true); (300000, Exit); (600000, Tick good true)] in
  v_timer (run fresh es) = Some (Some 1800000) /\ v_open (run fresh es) = 3
  /\ v_timer (run fresh (es ++ [(1200001, Exit)])) = Some (Some 1400001)
  /\ v_timer (run fresh (es' ++ [(600000, Exit)])) = Some (Some 30600000)
  /\ v_open (run fresh (es ++ [(1200001, Exit)])) = 3 /\ v_open (run fresh (es ++ [(1200001, Exit); (1400001, Tick good true)])) = 0.
Proof. vm_compute. repeat split. Qed.

(** ** C119: how often processes are launched *)
Theorem C119_rate : forall s cf tm l es x, let es' := (s, Start cf tm l) :: es in clock es' -> Forall (fun e => is_start e = false) es ->
  abandoned fresh es' + 4 < two64 -> launches_in x (10 * 1000 * 1000) (v_acts (run fresh es')) <= 4.
Proof. exact launch_rate. Qed.
Print Assumptions C119_rate.
(** Four are reached: the timer runs late after the first failure. *)
Definition crash (t : N) : list (N * event) := [(t, Exit); (t + 200000, Tick good true)].
Example C119_ex :
  let es := begins 1 ++ [(2, Exit); (5000000, Tick good true)] ++ crash 9000000 ++ crash 10100000 ++ crash 10400000 ++ crash 10700000 in
  launches_in 5000000 (10 * 1000 * 1000) (v_acts (run fresh es)) = 4 /\ lenN (v_acts (run fresh es)) = 20
  /\ v_timer (run fresh es) = Some (Some 40700000).
Proof. vm_compute. auto. Qed.

(** ** C120: launches and signals *)
Theorem C120_signals : forall es, abandoned fresh es + 4 < two64 -> let v := run fresh es in
  proper (v_acts v) /\ (forall p, v_pid v = Proc p <-> launched p (v_acts v) /\ ~ signalled p (v_acts v)) /\ (v_pid v = Unmanaged -> nothing v).
Proof. exact signals. Qed.
Print Assumptions C120_signals.
Theorem C120_stop : forall es now, abandoned fresh (es ++ [(now, Stop)]) + 4 < two64 -> let v := run fresh (es ++ [(now, Stop)]) in
  v_pid v = Unmanaged /\ nothing v /\ forall p, launched p (v_acts v) -> ~ ~ signalled p (v_acts v).
Proof. exact stop_nothing. Qed.
Print Assumptions C120_stop.
Example C120_ex :
  let es := begins 1 ++ attached 300000 ++ [(300001, GlobalHup); (600000, Tick good true)] in
  v_acts (run fresh (es ++ [(600001, Stop)])) = [Kill 2 600001; Launch 2 600000; Kill 1 300001; Failure true 300001; Launch 1 1]
  /\ v_pid (run fresh es) = Proc 2 /\ v_conf (run fresh es) = true
  /\ v_acts (run fresh (begins 1 ++ [(5, Exit); (200005, Tick (mkLaunch true true false) true)])) = [Launch 2 200005; Reap 1 5; Kill 1 5; Failure true 5; Launch 1 1].
Proof. vm_compute. auto. Qed.

(** ** C121: processes are waited for; those without a child source are left to the signal
    handler, see P_Reap *)
Theorem C121_source_partial : forall es, abandoned fresh es + 4 < two64 -> Forall by_exit es ->
  forall p, In p (v_procs (run fresh es)) -> v_pid (run fresh es) = Proc p.
Proof. exact waited. Qed.
Print Assumptions C121_source_partial.
Theorem C121_left_partial : forall es es' p, abandoned fresh (es ++ es') + 4 < two64 -> In p (v_procs (run fresh es)) ->
  v_child (run fresh es) <> Some p -> In p (v_procs (run fresh (es ++ es'))).
Proof. exact unwaited. Qed.
Print Assumptions C121_left_partial.
(** A stop, or the end of the connection before the end of the process is known. *)
Theorem C121_stop_left : exists es, v_pid (run fresh es) = Unmanaged /\ v_procs (run fresh es) = [1].
Proof. exists (begins 1 ++ [(2, Stop)]). vm_compute. auto. Qed.
Print Assumptions C121_stop_left.
Theorem C121_hup_left : exists es, v_pid (run fresh es) = Proc 2 /\ v_procs (run fresh es) = [2; 1].
Proof. exists (begins 1 ++ attached 300000 ++ [(300001, GlobalHup); (600000, Tick good true)]). vm_compute. auto. Qed.
Print Assumptions C121_hup_left.
Example C121_ex :
  let es := begins 1 ++ attached 300000 ++ [(300001, yes false); (300002, Exit); (600000, Tick good true)] in
  Forall by_exit es /\ v_procs (run fresh es) = [2] /\ v_procs (run fresh (es ++ [(600001, Exit)])) = [].
Proof. split; [repeat constructor|]. vm_compute. auto. Qed.

(** ** C122: connections are freed *)
Theorem C122_freed_partial : forall es, abandoned fresh es + 4 < two64 -> Forall no_p2p es -> v_left (run fresh es) = [].
Proof. exact freed_all. Qed.
Print Assumptions C122_freed_partial.
(** Each process with P2P leaves a connection, with an open descriptor if the process
    did not close it. *)
Theorem C122_leak_refuted : exists es, nothing (run fresh es) /\ v_left (run fresh es) = [true; false].
Proof.
  exists (begins 1 ++ attached 300000 ++ [(300001, yes true); (300002, yes true); (300003, yes true); (300004, yes true); (300005, GlobalHup); (600000, Tick good true)]
    ++ attached 900000 ++ [(900001, yes true); (900002, Stop)]).
  vm_compute. repeat split; discriminate.
Qed.
Print Assumptions C122_leak_refuted.
Example C122_ex :
  let es := begins 1 ++ attached 300000 ++ [(300001, yes false); (300002, GlobalHup)] in
  Forall no_p2p es /\ v_left (run fresh es) = [] /\ ready (run fresh (firstn 5 es)).
Proof. split; [repeat constructor|]. vm_compute. auto. Qed.

(** ** C123: one failure counts once *)
Theorem C123_counted_partial : forall es now e, abandoned fresh es + 4 < two64 -> let v := run fresh es in
  failures (v_acts (step v (now, e))) = failures (v_acts v) + (if ends v e then match e, v_dev v with GlobalHup, Shared => 2 | _, _ => 1 end else 0).
Proof. exact counted_failures. Qed.
Print Assumptions C123_counted_partial.
(** Without a socket for the device the first end of the connection counts twice: the
    second one, 1 s later, is answered with a pause of 30 s. With such a socket it is not. *)
Definition joined (r : attach) (t : N) : list (N * event) := [(t, Tick good true); (t, GlobalAttach r)].
Definition two_ends (r : attach) : list (N * event) := begins 1 ++ joined r 300000 ++ [(400000, GlobalHup); (700000, Tick good true)] ++ joined r 1000000 ++ [(1400000, GlobalHup)].
Theorem C123_twice_refuted : exists es now, ends (run fresh es) GlobalHup = true /\
  failures (v_acts (step (run fresh es) (now, GlobalHup))) = failures (v_acts (run fresh es)) + 2 /\ v_timer (run fresh (two_ends NoSocket)) = Some (Some (1400000 + 30 * 1000 * 1000)).
Proof. exists (begins 1 ++ joined NoSocket 300000), 400000. vm_compute. auto. Qed.
Print Assumptions C123_twice_refuted.
Example C123_ex : failures (v_acts (run fresh (two_ends Sent))) = 2 /\ v_timer (run fresh (two_ends Sent)) = Some (Some (1400000 + 200 * 1000)).
Proof. vm_compute. auto. Qed.
