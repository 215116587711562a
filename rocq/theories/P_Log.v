(** C204-C207: what the logger writes. *)
From Coq Require Import String.
From Verif Require Import Base Text Log_Model Log_Spec Log_Proofs.
Local Open Scope list_scope.
Local Open Scope N_scope.

(** C204: a message is written if and only if its severity is at most the maximum
    (or not one of the nine); errno is kept; *)
Theorem C204_levels : forall g w e p subs sev fmt, usual (w_tm w) -> w_usec w < 1000000 ->
  exists out, log_format g w e p subs sev fmt = Ok (out, e) /\ (out <> [] <-> 9 <= sev \/ sev <= g_max g).
Proof. exact levels. Qed.
(** a reader finds its severity, whatever the text is. *)
Theorem C204_severity : forall g w e p subs sev fmt out, usual (w_tm w) -> w_usec w < 1000000 ->
  log_format g w e p subs sev fmt = Ok (out, e) -> out <> [] -> sev < 9 -> read_sev out = Some sev.
Proof. exact severity. Qed.

Definition tm1 : tm := mkTm (text "11/17/26") (text "04:05:06") 17.
Definition w1 : world := mkWorld (12, 5)%Z 123456 tm1 17%Z.
Definition p1 : place := mkPlace (Some (text "wifid.c")) 12%Z (Some (text "run")).
(** "%m" of errno 2. *)
Definition fmt1 (e : Z) : list byte := text "failed: " ++ dec (Z.to_N e).
Example C204_ex :
  usual tm1 /\
  log_format (mkLogger 5 false (0, 0)%Z) w1 2%Z p1 (Some (text "x")) 3 fmt1
    = Ok (text "ERROR: x: failed: 2 (run() in wifid.c:12)" ++ [10], 2%Z) /\
  log_format (mkLogger 6 false (10, 9)%Z) w1 2%Z p1 None 6 fmt1 = Ok (text "[0001.999996] INFO: failed: 2" ++ [10], 2%Z) /\
  log_format (mkLogger 7 true (10, 9)%Z) w1 2%Z (mkPlace None (-4)%Z None) None 7 fmt1
    = Ok (text "[11/17/26 - 04:05:06.017.123] DEBUG: failed: 2 (<unknown>() in <unknown>:0)" ++ [10], 2%Z) /\
  log_format (mkLogger 6 true (10, 9)%Z) w1 2%Z p1 None 7 fmt1 = Ok ([], 2%Z) /\
  log_format (mkLogger 0 false (0, 0)%Z) w1 2%Z p1 None 9 fmt1 = Ok (text "failed: 2" ++ [10], 2%Z) /\
  log_format (mkLogger 8 false (0, 0)%Z) w1 2%Z p1 None 8 fmt1 = Ok (text "TRACE: failed: 2" ++ [10], 2%Z).
Proof.
  split; [|repeat split; vm_compute; reflexivity]. split; [|split; [|split]]; try (vm_compute; discriminate);
    intros I; vm_compute in I; repeat (destruct I as [I|I]; [discriminate|]); exact I.
Qed.

(** C205: a message is one line. A text with a newline is not rejected: the rest of
    it is a line of its own, which a reader takes for a message that was never
    logged (wpas.c:749 logs replies as they are). *)
Theorem C205_one_line_refuted : exists g w e p subs sev fmt out a b,
  usual (w_tm w) /\ w_usec w < 1000000 /\ log_format g w e p subs sev fmt = Ok (out, e) /\ until 10 out = Some (a, b) /\
  read_sev a = Some sev /\ read_sev b = Some 0 /\ sev = 8.
Proof.
  exists (mkLogger 8 false (0, 0)%Z), w1, 0%Z, p1, None, 8, (fun _ => text "raw message: ssid=x" ++ [10] ++ text "FATAL: no disk").
  do 3 eexists. split; [exact (proj1 C204_ex)|]. split; [reflexivity|]. split; [vm_compute; reflexivity|]. split; [vm_compute; reflexivity|].
  split; [vm_compute; reflexivity|]. split; vm_compute; reflexivity.
Qed.
(** Missing: texts with newlines. All else that is written is on one line, and the text
    is made with the errno of the caller. *)
Theorem C205_one_line_partial : forall g w e p subs sev fmt out, usual (w_tm w) -> w_usec w < 1000000 ->
  opt_newlines (p_file p) = 0 -> opt_newlines (p_func p) = 0 -> opt_newlines subs = 0 ->
  log_format g w e p subs sev fmt = Ok (out, e) -> out <> [] ->
  exists a b, out = a ++ fmt e ++ b ++ [10] /\ newlines a = 0 /\ newlines b = 0.
Proof. exact lines. Qed.
Example C205_ex : forall out, log_format (mkLogger 5 true (0, 0)%Z) w1 2%Z p1 (Some (text "x")) 3 fmt1 = Ok (out, 2%Z) -> newlines out = 1.
Proof. intros out H. vm_compute in H. injection H as <-. vm_compute. reflexivity. Qed.

(** C206: the stamp shows the microseconds since the start. Not if the clock was set
    back: two microseconds back are shown as almost a second, *)
Theorem C206_elapsed_refuted : exists f t, is_time f /\ is_time t /\ micros t = (micros f - 2)%Z /\ shows (elapsed f t) 999998.
Proof.
  exists (10, 5)%Z, (10, 3)%Z. split; [split; vm_compute; congruence|]. split; [split; vm_compute; congruence|]. split; [reflexivity|].
  exists (text "0000"), (text "999998"). repeat split; vm_compute; try reflexivity; discriminate.
Qed.
(** Missing: clocks that go back. *)
Theorem C206_elapsed_partial : forall g w e p subs sev fmt out, is_time (g_start g) -> is_time (w_now w) -> (micros (g_start g) <= micros (w_now w))%Z ->
  g_date g = false -> have_time (g_start g) = true -> log_format g w e p subs sev fmt = Ok (out, e) -> out <> [] ->
  exists st rest, out = st ++ rest /\ shows st (micros (w_now w) - micros (g_start g)).
Proof. exact elapsed_line. Qed.
(** The command line shows the same. *)
Theorem C206_cli_partial : forall g w, is_time (g_start g) -> is_time (w_now w) -> (micros (g_start g) <= micros (w_now w))%Z ->
  g_date g = false -> have_time (g_start g) = true -> exists st, cli_prefix g w = Ok st /\ shows st (micros (w_now w) - micros (g_start g)).
Proof. exact elapsed_cli. Qed.
Example C206_ex :
  elapsed (10, 5)%Z (12, 3)%Z = text "[0001.999998] " /\ elapsed (10, 5)%Z (10, 3)%Z = text "[0000.999998] " /\
  elapsed (10, 5)%Z (8, 7)%Z = text "[-0002.000002] " /\ elapsed (10, 5)%Z (123456, 1000)%Z = text "[123446.000995] " /\
  cli_prefix (mkLogger 0 false (10, 5)%Z) w1 = Ok (text "[0002.000000] ") /\ cli_prefix (mkLogger 0 false (0, 0)%Z) w1 = Ok [] /\
  cli_prefix (mkLogger 0 true (0, 0)%Z) w1 = Ok (text "[11/17/26 - 04:05:06.017.123] ") /\
  init_time (0, 0)%Z (3, 4)%Z = (3, 4)%Z /\ init_time (0, 1)%Z (3, 4)%Z = (0, 1)%Z /\ init_time (1, 0)%Z (3, 4)%Z = (1, 0)%Z.
Proof. repeat split; vm_compute; reflexivity. Qed.

(** C207: date, time and milliseconds of the moment. The day of the month is printed
    between time and milliseconds, and in the last half millisecond of a second the
    milliseconds are those of the next second but the time is not. *)
Definition loc1 (t : Z) : tm := mkTm (text "11/17/26") (text "04:05:" ++ dec (Z.to_N t)) 17.
Theorem C207_date_refuted : exists (loc : Z -> tm) us l, stamp us (loc 40%Z) = Ok l /\ us < 1000000 /\
  l = tm_x (loc 40%Z) ++ text " - " ++ tm_X (loc 40%Z) ++ text ".017.000" /\ ~ near_ms (40 * 1000) (micros (40, Z.of_N us)%Z)
  /\ ~ right_stamp loc (40, Z.of_N us)%Z l.
Proof.
  exists loc1, 999700. eexists. split; [vm_compute; reflexivity|]. split; [reflexivity|]. split; [vm_compute; reflexivity|].
  split; [vm_compute; intros H; now apply H|]. intros (ms & M & E). unfold near_ms, micros in M. cbn [fst snd] in M.
  assert (ms = 41000)%Z as -> by (vm_compute Z.of_N in M; lia). vm_compute in E. discriminate.
Qed.
(** Missing: the last half millisecond of a second, and the day of the month. *)
Theorem C207_date_partial : forall g w e p subs sev fmt out, usual (w_tm w) -> w_usec w < 999500 -> g_date g = true ->
  log_format g w e p subs sev fmt = Ok (out, e) -> out <> [] ->
  exists ms rest, near_ms (Z.of_N ms) (Z.of_N (w_usec w)) /\ ms < 1000
    /\ out = [91] ++ tm_x (w_tm w) ++ text " - " ++ tm_X (w_tm w) ++ [46] ++ zeros 3 (dec (tm_day (w_tm w))) ++ [46] ++ zeros 3 (dec ms) ++ [93; 32] ++ rest.
Proof. exact date_stamp. Qed.
Example C207_ex :
  stamp 999499 tm1 = Ok (text "11/17/26 - 04:05:06.017.999") /\ stamp 999500 tm1 = Ok (text "11/17/26 - 04:05:06.017.000") /\
  stamp 500 tm1 = Ok (text "11/17/26 - 04:05:06.017.000") /\ stamp 1500 tm1 = Ok (text "11/17/26 - 04:05:06.017.002") /\
  stamp 1501 tm1 = Ok (text "11/17/26 - 04:05:06.017.002") /\ stamp 0 (mkTm (repeat 65 60) (repeat 66 13) 1) = UB /\
  stamp 0 (mkTm (repeat 65 60) (repeat 66 12) 1) <> UB.
Proof. repeat split; vm_compute; try reflexivity; discriminate. Qed.

Print Assumptions C204_levels.
Print Assumptions C204_severity.
Print Assumptions C204_ex.
Print Assumptions C205_one_line_refuted.
Print Assumptions C205_one_line_partial.
Print Assumptions C205_ex.
Print Assumptions C206_elapsed_refuted.
Print Assumptions C206_elapsed_partial.
Print Assumptions C206_cli_partial.
Print Assumptions C206_ex.
Print Assumptions C207_date_refuted.
Print Assumptions C207_date_partial.
Print Assumptions C207_ex.
