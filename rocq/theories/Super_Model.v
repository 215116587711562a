(** Model of the supervision of wpa_supplicant, src/wifi/wifid-supplicant.c:1864-1923 and
    2118-2776, with the setup requests of Setup_Model. Every event comes with the time of
    the clock. Requests can be allocated and queued once the connection is open; the names
    are allocated or the start fails as a whole; peers, groups and the events of the
    supplicant are left out (Groups_Model is about them). Process numbers are not reused.
    What the program does not store is named at the fields. *)
From Verif Require Import Base Ratelimit_Model.
From Verif Require Setup_Model.

(** s->pid: -1, 0 or a process. *)
Inductive pidst := Unmanaged | Grace | Proc (p : N).
(** s->bus_dev: not open, the global connection, or one of its own whose ATTACH may be
    unanswered. *)
Inductive devst := NoDev | Shared | Own (attaching : bool).
(** What happens, for the record: a process is launched, is sent a signal, is waited for,
    a failure is counted and admitted by the rate limit or not. *)
Inductive act := Launch (p now : N) | Kill (p now : N) | Reap (p now : N) | Failure (admitted : bool) (now : N).

(** struct supplicant, src/wifi/wifid-supplicant.c:76-101: the process and the one that
    is watched; the timer with its time if enabled; both limits; open_cnt; the
    configuration file; the names of the sockets; bus_global and if its ATTACH is
    unanswered, if its descriptor is open, how many messages hold a reference to it
    that nobody gives back; bus_dev; the setup. The rest is not stored: processes
    launched and not waited for, connections that were not freed and if their descriptor is
    open, the next process number, the acts, latest first. *)
Record sup := mkSup {
  v_pid : pidst;
  v_child : option N;
  v_timer : option (option N);
  v_restart : rl;
  v_exec : rl;
  v_open : N;
  v_conf : bool;
  v_ctrl : bool;
  v_glob : option bool;
  v_gfd : bool;
  v_leak : N;
  v_dev : devst;
  v_setup : Setup_Model.setup;
  v_procs : list N;
  v_left : list bool;
  v_next : N;
  v_acts : list act }.
Definition set_pid (x : pidst) (v : sup) : sup :=
  mkSup x (v_child v) (v_timer v) (v_restart v) (v_exec v) (v_open v) (v_conf v) (v_ctrl v) (v_glob v) (v_gfd v) (v_leak v) (v_dev v) (v_setup v) (v_procs v) (v_left v) (v_next v) (v_acts v).
Definition set_child (x : option N) (v : sup) : sup :=
  mkSup (v_pid v) x (v_timer v) (v_restart v) (v_exec v) (v_open v) (v_conf v) (v_ctrl v) (v_glob v) (v_gfd v) (v_leak v) (v_dev v) (v_setup v) (v_procs v) (v_left v) (v_next v) (v_acts v).
Definition set_timer (x : option (option N)) (v : sup) : sup :=
  mkSup (v_pid v) (v_child v) x (v_restart v) (v_exec v) (v_open v) (v_conf v) (v_ctrl v) (v_glob v) (v_gfd v) (v_leak v) (v_dev v) (v_setup v) (v_procs v) (v_left v) (v_next v) (v_acts v).
Definition set_restart (x : rl) (v : sup) : sup :=
  mkSup (v_pid v) (v_child v) (v_timer v) x (v_exec v) (v_open v) (v_conf v) (v_ctrl v) (v_glob v) (v_gfd v) (v_leak v) (v_dev v) (v_setup v) (v_procs v) (v_left v) (v_next v) (v_acts v).
Definition set_exec (x : rl) (v : sup) : sup :=
  mkSup (v_pid v) (v_child v) (v_timer v) (v_restart v) x (v_open v) (v_conf v) (v_ctrl v) (v_glob v) (v_gfd v) (v_leak v) (v_dev v) (v_setup v) (v_procs v) (v_left v) (v_next v) (v_acts v).
Definition set_open (x : N) (v : sup) : sup :=
  mkSup (v_pid v) (v_child v) (v_timer v) (v_restart v) (v_exec v) x (v_conf v) (v_ctrl v) (v_glob v) (v_gfd v) (v_leak v) (v_dev v) (v_setup v) (v_procs v) (v_left v) (v_next v) (v_acts v).
Definition set_conf (x : bool) (v : sup) : sup :=
  mkSup (v_pid v) (v_child v) (v_timer v) (v_restart v) (v_exec v) (v_open v) x (v_ctrl v) (v_glob v) (v_gfd v) (v_leak v) (v_dev v) (v_setup v) (v_procs v) (v_left v) (v_next v) (v_acts v).
Definition set_ctrl (x : bool) (v : sup) : sup :=
  mkSup (v_pid v) (v_child v) (v_timer v) (v_restart v) (v_exec v) (v_open v) (v_conf v) x (v_glob v) (v_gfd v) (v_leak v) (v_dev v) (v_setup v) (v_procs v) (v_left v) (v_next v) (v_acts v).
Definition set_glob (x : option bool) (v : sup) : sup :=
  mkSup (v_pid v) (v_child v) (v_timer v) (v_restart v) (v_exec v) (v_open v) (v_conf v) (v_ctrl v) x (v_gfd v) (v_leak v) (v_dev v) (v_setup v) (v_procs v) (v_left v) (v_next v) (v_acts v).
Definition set_gfd (x : bool) (v : sup) : sup :=
  mkSup (v_pid v) (v_child v) (v_timer v) (v_restart v) (v_exec v) (v_open v) (v_conf v) (v_ctrl v) (v_glob v) x (v_leak v) (v_dev v) (v_setup v) (v_procs v) (v_left v) (v_next v) (v_acts v).
Definition set_leak (x : N) (v : sup) : sup :=
  mkSup (v_pid v) (v_child v) (v_timer v) (v_restart v) (v_exec v) (v_open v) (v_conf v) (v_ctrl v) (v_glob v) (v_gfd v) x (v_dev v) (v_setup v) (v_procs v) (v_left v) (v_next v) (v_acts v).
Definition set_dev (x : devst) (v : sup) : sup :=
  mkSup (v_pid v) (v_child v) (v_timer v) (v_restart v) (v_exec v) (v_open v) (v_conf v) (v_ctrl v) (v_glob v) (v_gfd v) (v_leak v) x (v_setup v) (v_procs v) (v_left v) (v_next v) (v_acts v).
Definition set_setup (x : Setup_Model.setup) (v : sup) : sup :=
  mkSup (v_pid v) (v_child v) (v_timer v) (v_restart v) (v_exec v) (v_open v) (v_conf v) (v_ctrl v) (v_glob v) (v_gfd v) (v_leak v) (v_dev v) x (v_procs v) (v_left v) (v_next v) (v_acts v).
Definition set_procs (x : list N) (v : sup) : sup :=
  mkSup (v_pid v) (v_child v) (v_timer v) (v_restart v) (v_exec v) (v_open v) (v_conf v) (v_ctrl v) (v_glob v) (v_gfd v) (v_leak v) (v_dev v) (v_setup v) x (v_left v) (v_next v) (v_acts v).
Definition set_left (x : list bool) (v : sup) : sup :=
  mkSup (v_pid v) (v_child v) (v_timer v) (v_restart v) (v_exec v) (v_open v) (v_conf v) (v_ctrl v) (v_glob v) (v_gfd v) (v_leak v) (v_dev v) (v_setup v) (v_procs v) x (v_next v) (v_acts v).
Definition set_next (x : N) (v : sup) : sup :=
  mkSup (v_pid v) (v_child v) (v_timer v) (v_restart v) (v_exec v) (v_open v) (v_conf v) (v_ctrl v) (v_glob v) (v_gfd v) (v_leak v) (v_dev v) (v_setup v) (v_procs v) (v_left v) x (v_acts v).
Definition set_acts (x : list act) (v : sup) : sup :=
  mkSup (v_pid v) (v_child v) (v_timer v) (v_restart v) (v_exec v) (v_open v) (v_conf v) (v_ctrl v) (v_glob v) (v_gfd v) (v_leak v) (v_dev v) (v_setup v) (v_procs v) (v_left v) (v_next v) x.
Definition note (a : act) (v : sup) : sup := set_acts (a :: v_acts v) v.

(** supplicant_new, src/wifi/wifid-supplicant.c:2118-2145. *)
Definition fresh : sup :=
  mkSup Unmanaged None None (rl_init (10 * 1000 * 1000) 2) (rl_init (10 * 1000 * 1000) 3) 0 false false
    None false 0 NoDev Setup_Model.fresh [] [] 1 [].

(** sd_event_source_set_time and sd_event_source_set_enabled of the timer; both do nothing
    without a source. *)
Definition arm (t : N) (v : sup) : sup := match v_timer v with Some _ => set_timer (Some (Some t)) v | None => v end.
Definition disarm (v : sup) : sup := match v_timer v with Some _ => set_timer (Some None) v | None => v end.

(** A pointer to bus_global is overwritten or the last reference dropped: a connection
    with a message that nobody releases is not freed (C76). *)
Definition drop_glob (v : sup) : sup :=
  match v_glob v with
  | None => v
  | Some _ => set_leak 0 (set_gfd false (set_glob None (if 0 <? v_leak v then set_left (v_gfd v :: v_left v) v else v)))
  end.
(** supplicant_close, src/wifi/wifid-supplicant.c:2331-2344. *)
Definition close (v : sup) : sup := drop_glob (set_dev NoDev v).
(** supplicant_stopped, src/wifi/wifid-supplicant.c:1901-1923; the requests went with the
    connection. *)
Definition stopped (v : sup) : sup := set_setup (Setup_Model.failed (v_setup v)) v.
(** kill of supplicant_failed and supplicant_stop, src/wifi/wifid-supplicant.c:2370-2377
    and 2730-2737. *)
Definition kill (now : N) (v : sup) : sup := match v_pid v with Proc p => note (Kill p now) v | _ => v end.

(** supplicant_failed, src/wifi/wifid-supplicant.c:2346-2384. *)
Definition failed (now : N) (v : sup) : sup :=
  let '(r, b) := rl_test (v_restart v) now in
  let v := note (Failure b now) (set_restart r v) in
  let ms := if b then 200 else 30 * 1000 in
  let v := arm (wrap64 (ms * 1000 + now)) v in
  let v := set_child None (set_pid Grace (kill now v)) in
  stopped (close v).

(** What the launch of a process comes to: wpa_supplicant is found, fork succeeds, the
    process can be watched. *)
Record launch := mkLaunch { l_find : bool; l_fork : bool; l_watch : bool }.
(** supplicant_spawn, src/wifi/wifid-supplicant.c:2499-2548. *)
Definition spawn (now : N) (l : launch) (v : sup) : sup * bool :=
  match v_pid v with
  | Proc _ => (v, true)
  | _ =>
      if negb (l_find l) then (v, false)
      else if negb (l_fork l) then (v, false)
      else
        let p := v_next v in
        let v := note (Launch p now) (set_next (p + 1) (set_procs (p :: v_procs v) v)) in
        let v := set_child None (set_open 0 (set_pid (Proc p) v)) in
        if l_watch l then (set_child (Some p) v, true) else (v, false)
  end.

(** supplicant_open, src/wifi/wifid-supplicant.c:2287-2329. *)
Definition open_ (ok : bool) (v : sup) : sup * bool :=
  if ok then (set_leak 0 (set_gfd true (set_glob (Some true) (drop_glob v))), true) else (v, false).

(** supplicant_timer_fn, src/wifi/wifid-supplicant.c:2550-2611. *)
Definition timer_fn (now : N) (l : launch) (opens : bool) (v : sup) : sup :=
  match v_pid v with
  | Grace =>
      let '(v, ok) := spawn now l v in
      if ok then arm (wrap64 (now + 200 * 1000)) v
      else
        let '(r, b) := rl_test (v_exec v) now in
        let v := set_exec r v in
        let ms := if b then 1000 else 60 * 1000 in
        arm (wrap64 (ms * 1000 + now)) v
  | Proc _ =>
      if Setup_Model.u_run (v_setup v) then disarm v
      else
        let '(v, ok) := open_ opens v in
        if ok then disarm v
        else
          let v := set_open (N.min (v_open v + 1) 1000) v in
          arm (wrap64 (v_open v * 200 * 1000 + now)) v
  | Unmanaged => disarm v
  end.

(** supplicant_stop, src/wifi/wifid-supplicant.c:2714-2752. *)
Definition stop (now : N) (v : sup) : sup :=
  let v := close v in
  let v := set_timer None (set_child None v) in
  let v := kill now v in
  let v := set_ctrl false (set_conf false v) in
  stopped (set_pid Unmanaged v).

(** supplicant_start, src/wifi/wifid-supplicant.c:2658-2712; [conf]: the names and the
    configuration can be made, [timer]: the timer can be added. *)
Definition start (now : N) (conf timer : bool) (l : launch) (v : sup) : sup :=
  match v_pid v with
  | Unmanaged =>
      let v := set_exec (rl_reset (v_exec v)) (set_restart (rl_reset (v_restart v)) v) in
      if negb conf then stop now (set_ctrl true v)
      else
        let v := set_conf true (set_ctrl true v) in
        if negb timer then stop now v
        else
          let v := set_timer (Some (Some (wrap64 (now + 200 * 1000)))) v in
          let '(v, ok) := spawn now l v in
          if ok then v else stop now v
  | _ => v
  end.

(** supplicant_started, src/wifi/wifid-supplicant.c:1864-1899. *)
Definition started (v : sup) : sup := set_setup (Setup_Model.started (v_setup v)) v.

(** supplicant_global_attach_fn, src/wifi/wifid-supplicant.c:2220-2285: the reply is not
    OK; the device socket cannot be opened; it can, but ATTACH cannot be sent; it can. *)
Inductive attach := Refused | NoSocket | Broken | Sent.
Definition global_attach_fn (now : N) (r : attach) (v : sup) : sup :=
  match r with
  | Refused | Broken => failed now v
  | NoSocket => started (set_dev Shared v)
  | Sent => set_dev (Own true) v
  end.
(** supplicant_dev_attach_fn, src/wifi/wifid-supplicant.c:2200-2218. *)
Definition dev_attach_fn (now : N) (ok : bool) (v : sup) : sup :=
  if ok then started (set_dev (Own false) v) else failed now v.

(** The end of the global connection, also when a request is not answered in time:
    wpas__hup, src/shared/wpas.c:1097-1106, closes the descriptor and calls
    supplicant_global_fn, src/wifi/wifid-supplicant.c:2177-2198, and supplicant_dev_fn,
    2158-2175, if it is registered with it too; a callback that the first one removes
    is called all the same (C72). *)
Definition global_hup (now : N) (v : sup) : sup :=
  let both := match v_dev v with Shared => true | _ => false end in
  let v := failed now (set_gfd false v) in
  if both then failed now v else v.

(** Messages to which status_fn keeps a reference: every request overwrites the pointer to
    the one before, src/wifi/wifid-supplicant.c:1729, 1758, 1785 and 1820. *)
Definition lost_refs (k : Setup_Model.kind) (a : Setup_Model.answer) : N :=
  match k with
  | Setup_Model.KStatus => if Setup_Model.a_p2p a then (if Setup_Model.a_wfd a then 3 else 2) else 0
  | _ => 0
  end.

Inductive event :=
| Start (conf timer : bool) (l : launch) | Stop
| Tick (l : launch) (opens : bool)
| Exit
| GlobalHup | DevHup
| GlobalAttach (r : attach) | DevAttach (ok : bool)
| Answer (a : Setup_Model.answer).
(** Events of sources that do not exist are nothing. *)
Definition step (v : sup) (e : N * event) : sup :=
  let now := fst e in
  match snd e with
  | Start conf timer l => start now conf timer l v
  | Stop => match v_pid v with Unmanaged => v | _ => stop now v end
  | Tick l opens =>
      match v_timer v with
      | Some (Some t) => if t <=? now then timer_fn now l opens v else v
      | _ => v
      end
  | Exit =>
      (* supplicant_child_fn, src/wifi/wifid-supplicant.c:2386-2395; sd-event waits for
         the process afterwards. *)
      match v_child v with
      | None => v
      | Some p => let v := failed now v in note (Reap p now) (set_procs (filter (fun q => negb (q =? p)) (v_procs v)) v)
      end
  | GlobalHup => match v_glob v with None => v | Some _ => global_hup now v end
  | DevHup => match v_dev v with Own _ => failed now v | _ => v end
  | GlobalAttach r => match v_glob v with Some true => global_attach_fn now r (set_glob (Some false) v) | _ => v end
  | DevAttach ok => match v_dev v with Own true => dev_attach_fn now ok v | _ => v end
  | Answer a =>
      match v_glob v, Setup_Model.u_wait (v_setup v) with
      | Some false, k :: _ =>
          set_setup (Setup_Model.step (v_setup v) (Setup_Model.Reply a)) (set_leak (v_leak v + lost_refs k a) v)
      | _, _ => v
      end
  end.
Definition run (v : sup) (es : list (N * event)) : sup := fold_left step es v.
