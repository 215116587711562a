(** Model of the state machine of miracle-sinkctl: src/ctl/sinkctl.c 258-268 (run_on), 363-438
    (timers), 451-492 (spawn_gst), 575-583 (kill_gst), 585-743 (callbacks), 752-776 (links),
    813-868 (the end), with the part of src/ctl/ctl-wifi.c that calls it: 35-53 (peers freed),
    93-101 and 228-248 (peers new and changed), 335-358 (links freed), 681-735 (scanning),
    787-835 (new peers), 1142-1157 (the end). The connection is that of SinkConn_Model.

    Not modelled: commands other than run, output, D-Bus messages themselves (what they say is
    the input; the calls to the daemon succeed), failures of sd_event_add_time, the player
    itself. Pointers to links and peers are numbers; a number may come back after it was freed,
    as an address does. Times are in microseconds. *)
From Verif Require Import Base SinkConn_Model.

(** struct ctl_peer, ctl.h 55-68: the link, whether the Wi-Fi Display subelements are there,
    connected, remote_address ([None]: NULL or not an address). *)
Record peer := { p_link : N; p_wfd : bool; p_conn : bool; p_addr : option N }.
(** struct ctl_link, ctl.h 75-91: p2p_scanning as last heard of, have_p2p_scan. *)
Record link := { l_scan : bool; l_have : bool }.

(** What the program does, apart from the connection. *)
Inductive act :=
| Serve (p : N) | Leave (p : N)         (* "now running on peer", "no longer running on peer" *)
| Up | Down                             (* "SINK connected", "SINK disconnected" *)
| Scan (l : N) (on : bool)              (* P2PScanning is set on a link *)
| Join (p : N)                          (* a peer is told to connect *)
| Try (addr : option N) (ok : bool)     (* ctl_sink_connect and its result *)
| Spawn (pid : N)                       (* the player is started *)
| Kill (pid : N) (ours : option bool).  (* SIGTERM: to our player, to another process, to nobody *)

(** What the libraries answer during one input: connecting, does a message set the resolution,
    the result of fork. *)
Record oracle := { o_ans : answers; o_res : bool; o_pid : option N }.

Record ctl := {
  c_peers : list (N * peer);            (* peers in memory *)
  c_links : list (N * link);
  c_rlink : option N; c_rpeer : option N; c_ppeer : option N;   (* running_link, running_peer, pending_peer *)
  c_scan : option N; c_sinkt : option N;                        (* scan_timeout, sink_timeout: when due *)
  c_time : N;                           (* sink_timeout_time *)
  c_up : bool;                          (* sink_connected *)
  c_pid : option N;                     (* sink_pid *)
  c_procs : list (N * bool);            (* processes; true: started by us *)
  c_now : N; c_or : oracle;
  c_trace : list (N * act);
  c_bad : bool;                         (* freed memory was used *)
  c_over : bool }.                      (* the sink was freed, the program is about to exit *)

Definition fetch {A} (k : N) (l : list (N * A)) : option A :=
  match find (fun p => fst p =? k) l with Some p => Some (snd p) | None => None end.
Definition drop {A} (k : N) (l : list (N * A)) : list (N * A) := filter (fun p => negb (fst p =? k)) l.
Definition store {A} (k : N) (v : A) (l : list (N * A)) : list (N * A) :=
  map (fun p => if fst p =? k then (k, v) else p) l.
Definition is (x : option N) (k : N) : bool := match x with Some y => y =? k | None => false end.
Definition some {A} (x : option A) : bool := match x with Some _ => true | None => false end.

Notation W := (world ctl).

(** Setters. *)
Definition set_peers x c := {| c_peers := x; c_links := c_links c; c_rlink := c_rlink c; c_rpeer := c_rpeer c; c_ppeer := c_ppeer c; c_scan := c_scan c; c_sinkt := c_sinkt c; c_time := c_time c; c_up := c_up c; c_pid := c_pid c; c_procs := c_procs c; c_now := c_now c; c_or := c_or c; c_trace := c_trace c; c_bad := c_bad c; c_over := c_over c |}.
Definition set_links x c := {| c_peers := c_peers c; c_links := x; c_rlink := c_rlink c; c_rpeer := c_rpeer c; c_ppeer := c_ppeer c; c_scan := c_scan c; c_sinkt := c_sinkt c; c_time := c_time c; c_up := c_up c; c_pid := c_pid c; c_procs := c_procs c; c_now := c_now c; c_or := c_or c; c_trace := c_trace c; c_bad := c_bad c; c_over := c_over c |}.
Definition set_rlink x c := {| c_peers := c_peers c; c_links := c_links c; c_rlink := x; c_rpeer := c_rpeer c; c_ppeer := c_ppeer c; c_scan := c_scan c; c_sinkt := c_sinkt c; c_time := c_time c; c_up := c_up c; c_pid := c_pid c; c_procs := c_procs c; c_now := c_now c; c_or := c_or c; c_trace := c_trace c; c_bad := c_bad c; c_over := c_over c |}.
Definition set_rpeer x c := {| c_peers := c_peers c; c_links := c_links c; c_rlink := c_rlink c; c_rpeer := x; c_ppeer := c_ppeer c; c_scan := c_scan c; c_sinkt := c_sinkt c; c_time := c_time c; c_up := c_up c; c_pid := c_pid c; c_procs := c_procs c; c_now := c_now c; c_or := c_or c; c_trace := c_trace c; c_bad := c_bad c; c_over := c_over c |}.
Definition set_ppeer x c := {| c_peers := c_peers c; c_links := c_links c; c_rlink := c_rlink c; c_rpeer := c_rpeer c; c_ppeer := x; c_scan := c_scan c; c_sinkt := c_sinkt c; c_time := c_time c; c_up := c_up c; c_pid := c_pid c; c_procs := c_procs c; c_now := c_now c; c_or := c_or c; c_trace := c_trace c; c_bad := c_bad c; c_over := c_over c |}.
Definition set_scan x c := {| c_peers := c_peers c; c_links := c_links c; c_rlink := c_rlink c; c_rpeer := c_rpeer c; c_ppeer := c_ppeer c; c_scan := x; c_sinkt := c_sinkt c; c_time := c_time c; c_up := c_up c; c_pid := c_pid c; c_procs := c_procs c; c_now := c_now c; c_or := c_or c; c_trace := c_trace c; c_bad := c_bad c; c_over := c_over c |}.
Definition set_sinkt x c := {| c_peers := c_peers c; c_links := c_links c; c_rlink := c_rlink c; c_rpeer := c_rpeer c; c_ppeer := c_ppeer c; c_scan := c_scan c; c_sinkt := x; c_time := c_time c; c_up := c_up c; c_pid := c_pid c; c_procs := c_procs c; c_now := c_now c; c_or := c_or c; c_trace := c_trace c; c_bad := c_bad c; c_over := c_over c |}.
Definition set_time x c := {| c_peers := c_peers c; c_links := c_links c; c_rlink := c_rlink c; c_rpeer := c_rpeer c; c_ppeer := c_ppeer c; c_scan := c_scan c; c_sinkt := c_sinkt c; c_time := x; c_up := c_up c; c_pid := c_pid c; c_procs := c_procs c; c_now := c_now c; c_or := c_or c; c_trace := c_trace c; c_bad := c_bad c; c_over := c_over c |}.
Definition set_up x c := {| c_peers := c_peers c; c_links := c_links c; c_rlink := c_rlink c; c_rpeer := c_rpeer c; c_ppeer := c_ppeer c; c_scan := c_scan c; c_sinkt := c_sinkt c; c_time := c_time c; c_up := x; c_pid := c_pid c; c_procs := c_procs c; c_now := c_now c; c_or := c_or c; c_trace := c_trace c; c_bad := c_bad c; c_over := c_over c |}.
Definition set_pid x ps c := {| c_peers := c_peers c; c_links := c_links c; c_rlink := c_rlink c; c_rpeer := c_rpeer c; c_ppeer := c_ppeer c; c_scan := c_scan c; c_sinkt := c_sinkt c; c_time := c_time c; c_up := c_up c; c_pid := x; c_procs := ps; c_now := c_now c; c_or := c_or c; c_trace := c_trace c; c_bad := c_bad c; c_over := c_over c |}.
Definition set_now x c := {| c_peers := c_peers c; c_links := c_links c; c_rlink := c_rlink c; c_rpeer := c_rpeer c; c_ppeer := c_ppeer c; c_scan := c_scan c; c_sinkt := c_sinkt c; c_time := c_time c; c_up := c_up c; c_pid := c_pid c; c_procs := c_procs c; c_now := x; c_or := c_or c; c_trace := c_trace c; c_bad := c_bad c; c_over := c_over c |}.
Definition set_or x c := {| c_peers := c_peers c; c_links := c_links c; c_rlink := c_rlink c; c_rpeer := c_rpeer c; c_ppeer := c_ppeer c; c_scan := c_scan c; c_sinkt := c_sinkt c; c_time := c_time c; c_up := c_up c; c_pid := c_pid c; c_procs := c_procs c; c_now := c_now c; c_or := x; c_trace := c_trace c; c_bad := c_bad c; c_over := c_over c |}.
Definition does x c := {| c_peers := c_peers c; c_links := c_links c; c_rlink := c_rlink c; c_rpeer := c_rpeer c; c_ppeer := c_ppeer c; c_scan := c_scan c; c_sinkt := c_sinkt c; c_time := c_time c; c_up := c_up c; c_pid := c_pid c; c_procs := c_procs c; c_now := c_now c; c_or := c_or c; c_trace := c_trace c ++ [(c_now c, x)]; c_bad := c_bad c; c_over := c_over c |}.
Definition set_bad c := {| c_peers := c_peers c; c_links := c_links c; c_rlink := c_rlink c; c_rpeer := c_rpeer c; c_ppeer := c_ppeer c; c_scan := c_scan c; c_sinkt := c_sinkt c; c_time := c_time c; c_up := c_up c; c_pid := c_pid c; c_procs := c_procs c; c_now := c_now c; c_or := c_or c; c_trace := c_trace c; c_bad := true; c_over := c_over c |}.
Definition set_over c := {| c_peers := c_peers c; c_links := c_links c; c_rlink := c_rlink c; c_rpeer := c_rpeer c; c_ppeer := c_ppeer c; c_scan := c_scan c; c_sinkt := c_sinkt c; c_time := c_time c; c_up := c_up c; c_pid := c_pid c; c_procs := c_procs c; c_now := c_now c; c_or := c_or c; c_trace := c_trace c; c_bad := c_bad c; c_over := true |}.

Definition on (f : ctl -> ctl) (w : W) : W := put_user (f (w_user w)) w.

(** ctl_link_set_p2p_scanning, ctl-wifi.c 681-735. *)
Definition scanning (l : N) (v : bool) (c : ctl) : ctl :=
  match fetch l (c_links c) with
  | None => set_bad c
  | Some k => if Bool.eqb (l_scan k) v then c
              else does (Scan l v)
                (if v then set_links (store l {| l_scan := l_scan k; l_have := true |} (c_links c)) c else c)
  end.

(** run_on, sinkctl.c 258-268. *)
Definition run_on (l : N) (c : ctl) : ctl :=
  if some (c_rlink c) then c else scanning l true (set_rlink (Some l) c).

(** scan_timeout_fn, sinkctl.c 399-416. *)
Definition scan_timeout_fn (c : ctl) : ctl :=
  let c := set_scan None c in
  let c := match c_ppeer c with
           | None => c
           | Some p => set_ppeer None (if some (fetch p (c_peers c)) then c else set_bad c)
           end in
  match c_rlink c with Some l => scanning l true c | None => c end.

(** sink_timeout_fn, sinkctl.c 418-438. *)
Definition sink_timeout_fn (w : W) : W :=
  let w := on (set_sinkt None) w in
  match c_rpeer (w_user w) with
  | None => w
  | Some p =>
      match fetch p (c_peers (w_user w)) with
      | None => on set_bad w
      | Some q =>
          if p_conn q && is_closed w then
            let '(w, r) := ctl_sink_connect (p_addr q) (o_ans (c_or (w_user w))) w in
            let w := on (does (Try (p_addr q) r)) w in
            if r then w
            else
              let t := c_time (w_user w) in
              let w := on (set_time (t + 1)) w in
              if 3 <=? t then w else on (set_sinkt (Some (c_now (w_user w) + (t + 1) * 1000 * 1000))) w
          else w
      end
  end.

(** spawn_gst, sinkctl.c 451-492; kill_gst, 575-583. *)
Definition spawn_gst (c : ctl) : ctl :=
  match c_pid c with
  | Some _ => c
  | None =>
      match o_pid (c_or c) with
      | None => c
      | Some pid => if some (fetch pid (c_procs c)) then c
                    else does (Spawn pid) (set_pid (Some pid) ((pid, true) :: c_procs c) c)
      end
  end.
Definition kill_gst (c : ctl) : ctl :=
  match c_pid c with
  | None => c
  | Some pid => does (Kill pid (fetch pid (c_procs c))) (set_pid None (c_procs c) c)
  end.

(** ctl_fn_sink_connected, _disconnected, _resolution_set, sinkctl.c 585-608. *)
Definition sinkctl : handlers ctl :=
  {| h_connected := on (fun c => set_up true (does Up c));
     h_disconnected := fun w => if c_up (w_user w) then on (fun c => set_up false (does Down c)) w else sink_timeout_fn w;
     h_message := fun w => if o_res (c_or (w_user w)) && c_up (w_user w) then on spawn_gst w else w |}.

(** Does the peer matter? The test at the start of the callbacks. *)
Definition ours (q : peer) (c : ctl) : bool := is (c_rlink c) (p_link q) && p_wfd q.

(** The peer is gone: sinkctl.c 632-640 and 731-738. *)
Definition stop_peer (p : N) (q : peer) (w : W) : W :=
  if is (c_rpeer (w_user w)) p then
    let w := on (fun c => kill_gst (set_sinkt None (does (Leave p) c))) w in
    let w := if c_over (w_user w) then on set_bad w else ctl_sink_close w in
    on (fun c => scanning (p_link q) true (set_scan None (set_rpeer None c))) w
  else w.

(** ctl_fn_peer_free, sinkctl.c 619-645. *)
Definition peer_free (p : N) (q : peer) (w : W) : W :=
  if ours q (w_user w) then
    let w := if is (c_ppeer (w_user w)) p
             then on (fun c => scanning (p_link q) true (set_scan None (set_ppeer None c))) w else w in
    stop_peer p q w
  else w.

(** ctl_fn_peer_go_neg_request, sinkctl.c 660-686. *)
Definition go_neg (p : N) (q : peer) (c : ctl) : ctl :=
  if ours q c && negb (some (c_rpeer c))
  then set_scan (Some (c_now c + 60 * 1000 * 1000)) (set_ppeer (Some p) (does (Join p) c)) else c.

(** ctl_fn_peer_formation_failure, sinkctl.c 688-701. *)
Definition formation_failure (p : N) (q : peer) (c : ctl) : ctl :=
  if ours q c && negb (some (c_rpeer c)) then scanning (p_link q) true (set_scan None c) else c.

(** ctl_fn_peer_connected, sinkctl.c 703-725. *)
Definition peer_connected (p : N) (q : peer) (c : ctl) : ctl :=
  if ours q c then
    let c := set_ppeer None c in
    if some (c_rpeer c) then c
    else set_sinkt (Some (c_now c + 1 * 1000 * 1000)) (set_time 1 (set_up false (set_scan None (does (Serve p) (set_rpeer (Some p) c)))))
  else c.

(** ctl_fn_peer_disconnected, sinkctl.c 727-745. *)
Definition peer_disconnected (p : N) (q : peer) (w : W) : W :=
  if ours q (w_user w) then stop_peer p q w else w.

(** ctl_peer_parse_properties, ctl-wifi.c 104-250, for the members of [peer]. *)
Record props := { n_wfd : option bool; n_conn : option bool; n_addr : option (option N) }.
Definition or {A} (x : option A) (y : A) : A := match x with Some v => v | None => y end.
Definition parse (p : N) (n : props) (w : W) : W :=
  match fetch p (c_peers (w_user w)) with
  | None => w
  | Some q =>
      let q1 := {| p_link := p_link q; p_wfd := or (n_wfd n) (p_wfd q); p_conn := p_conn q; p_addr := or (n_addr n) (p_addr q) |} in
      let w1 := on (fun c => set_peers (store p q1 (c_peers c)) c) w in
      match n_conn n with
      | None => w1
      | Some v =>
          if Bool.eqb v (p_conn q) then w1
          else
            let q2 := {| p_link := p_link q1; p_wfd := p_wfd q1; p_conn := v; p_addr := p_addr q1 |} in
            let w2 := on (fun c => set_peers (store p q2 (c_peers c)) c) w1 in
            if v then on (peer_connected p q2) w2 else peer_disconnected p q2 w2
      end
  end.

(** ctl_peer_free, ctl-wifi.c 35-53, of a peer that is in the list of its link. *)
Definition free_peer (p : N) (w : W) : W :=
  match fetch p (c_peers (w_user w)) with
  | None => w
  | Some q => on (fun c => set_peers (drop p (c_peers c)) c) (peer_free p q w)
  end.
(** ctl_wifi_parse_peer, ctl-wifi.c 787-835: [whole] is false if the message ends too early;
    the peer is freed then, without a callback. *)
Definition new_peer (p l : N) (n : props) (whole : bool) (w : W) : W :=
  match fetch p (c_peers (w_user w)), fetch l (c_links (w_user w)) with
  | None, Some _ =>
      let w := on (fun c => set_peers (c_peers c ++ [(p, {| p_link := l; p_wfd := false; p_conn := false; p_addr := None |})]) c) w in
      let w := parse p n w in
      if whole then w else on (fun c => set_peers (drop p (c_peers c)) c) w
  | _, _ => w
  end.

(** ctl_link_free, ctl-wifi.c 335-358; ctl_fn_link_free, sinkctl.c 766-776. *)
Definition peers_of (l : N) (c : ctl) : list N := map fst (filter (fun p => p_link (snd p) =? l) (c_peers c)).
Definition free_link (l : N) (w : W) : W :=
  match fetch l (c_links (w_user w)) with
  | None => w
  | Some _ =>
      let w := fold_left (fun w p => free_peer p w) (rev (peers_of l (w_user w))) w in
      let w := on (fun c => if is (c_rlink c) l then set_scan None (set_rlink None c) else c) w in
      on (fun c => set_links (drop l (c_links c)) c) w
  end.

(** The end: ctl_sink_free in ctl_interactive, then the end of ctl_main, sinkctl.c 836-868. *)
Definition quit (w : W) : W :=
  let w := on set_over (ctl_sink_close w) in
  let w := fold_left (fun w l => on (fun c => match fetch (fst l) (c_links c) with
             | Some k => if l_have k then scanning (fst l) false c else c
             | None => c end) w) (c_links (w_user w)) w in
  fold_left (fun w l => free_link (fst l) w) (rev (c_links (w_user w))) w.

(** ** Inputs *)
Inductive inp :=
| ILink (l : N) (scan : bool)           (* a link appears *)
| IUnlink (l : N)
| IScanning (l : N) (v : bool)          (* P2PScanning of a link changes *)
| IRun (l : N)
| IPeer (p l : N) (n : props) (whole : bool)
| IProps (p : N) (n : props)
| IUnpeer (p : N)
| IGoNeg (p : N)
| IFail (p : N)
| ITime (t : N)                         (* time passes *)
| IScanTimer | ISinkTimer               (* a timer that is due *)
| ISink (e : ev)                        (* an event of the connection *)
| IFile                                 (* another part of the program opens a descriptor *)
| IExit (pid : N)                       (* a process ends (and is reaped, if it is a child) *)
| IProc (pid : N)                       (* another process starts *)
| IQuit.

Definition due (t : option N) (c : ctl) : bool := match t with Some t => t <=? c_now c | None => false end.

Definition step1 (i : inp) (w : W) : W :=
  match i with
  | ILink l v => on (fun c => if some (fetch l (c_links c)) then c
                              else set_links (c_links c ++ [(l, {| l_scan := v; l_have := false |})]) c) w
  | IUnlink l => free_link l w
  | IScanning l v => on (fun c => match fetch l (c_links c) with
                                  | Some k => set_links (store l {| l_scan := v; l_have := l_have k |} (c_links c)) c
                                  | None => c end) w
  | IRun l => on (fun c => if some (fetch l (c_links c)) then run_on l c else c) w
  | IPeer p l n whole => new_peer p l n whole w
  | IProps p n => parse p n w
  | IUnpeer p => free_peer p w
  | IGoNeg p => on (fun c => match fetch p (c_peers c) with Some q => go_neg p q c | None => c end) w
  | IFail p => on (fun c => match fetch p (c_peers c) with Some q => formation_failure p q c | None => c end) w
  | ITime t => on (fun c => set_now (c_now c + t) c) w
  | IScanTimer => if due (c_scan (w_user w)) (w_user w) then on scan_timeout_fn w else w
  | ISinkTimer => if due (c_sinkt (w_user w)) (w_user w) then sink_timeout_fn w else w
  | ISink e => event sinkctl e w
  | IFile => snd (k_new File w)
  | IExit pid => on (fun c => set_pid (c_pid c) (drop pid (c_procs c)) c) w
  | IProc pid => on (fun c => if some (fetch pid (c_procs c)) then c else set_pid (c_pid c) ((pid, false) :: c_procs c) c) w
  | IQuit => quit w
  end.
(** Nothing happens after the end. *)
Definition step (io : inp * oracle) (w : W) : W :=
  if c_over (w_user w) then w else step1 (fst io) (on (set_or (snd io)) w).
Definition steps (l : list (inp * oracle)) (w : W) : W := fold_left (fun w i => step i w) l w.

Definition ctl0 (o : oracle) : ctl :=
  {| c_peers := []; c_links := []; c_rlink := None; c_rpeer := None; c_ppeer := None; c_scan := None; c_sinkt := None;
     c_time := 0; c_up := false; c_pid := None; c_procs := []; c_now := 0; c_or := o; c_trace := []; c_bad := false; c_over := false |}.
Definition begin (o : oracle) : W :=
  {| w_kern := {| k_open := []; k_next := 0 |}; w_sink := sink0; w_inside := false; w_dying := None;
     w_log := []; w_user := ctl0 o |}.
