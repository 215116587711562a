(** Model of the link-local address client (type G_DHCP_IPV4LL), src/dhcp/client.c:276-293,
    516-590, 1342-1459, 1511-1572, 2229-2278, 2607-2666, 2757-2761 and 2820-2843, with the
    timers of the main loop. Sending always works. Callbacks of the user react by calling
    nothing, stop or start. Timers are exact (GLib may run timers of whole seconds up to a
    second late). What GLib logs about removing a source that does not exist is not seen. *)
From Verif Require Import Base.

(** ClientState, lines 62-82, as far as it matters. *)
Inductive state := INIT_SELECTING | PROBE | ANNOUNCE | MONITOR | DEFEND | RELEASED.
(** Timer functions: send_probe_packet, ipv4ll_probe_timeout, ipv4ll_announce_timeout,
    ipv4ll_defend_timeout. *)
Inductive kind := KSend | KProbe | KAnnounce | KDefend.
(** A pending source of the main loop; times in milliseconds. *)
Record source := Src { s_id : N; s_kind : kind; s_due : N }.

(** What is seen from outside: calls of the user, packets sent, callbacks, and ARP packets
    on the network (whether the client hears them or not). *)
Inductive event :=
| Start | Stop
| Probe (ip : N) | Announce (ip : N)
| Available (ip : N) | Lost | NoLease
| Wire (op src tgt : N).
(** [arp]: listen_mode is L_ARP, otherwise L_NONE. The other three timers of the structure
    are never set. *)
Record client := Client {
  st : state; arp : bool; watch : bool; retry : N; conflicts : N; timeout : N;
  req_ip : N; assigned : option N; now : N; srcs : list source; next_id : N; log : list (N * event) }.
Definition fresh_client : client := Client INIT_SELECTING false false 0 0 0 0 None 0 [] 1 [].

Definition set_st x c := Client x (arp c) (watch c) (retry c) (conflicts c) (timeout c) (req_ip c) (assigned c) (now c) (srcs c) (next_id c) (log c).
Definition set_listen a w c := Client (st c) a w (retry c) (conflicts c) (timeout c) (req_ip c) (assigned c) (now c) (srcs c) (next_id c) (log c).
Definition set_retry x c := Client (st c) (arp c) (watch c) x (conflicts c) (timeout c) (req_ip c) (assigned c) (now c) (srcs c) (next_id c) (log c).
Definition set_conflicts x c := Client (st c) (arp c) (watch c) (retry c) x (timeout c) (req_ip c) (assigned c) (now c) (srcs c) (next_id c) (log c).
Definition set_timeout x c := Client (st c) (arp c) (watch c) (retry c) (conflicts c) x (req_ip c) (assigned c) (now c) (srcs c) (next_id c) (log c).
Definition set_req x c := Client (st c) (arp c) (watch c) (retry c) (conflicts c) (timeout c) x (assigned c) (now c) (srcs c) (next_id c) (log c).
Definition set_assigned x c := Client (st c) (arp c) (watch c) (retry c) (conflicts c) (timeout c) (req_ip c) x (now c) (srcs c) (next_id c) (log c).
Definition set_now x c := Client (st c) (arp c) (watch c) (retry c) (conflicts c) (timeout c) (req_ip c) (assigned c) x (srcs c) (next_id c) (log c).
Definition set_srcs l n c := Client (st c) (arp c) (watch c) (retry c) (conflicts c) (timeout c) (req_ip c) (assigned c) (now c) l n (log c).
Definition set_log x c := Client (st c) (arp c) (watch c) (retry c) (conflicts c) (timeout c) (req_ip c) (assigned c) (now c) (srcs c) (next_id c) x.
(** With the time it happens. *)
Definition emit (e : event) (c : client) : client := set_log (log c ++ [(now c, e)]) c.

(** ** Timers *)
Definition other (id : N) (s : source) : bool := negb (s_id s =? id).
Definition without (id : N) (l : list source) : list source := filter (other id) l.
(** g_timeout_add_full and _seconds_full into the field timeout. *)
Definition add (k : kind) (ms : N) (c : client) : client :=
  set_timeout (next_id c) (set_srcs (srcs c ++ [Src (next_id c) k (now c + ms)]) (next_id c + 1) c).
(** remove_timeouts, lines 276-293. *)
Definition remove_timeouts (c : client) : client :=
  set_timeout 0 (if timeout c =? 0 then c else set_srcs (without (timeout c) (srcs c)) (next_id c) c).

(** switch_listening_mode, lines 1511-1572, to L_NONE and to L_ARP; [sock]: a socket can be
    made. *)
Definition deaf (c : client) : client := if arp c then set_listen false false c else c.
Definition listen (sock : bool) (c : client) : client :=
  if arp c then c else if sock then set_listen true true c else c.

(** ** Sending *)
(** What a step needs to know: whether a socket can be made, the numbers of rand(), the
    address of ipv4ll_random_ip, what a callback does. *)
Inductive reaction := Nothing | DoStop | DoStart.
Record env := Env { e_sock : bool; e_rnd : N; e_ip : N; e_react : reaction }.
(** ipv4ll_random_delay_ms, src/dhcp/ipv4ll.c:62-72, of one second. *)
Definition delay (e : env) : N := e_rnd e mod 1000.

(** send_probe_packet, lines 520-554. *)
Definition send_probe (e : env) (c : client) : client :=
  let c := if req_ip c =? 0 then set_req (e_ip e) c else c in
  let c := if retry c =? 1 then listen (e_sock e) (set_st PROBE c) else c in
  let c := emit (Probe (req_ip c)) c in
  add KProbe (if retry c <? 3 then delay e + 1000 else 2000) c.
(** send_announce_packet, lines 559-590. *)
Definition send_announce (c : client) : client :=
  let c := remove_timeouts (emit (Announce (req_ip c)) c) in
  match st c with DEFEND => add KDefend 10000 c | _ => add KAnnounce 2000 c end.

(** ** Starting and stopping *)
(** ipv4ll_start, lines 1342-1366. *)
Definition ll_start (e : env) (c : client) : client :=
  let c := deaf (remove_timeouts c) in
  add KSend (delay e) (set_retry 1 (set_req (e_ip e) c)).
(** ipv4ll_stop, lines 1368-1386. *)
Definition ll_stop (c : client) : client :=
  let c := remove_timeouts (deaf c) in
  let c := set_listen (arp c) false c in
  set_assigned None (set_req 0 (set_retry 0 (set_st PROBE c))).
(** g_dhcp_client_start, lines 2757-2761, and g_dhcp_client_stop, lines 2820-2843. *)
Definition start (e : env) (c : client) : client := ll_start e (set_st INIT_SELECTING c).
Definition stop (c : client) : client :=
  let c := remove_timeouts (deaf c) in
  let c := set_listen (arp c) false c in
  set_st RELEASED (set_req 0 (set_retry 0 c)).
(** A callback of the user. *)
Definition react (e : env) (c : client) : client :=
  match e_react e with
  | Nothing => c
  | DoStop => emit Stop (stop c)
  | DoStart => start e (emit Start c)
  end.

(** ** Receiving *)
(** The end of ipv4ll_recv_arp_packet, lines 1438-1458. *)
Definition give_up (e : env) (c : client) : client :=
  let c := ll_stop c in
  if conflicts c <? 10 then add KSend (delay e) (set_retry ((retry c + 1) mod 256) c)
  else react e (emit NoLease c).
(** ipv4ll_recv_arp_packet, lines 1388-1459. The counter is a uint8_t. *)
Definition receive (e : env) (op src tgt : N) (c : client) : client :=
  if negb ((op =? 2) || (op =? 1)) then c
  else
    let source_conflict := src =? req_ip c in
    let target_conflict := tgt =? req_ip c in
    if negb source_conflict && negb target_conflict then c
    else
      let c := set_conflicts ((conflicts c + 1) mod 256) c in
      match st c with
      | MONITOR => if negb source_conflict then c else send_announce (set_st DEFEND c)
      | DEFEND => if negb source_conflict then c else give_up e (react e (emit Lost c))
      | _ => give_up e c
      end.

(** ** Timer functions, lines 2607-2666 *)
Definition fire (e : env) (k : kind) (c : client) : client :=
  match k with
  | KSend => send_probe e c
  | KProbe =>
      if retry c =? 3 then send_announce (set_retry 1 (set_st ANNOUNCE c))
      else send_probe e (set_retry ((retry c + 1) mod 256) c)
  | KAnnounce =>
      if negb (retry c =? 2) then send_announce (set_retry ((retry c + 1) mod 256) c)
      else
        let c := set_assigned (Some (req_ip c)) (set_st MONITOR c) in
        set_conflicts 0 (react e (emit (Available (req_ip c)) c))
  | KDefend => set_st MONITOR (set_conflicts 0 c)
  end.

(** ** Histories *)
(** Calls of the user, the source with an id running when due, an ARP packet on the network,
    an error on the socket, and time passing. *)
Inductive op := OStart | OStop | OFire (id : N) | ORecv (o src tgt : N) | OError | OWait (ms : N).
Definition step (e : env) (o : op) (c : client) : client :=
  match o with
  | OStart => start e (emit Start c)
  | OStop => emit Stop (stop c)
  | OFire id =>
      match find (fun s => s_id s =? id) (srcs c) with
      | Some s =>
          if s_due s <=? now c then
            let c := fire e (s_kind s) c in
            set_srcs (without id (srcs c)) (next_id c) c
          else c
      | None => c
      end
  | ORecv o src tgt =>
      let c := emit (Wire o src tgt) c in
      if watch c then receive e o src tgt c else c
  | OError => if watch c then set_listen (arp c) false c else c
  | OWait ms => set_now (now c + ms) c
  end.
Fixpoint run (os : list (env * op)) (c : client) : client :=
  match os with
  | [] => c
  | (e, o) :: os => run os (step e o c)
  end.
