(** Model of the IPv4 DHCP client, src/dhcp/client.c:276-293, 440-514, 1494-1781, 2229-2401,
    2575-2605 and 2668-2843, with the timers of the main loop. A packet is what the client
    reads of it; sending always works. Callbacks of the user react by calling nothing, stop or
    start. Timers are exact (GLib may run timers of whole seconds up to a second late). *)
From Verif Require Import Base.

(** ClientState, lines 62-82, and ListenMode, lines 55-60. *)
Inductive state := INIT_SELECTING | REBOOTING | REQUESTING | BOUND | RENEWING | REBINDING | RELEASED.
Inductive mode := L_NONE | L2 | L3.
(** Timer functions: reboot_timeout, discover_timeout, request_timeout, restart_dhcp_timeout,
    start_renew, continue_renew, start_rebound, continue_rebound, start_expire. *)
Inductive kind := KReboot | KDiscover | KRequest | KRestart | KRenew | KRenew2 | KRebind | KRebind2 | KExpire.
(** A pending source of the main loop; times in milliseconds. *)
Record source := Src { s_id : N; s_kind : kind; s_due : N }.

(** What is seen from outside: calls of the user, packets sent, callbacks, and removals of
    sources that do not exist. *)
Inductive event :=
| Start (ok : bool) | Stop
| Discover (requested : N)
| Request (requested server ciaddr : option N) (unicast : bool)
| Release (server ciaddr : N)
| Available (ip lease : N) | NoLease | Lost
| NotFound.
Record client := Client {
  st : state; lmode : mode; watch : bool; retry : N; ack_retry : N;
  timeout : N; t1_timeout : N; t2_timeout : N; lease_timeout : N;
  lease : N; T1 : N; T2 : N; expire : N; req_ip : N; server_ip : N; assigned : option N; last : option N;
  now : N; srcs : list source; next_id : N; log : list (N * event) }.
(** g_dhcp_client_new, lines 1134-1207: zeroed. *)
Definition fresh_client : client :=
  Client INIT_SELECTING L_NONE false 0 0 0 0 0 0 0 0 0 0 0 0 None None 0 [] 1 [].

Definition set_st x c := Client x (lmode c) (watch c) (retry c) (ack_retry c) (timeout c) (t1_timeout c) (t2_timeout c) (lease_timeout c) (lease c) (T1 c) (T2 c) (expire c) (req_ip c) (server_ip c) (assigned c) (last c) (now c) (srcs c) (next_id c) (log c).
Definition set_listen m w c := Client (st c) m w (retry c) (ack_retry c) (timeout c) (t1_timeout c) (t2_timeout c) (lease_timeout c) (lease c) (T1 c) (T2 c) (expire c) (req_ip c) (server_ip c) (assigned c) (last c) (now c) (srcs c) (next_id c) (log c).
Definition set_retry x c := Client (st c) (lmode c) (watch c) x (ack_retry c) (timeout c) (t1_timeout c) (t2_timeout c) (lease_timeout c) (lease c) (T1 c) (T2 c) (expire c) (req_ip c) (server_ip c) (assigned c) (last c) (now c) (srcs c) (next_id c) (log c).
Definition set_ack x c := Client (st c) (lmode c) (watch c) (retry c) x (timeout c) (t1_timeout c) (t2_timeout c) (lease_timeout c) (lease c) (T1 c) (T2 c) (expire c) (req_ip c) (server_ip c) (assigned c) (last c) (now c) (srcs c) (next_id c) (log c).
Definition set_timers a b d e c := Client (st c) (lmode c) (watch c) (retry c) (ack_retry c) a b d e (lease c) (T1 c) (T2 c) (expire c) (req_ip c) (server_ip c) (assigned c) (last c) (now c) (srcs c) (next_id c) (log c).
Definition set_timeout x c := set_timers x (t1_timeout c) (t2_timeout c) (lease_timeout c) c.
Definition set_t1 x c := set_timers (timeout c) x (t2_timeout c) (lease_timeout c) c.
Definition set_t2 x c := set_timers (timeout c) (t1_timeout c) x (lease_timeout c) c.
Definition set_lease_t x c := set_timers (timeout c) (t1_timeout c) (t2_timeout c) x c.
Definition set_times l a b e c := Client (st c) (lmode c) (watch c) (retry c) (ack_retry c) (timeout c) (t1_timeout c) (t2_timeout c) (lease_timeout c) l a b e (req_ip c) (server_ip c) (assigned c) (last c) (now c) (srcs c) (next_id c) (log c).
Definition set_req x c := Client (st c) (lmode c) (watch c) (retry c) (ack_retry c) (timeout c) (t1_timeout c) (t2_timeout c) (lease_timeout c) (lease c) (T1 c) (T2 c) (expire c) x (server_ip c) (assigned c) (last c) (now c) (srcs c) (next_id c) (log c).
Definition set_server x c := Client (st c) (lmode c) (watch c) (retry c) (ack_retry c) (timeout c) (t1_timeout c) (t2_timeout c) (lease_timeout c) (lease c) (T1 c) (T2 c) (expire c) (req_ip c) x (assigned c) (last c) (now c) (srcs c) (next_id c) (log c).
Definition set_assigned x c := Client (st c) (lmode c) (watch c) (retry c) (ack_retry c) (timeout c) (t1_timeout c) (t2_timeout c) (lease_timeout c) (lease c) (T1 c) (T2 c) (expire c) (req_ip c) (server_ip c) x (last c) (now c) (srcs c) (next_id c) (log c).
Definition set_last x c := Client (st c) (lmode c) (watch c) (retry c) (ack_retry c) (timeout c) (t1_timeout c) (t2_timeout c) (lease_timeout c) (lease c) (T1 c) (T2 c) (expire c) (req_ip c) (server_ip c) (assigned c) x (now c) (srcs c) (next_id c) (log c).
Definition set_now x c := Client (st c) (lmode c) (watch c) (retry c) (ack_retry c) (timeout c) (t1_timeout c) (t2_timeout c) (lease_timeout c) (lease c) (T1 c) (T2 c) (expire c) (req_ip c) (server_ip c) (assigned c) (last c) x (srcs c) (next_id c) (log c).
Definition set_srcs l n c := Client (st c) (lmode c) (watch c) (retry c) (ack_retry c) (timeout c) (t1_timeout c) (t2_timeout c) (lease_timeout c) (lease c) (T1 c) (T2 c) (expire c) (req_ip c) (server_ip c) (assigned c) (last c) (now c) l n (log c).
Definition set_log x c := Client (st c) (lmode c) (watch c) (retry c) (ack_retry c) (timeout c) (t1_timeout c) (t2_timeout c) (lease_timeout c) (lease c) (T1 c) (T2 c) (expire c) (req_ip c) (server_ip c) (assigned c) (last c) (now c) (srcs c) (next_id c) x.
(** With the time it happens. *)
Definition emit (e : event) (c : client) : client := set_log (log c ++ [(now c, e)]) c.

(** ** Timers *)
Definition other (id : N) (s : source) : bool := negb (s_id s =? id).
Definition without (id : N) (l : list source) : list source := filter (other id) l.
Definition pending (id : N) (l : list source) : bool := existsb (fun s => s_id s =? id) l.
(** g_source_remove of an id that is not 0. *)
Definition remove (id : N) (c : client) : client :=
  if id =? 0 then c
  else if pending id (srcs c) then set_srcs (without id (srcs c)) (next_id c) c
  else emit NotFound c.
(** g_timeout_add_full and _seconds_full: the id of the new source is [next_id]. *)
Definition add (k : kind) (ms : N) (c : client) : client :=
  set_srcs (srcs c ++ [Src (next_id c) k (now c + ms)]) (next_id c + 1) c.
(** remove_timeouts, lines 276-293. *)
Definition remove_timeouts (c : client) : client :=
  set_timers 0 0 0 0 (remove (lease_timeout c) (remove (t2_timeout c) (remove (t1_timeout c) (remove (timeout c) c)))).

(** switch_listening_mode, lines 1511-1572; [sock]: a new socket can be made. *)
Definition mode_eqb (a b : mode) : bool :=
  match a, b with L_NONE, L_NONE | L2, L2 | L3, L3 => true | _, _ => false end.
Definition switch (sock : bool) (m : mode) (c : client) : client * bool :=
  if mode_eqb (lmode c) m then (c, true)
  else
    let c := if mode_eqb (lmode c) L_NONE then c else set_listen L_NONE false c in
    if mode_eqb m L_NONE then (c, true)
    else if sock then (set_listen m true c, true) else (c, false).

(** send_request, lines 462-500. *)
Definition send_request (c : client) : client :=
  emit (Request (match st c with REQUESTING | REBOOTING => Some (req_ip c) | _ => None end)
                (match st c with REQUESTING => Some (server_ip c) | _ => None end)
                (match st c with RENEWING | REBINDING => Some (req_ip c) | _ => None end)
                (match st c with RENEWING => true | _ => false end)) c.

(** g_dhcp_client_stop, lines 2820-2843. *)
Definition stop (c : client) : client :=
  let c := fst (switch true L_NONE c) in
  let c := match st c with BOUND | RENEWING | REBINDING => emit (Release (server_ip c) (req_ip c)) c | _ => c end in
  let c := remove_timeouts c in
  let c := set_listen (lmode c) false c in
  let c := set_req 0 (set_ack 0 (set_retry 0 c)) in
  set_times 0 (T1 c) (T2 c) (expire c) (set_st RELEASED c).

(** What the user's callback does. *)
Inductive reaction := Nothing | DoStop | DoStart (la : option N).

(** g_dhcp_client_start, lines 2741-2818, for IPv4: the client and whether it returns 0.
    [la]: the address passed, 0xffffffff if it cannot be parsed. A passed address replaces
    the last one. [Endless]: no end within [fuel] nested calls. *)
Fixpoint start (fuel : nat) (sock : bool) (r : reaction) (la : option N) (c : client) : oc (client * bool) :=
  match fuel with
  | O => Endless
  | S fuel =>
      if retry c =? 6 then
        let c := emit NoLease c in
        let* c := match r with
                  | Nothing => Ret c
                  | DoStop => Ret (emit Stop (stop c))
                  | DoStart la => let* x := start fuel sock r la c in Ret (emit (Start (snd x)) (fst x))
                  end in
        Ret (set_retry 0 c, true)
      else
        let '(c, ok) :=
          if retry c =? 0 then switch sock L2 (set_st INIT_SELECTING (set_assigned None c))
          else (c, true) in
        if negb ok then Ret (c, false)
        else
          let addr := match la with None => 0 | Some a => if a =? 0xffffffff then 0 else a end in
          let c := match la with None => c | Some a => if a =? 0xffffffff then c else set_last la c end in
          if negb (addr =? 0) then
            let c := send_request (set_st REBOOTING (set_req addr c)) in
            Ret (set_timeout (next_id c) (add KReboot 5000 c), true)
          else
            let c := emit (Discover addr) c in
            Ret (set_timeout (next_id c) (add KDiscover 5000 c), true)
  end.
(** A callback other than from start. *)
Definition react (fuel : nat) (sock : bool) (r : reaction) (c : client) : oc client :=
  match r with
  | Nothing => Ret c
  | DoStop => Ret (emit Stop (stop c))
  | DoStart la => let* x := start fuel sock r la c in Ret (emit (Start (snd x)) (fst x))
  end.

(** start_request, lines 1574-1598. *)
Definition start_request (fuel : nat) (sock : bool) (r : reaction) (c : client) : oc client :=
  if retry c =? 3 then react fuel sock r (emit NoLease c)
  else
    let c := if retry c =? 0 then fst (switch sock L2 (set_st REQUESTING c)) else c in
    let c := send_request c in
    Ret (set_timeout (next_id c) (add KRequest 5000 c)).
(** restart_dhcp, lines 1618-1630. *)
Definition restart_dhcp (fuel : nat) (sock : bool) (r : reaction) (n : N) (c : client) : oc client :=
  let c := set_st INIT_SELECTING (set_req 0 (set_retry n (remove_timeouts c))) in
  let c := fst (switch sock L2 c) in
  let* x := start fuel sock r (last c) c in Ret (fst x).
(** start_bound, lines 1733-1764. *)
Definition start_bound (c : client) : client :=
  let c := remove_timeouts (set_st BOUND c) in
  let c := set_times (lease c) (lease c / 2) (lease c * 7 / 8) (lease c) c in
  let c := set_t1 (next_id c) (add KRenew (T1 c * 1000) c) in
  let c := set_t2 (next_id c) (add KRebind (T2 c * 1000) c) in
  set_lease_t (next_id c) (add KExpire (expire c * 1000) c).
(** T * 1000 + (rand() % 2000) - 1000 of 32 bits. *)
Definition two32 : N := 4294967296.
Definition jitter (t rnd : N) : N := (t * 1000 + rnd mod 2000 + (two32 - 1000)) mod two32.
(** continue_renew and continue_rebound, lines 1695-1716 and 1651-1673. *)
Definition continue_renew (sock : bool) (rnd : N) (c : client) : client :=
  let c := send_request (fst (switch sock L3 c)) in
  let c := remove (t1_timeout c) c in
  let c := set_times (lease c) (T1 c / 2) (T2 c) (expire c) c in
  if 60 <? T1 c then set_t1 (next_id c) (add KRenew2 (jitter (T1 c) rnd) c) else c.
Definition continue_rebound (sock : bool) (rnd : N) (c : client) : client :=
  let c := send_request (fst (switch sock L2 c)) in
  let c := remove (t2_timeout c) c in
  let c := set_times (lease c) (T1 c) (T2 c / 2) (expire c) c in
  if 60 <? T2 c then set_t2 (next_id c) (add KRebind2 (jitter (T2 c) rnd) c) else c.
(** The subtractions are of 32 bits. *)
Definition sub32 (a b : N) : N := (a + (two32 - b mod two32)) mod two32.
(** start_renew and start_rebound, lines 1717-1731 and 1675-1693. *)
Definition start_renew (sock : bool) (rnd : N) (c : client) : client :=
  let c := set_st RENEWING c in
  continue_renew sock rnd (set_times (lease c) (sub32 (T2 c) (T1 c)) (T2 c) (expire c) c).
Definition start_rebound (sock : bool) (rnd : N) (c : client) : client :=
  let c := set_st REBINDING (remove (t1_timeout c) c) in
  continue_rebound sock rnd (set_times (lease c) (T1 c) (sub32 (expire c) (T2 c)) (expire c) c).
(** start_expire, lines 1632-1649. *)
Definition start_expire (fuel : nat) (sock : bool) (r : reaction) (c : client) : oc client :=
  let* c := restart_dhcp fuel sock r 0 (remove_timeouts c) in
  react fuel sock r (emit Lost c).
(** restart_dhcp_timeout, lines 1766-1781. *)
Definition restart_timeout (fuel : nat) (sock : bool) (r : reaction) (c : client) : oc client :=
  match st c with
  | REBOOTING => restart_dhcp fuel sock r 0 (set_last None c)
  | _ => let n := (ack_retry c + 1) mod 256 in restart_dhcp fuel sock r n (set_ack n c)
  end.
(** A timer function, with discover_timeout and reboot_timeout, lines 2575-2605, and
    request_timeout, lines 1494-1506. *)
Definition fire (fuel : nat) (sock : bool) (rnd : N) (r : reaction) (k : kind) (c : client) : oc client :=
  match k with
  | KDiscover => let* x := start fuel sock r None (set_retry ((retry c + 1) mod 256) c) in Ret (fst x)
  | KReboot => let* x := start fuel sock r None (set_st INIT_SELECTING (set_req 0 (set_retry 0 c))) in Ret (fst x)
  | KRequest => start_request fuel sock r (set_retry ((retry c + 1) mod 256) c)
  | KRestart => restart_timeout fuel sock r c
  | KRenew => Ret (start_renew sock rnd c)
  | KRenew2 => Ret (continue_renew sock rnd c)
  | KRebind => Ret (start_rebound sock rnd c)
  | KRebind2 => Ret (continue_rebound sock rnd c)
  | KExpire => start_expire fuel sock r c
  end.

(** ** Packets *)
(** A received packet with the cookie: whether it belongs to the client
    (check_package_owner, lines 1461-1490), its message type, server identifier and lease
    time if it has them, and yiaddr. *)
Record packet := Packet { p_owner : bool; p_type : option N; p_server : option N; p_lease : option N; p_yiaddr : N }.
Definition DHCPOFFER : N := 2.
Definition DHCPACK : N := 5.
Definition DHCPNAK : N := 6.
(** get_lease, lines 1600-1616. *)
Definition get_lease (l : option N) : N :=
  match l with None => 3600 | Some l => let l := l mod 2 ^ 28 in if l <? 10 then 10 else l end.
(** With a length of 0 no option is found: packets of the kernel's socket. *)
Definition seen (m : mode) (p : packet) : packet :=
  match m with L3 => Packet (p_owner p) None None None (p_yiaddr p) | _ => p end.
(** The two branches for the states with a request, lines 2354-2392. get_be32 of a missing
    option is undefined. *)
Definition ack_address (sock : bool) (p : packet) (c : client) : client :=
  let c := set_times (get_lease (p_lease p)) (T1 c) (T2 c) (expire c) c in
  set_assigned (Some (p_yiaddr p)) (fst (switch sock L_NONE c)).
Definition ack_server (p : packet) (c : client) : oc client :=
  match st c, p_server p with
  | REBOOTING, None => Undef
  | REBOOTING, Some s => Ret (set_server s c)
  | _, _ => Ret c
  end.
Definition on_ack (fuel : nat) (sock : bool) (r : reaction) (p : packet) (c : client) : oc client :=
  let* c := ack_server p (ack_address sock p (remove_timeouts (set_retry 0 c))) in
  let* c := react fuel sock r (emit (Available (p_yiaddr p) (lease c)) c) in
  Ret (start_bound c).
Definition on_nak (c : client) : client :=
  let c := remove_timeouts (set_retry 0 c) in
  set_timeout (next_id c) (add KRestart 3000 c).
(** listener_event, lines 2229-2401. *)
Definition listener (fuel : nat) (sock : bool) (r : reaction) (p : packet) (c : client) : oc client :=
  match lmode c with
  | L_NONE => Ret (set_listen L_NONE false c)
  | _ =>
      let p := seen (lmode c) p in
      if negb (p_owner p) then Ret c
      else
        match p_type p with
        | None => Ret c
        | Some t =>
            match st c with
            | INIT_SELECTING =>
                if negb (t =? DHCPOFFER) then Ret c
                else
                  let c := set_retry 0 (remove_timeouts c) in
                  match p_server p with
                  | None => Undef
                  | Some s => start_request fuel sock r (set_st REQUESTING (set_req (p_yiaddr p) (set_server s c)))
                  end
            | REBOOTING | REQUESTING | RENEWING | REBINDING =>
                if t =? DHCPACK then on_ack fuel sock r p c
                else if t =? DHCPNAK then Ret (on_nak c)
                else Ret c
            | BOUND | RELEASED => Ret c
            end
        end
  end.

(** ** Histories *)
(** Calls of the user, the source with an id running when due, a packet arriving while
    the client listens, an error on the socket, and time passing. *)
Inductive op :=
| OStart (la : option N) | OStop | OFire (id : N) (rnd : N) | ORecv (p : packet) | OError | OWait (ms : N).
Definition step (fuel : nat) (sock : bool) (r : reaction) (o : op) (c : client) : oc client :=
  match o with
  | OStart la => let* x := start fuel sock r la c in Ret (emit (Start (snd x)) (fst x))
  | OStop => Ret (emit Stop (stop c))
  | OFire id rnd =>
      match find (fun s => s_id s =? id) (srcs c) with
      | Some s =>
          if s_due s <=? now c then
            let* c := fire fuel sock rnd r (s_kind s) c in
            Ret (set_srcs (without id (srcs c)) (next_id c) c)
          else Ret c
      | None => Ret c
      end
  | ORecv p => if watch c then listener fuel sock r p c else Ret c
  | OError => Ret (if watch c then set_listen (lmode c) false c else c)
  | OWait ms => Ret (set_now (now c + ms) c)
  end.
Fixpoint run (fuel : nat) (os : list (bool * reaction * op)) (c : client) : oc client :=
  match os with
  | [] => Ret c
  | (sock, r, o) :: os => let* c := step fuel sock r o c in run fuel os c
  end.
