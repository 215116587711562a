(** Model of how wifid connects to peers, src/wifi/wifid-supplicant.c:118-128, 614-698,
    740-846, 922-1222, 1319-1447, 1529-1548, 1901-1923 and 2019-2094, src/wifi/wifid-peer.c:36-100
    and 152-234, src/wifi/wifid-dbus.c:72-101 and 369-452, for one link. Peers are known by
    their addresses in memory, which are not used again; reading a peer that was freed is
    undefined. Memory can be allocated. Names and WFD subelements of peers are left out,
    and which peers share a group: that a peer leaves its group with others is an input. *)
From Coq Require Import String.
From Verif Require Import Base Text Comm_Model.
Local Open Scope list_scope.

(** struct supplicant_peer and struct peer: address; p2p_mac; prov; pin; g is set;
    sta_mac; connected; public. *)
Record peer := mkPeer { p_id : N; p_mac : list byte; p_prov : option (list byte); p_pin : option (list byte); p_in : bool; p_sta : option (list byte); p_conn : bool; p_public : bool }.
(** struct supplicant: running; has_p2p; pending; the peers of the link; the next address. *)
Record st := mkSt { s_run : bool; s_p2p : bool; s_pending : option N; s_peers : list peer; s_next : N }.
Definition init : st := mkSt false false None [] 1.
Definition set_ask (prov pin : option (list byte)) (p : peer) : peer := mkPeer (p_id p) (p_mac p) prov pin (p_in p) (p_sta p) (p_conn p) (p_public p).
Definition set_in (p : peer) : peer := mkPeer (p_id p) (p_mac p) (p_prov p) (p_pin p) true (p_sta p) (p_conn p) (p_public p).
Definition set_sta (t : list byte) (p : peer) : peer := mkPeer (p_id p) (p_mac p) (p_prov p) (p_pin p) (p_in p) (Some t) (p_conn p) (p_public p).
Definition set_conn (b : bool) (p : peer) : peer := mkPeer (p_id p) (p_mac p) (p_prov p) (p_pin p) (p_in p) (p_sta p) b (p_public p).
Definition set_public (p : peer) : peer := mkPeer (p_id p) (p_mac p) (p_prov p) (p_pin p) (p_in p) (p_sta p) (p_conn p) true.
Definition set_out (p : peer) : peer := mkPeer (p_id p) (p_mac p) (p_prov p) (p_pin p) false None (p_conn p) (p_public p).
Definition with_pending (o : option N) (s : st) : st := mkSt (s_run s) (s_p2p s) o (s_peers s) (s_next s).
Definition with_peers (ps : list peer) (s : st) : st := mkSt (s_run s) (s_p2p s) (s_pending s) ps (s_next s).
Definition put (p : peer) (s : st) : st := with_peers (map (fun q => if p_id q =? p_id p then p else q) (s_peers s)) s.
Definition at_id (s : st) (id : N) : option peer := find (fun p => p_id p =? id) (s_peers s).
(** find_peer_by_p2p_mac: the table is keyed by the text of the address. *)
Definition named (s : st) (mac : list byte) : option peer := find (fun p => str_eq (p_mac p) mac) (s_peers s).
Definition is_pending (s : st) (p : peer) : bool := match s_pending s with Some id => id =? p_id p | None => false end.

(** What others see: requests to wpa_supplicant, signals, answers to calls. *)
Inductive out :=
| Send (words : list (list byte))
| Added (mac : list byte) | Removed (mac : list byte) | Connected (mac : list byte) (b : bool)
| Asked (mac prov pin : list byte) | Wanted (mac prov pin : list byte) | Failed (mac reason : list byte)
| Returns (err : N) | NoObject.
Definition EALREADY : N := 114.
Definition EINVAL : N := 22.

(** peer_supplicant_connected_changed. *)
Definition conn_changed (b : bool) (p : peer) : peer * list out :=
  if Bool.eqb (p_conn p) b then (p, []) else (set_conn b p, if p_public p then [Connected (p_mac p) b] else []).
(** supplicant_peer_drop_group, 628-645. *)
Definition drop_group (p : peer) : peer * list out := if p_in p then conn_changed false (set_out p) else (p, []).
(** peer_supplicant_formation_failure. *)
Definition formation_failure (p : peer) (reason : list byte) : list out := if p_public p then [Failed (p_mac p) reason] else [].
(** supplicant_peer_free, 677-698. *)
Definition peer_free (s : st) (p : peer) : st * list out :=
  let '(s, o1) := if is_pending s p then (with_pending None s, formation_failure p (text "lost")) else (s, []) in
  let '(p, o2) := drop_group p in
  let o3 := if p_public p then [Removed (p_mac p)] else [] in
  (with_peers (filter (fun q => negb (p_id q =? p_id p)) (s_peers s)) s, o1 ++ o2 ++ o3).
(** peer_supplicant_started. *)
Definition publish (p : peer) : peer * list out := if p_public p then (p, []) else (set_public p, [Added (p_mac p)]).
Fixpoint publish_all (ps : list peer) : list peer * list out :=
  match ps with
  | [] => ([], [])
  | p :: ps => let '(p, o) := publish p in let '(ps, o') := publish_all ps in (p :: ps, o ++ o')
  end.
(** supplicant_parse_peer, 848-920, with supplicant_peer_new and peer_new; [mac]: the first
    argument of the message. *)
Definition parse_peer (s : st) (mac : option (list byte)) : res (st * list out) :=
  match mac with
  | None => Ok (s, [])
  | Some mac =>
      let started s p := if s_run s then let '(p, o) := publish p in (put p s, o) else (s, []) in
      match named s mac with
      | Some p => Ok (started s p)
      | None =>
          do key <- reformat_mac mac;
          match named s key with
          | Some _ => Ok (s, [])
          | None =>
              let p := mkPeer (s_next s) key None None false None false false in
              Ok (started (mkSt (s_run s) (s_p2p s) (s_pending s) (s_peers s ++ [p]) (s_next s + 1)) p)
          end
      end
  end.
(** peer_supplicant_provision_discovery and peer_dbus_provision_discovery. *)
Definition or_empty (t : option (list byte)) : list byte := match t with Some t => t | None => [] end.
Definition provision (s : st) (mac : option (list byte)) (prov : list byte) (pin : option (list byte)) : st * list out :=
  match mac with
  | None => (s, [])
  | Some mac =>
      match named s mac with
      | None => (s, [])
      | Some p => (put (set_ask (Some prov) pin p) s, if p_public p then [Asked (p_mac p) prov (or_empty pin)] else [])
      end
  end.
Definition is_empty (t : list byte) : bool := match t with [] => true | _ => false end.
(** supplicant_peer_connect, 740-811; [err]: the error of wpas_call_async, 0 for none. *)
Definition connect (s : st) (p : peer) (prov pin : option (list byte)) (err : N) : st * list out :=
  if negb (s_run s) then (s, [Returns EINVAL])
  else if p_in p then (s, [Returns 0])
  else if match s_pending s with Some id => negb (id =? p_id p) | None => false end then (s, [Returns EALREADY])
  else
    let prov := match prov with Some t => t | None => match p_prov p with Some t => t | None => text "pbc" end end in
    let pin := match pin with Some t => Some t | None => p_pin p end in
    let go words := if err =? 0 then (with_pending (Some (p_id p)) s, [Send words; Returns 0]) else (s, [Returns err]) in
    if str_eq prov (text "pbc") then go [text "P2P_CONNECT"; p_mac p; text "pbc"]
    else if str_eq prov (text "display") || str_eq prov (text "pin") || str_eq prov (text "keypad") then
      match pin with
      | Some t => if is_empty t then (s, [Returns EINVAL]) else go [text "P2P_CONNECT"; p_mac p; t; prov]
      | None => (s, [Returns EINVAL])
      end
    else (s, [Returns EINVAL]).
(** supplicant_event_p2p_go_neg_failure and _group_formation_failure, 1319-1348. *)
Definition failure (s : st) (reason : list byte) : oc (st * list out) :=
  match s_pending s with
  | None => Ret (s, [])
  | Some id => match at_id s id with None => Undef | Some p => Ret (with_pending None s, formation_failure p reason) end
  end.

(** Events of wpa_supplicant with what is read of them, replies, calls over D-Bus and what
    happens to groups. Fields that are missing are [None]. *)
Inductive event :=
| Found (dev argv0 : option (list byte)) | Reply (argv0 : option (list byte)) | Lost (dev : option (list byte))
| PbcReq (dev : option (list byte)) | ShowPin (dev pin : option (list byte)) | EnterPin (dev : option (list byte))
| NegRequest (argv0 : option (list byte)) (passwd_id : N) | NegSuccess (dev iface : option (list byte)) | NegFailure | FormFailure
| StaConnected (dev argv0 : option (list byte)) (group : bool) | StaDisconnected (dev : option (list byte))
| GroupStarted (go : list byte) | Leaves (mac : list byte) | Up (mac : list byte)
| Ready (p2p : bool) | Stopped
| Connect (mac prov pin : list byte) (err : N) | Disconnect (mac : list byte) | StartScan (err : N) | StopScan.
Definition on (s : st) (mac : option (list byte)) (f : peer -> st * list out) : st * list out :=
  match mac with None => (s, []) | Some mac => match named s mac with None => (s, []) | Some p => f p end end.
(** Objects on the bus are those of public peers, wifid-dbus.c:316-367. *)
Definition object (s : st) (mac : list byte) : option peer := match named s mac with Some p => if p_public p then Some p else None | None => None end.
Fixpoint free_all (fuel : nat) (s : st) : oc (st * list out) :=
  match s_peers s with
  | [] => Ret (s, [])
  | p :: _ => match fuel with O => Endless | S fuel => let '(s, o) := peer_free s p in let* x := free_all fuel s in Ret (fst x, o ++ snd x) end
  end.
Definition lift (r : res (st * list out)) : oc (st * list out) := match r with Ok x => Ret x | UB => Undef end.
Definition step (s : st) (e : event) : oc (st * list out) :=
  match e with
  | Found dev argv0 =>
      match dev with
      | None => Ret (s, [])
      | Some d => let* x := lift (parse_peer s argv0) in Ret (fst x, snd x ++ [Send [text "P2P_PEER"; d]])
      end
  | Reply argv0 => lift (parse_peer s argv0)
  | Lost dev => Ret (on s dev (peer_free s))
  | PbcReq dev => Ret (provision s dev (text "pbc") None)
  | ShowPin dev pin => match pin with None => Ret (s, []) | Some t => Ret (provision s dev (text "display") (Some t)) end
  | EnterPin dev => Ret (provision s dev (text "pin") None)
  | NegRequest argv0 _ =>
      Ret (on s argv0 (fun p =>
        let p := match p_prov p with Some _ => p | None => set_ask (Some (text "pbc")) None p end in
        (put p s, if p_in p then [] else if p_public p then [Wanted (p_mac p) (or_empty (p_prov p)) (or_empty (p_pin p))] else [])))
  | NegSuccess dev iface =>
      Ret (on s dev (fun p => if p_in p then (s, []) else match iface with None => (s, []) | Some t => (put (set_sta t p) s, []) end))
  | NegFailure => failure s (text "group owner negotiation failed")
  | FormFailure => failure s (text "unknown")
  | StaConnected dev argv0 group =>
      match argv0 with
      | None => Ret (s, [])
      | Some t => Ret (on s dev (fun p => if p_in p then (s, []) else let p := set_sta t p in (put (if group then set_in p else p) s, [])))
      end
  | StaDisconnected dev =>
      Ret (on s dev (fun p =>
        let '(s, p, o) := if is_pending s p then
            if p_conn p then let '(p, o) := conn_changed false p in (with_pending None s, p, o)
            else (with_pending None s, p, formation_failure p (text "disconnected"))
          else (s, p, []) in
        let '(p, o') := drop_group p in (put p s, o ++ o')))
  | GroupStarted go => Ret (on s (Some go) (fun p => (put (set_in p) s, [])))
  | Leaves mac => Ret (on s (Some mac) (fun p => let '(p, o) := drop_group p in (put p s, o)))
  | Up mac => Ret (on s (Some mac) (fun p => if p_in p then let '(p, o) := conn_changed true p in (put p s, o) else (s, [])))
  | Ready p2p =>
      if s_run s then Ret (s, []) else
      let '(ps, o) := publish_all (s_peers s) in Ret (mkSt true p2p (s_pending s) ps (s_next s), o)
  | Stopped => let* x := free_all (S (length (s_peers s))) s in Ret (mkSt false (s_p2p (fst x)) (s_pending (fst x)) (s_peers (fst x)) (s_next (fst x)), snd x)
  | Connect mac prov pin err =>
      match object s mac with
      | None => Ret (s, [NoObject])
      | Some p =>
          (* peer_dbus_connect, wifid-dbus.c:72-92 *)
          Ret (connect s p (if is_empty prov || str_eq prov (text "auto") then None else Some prov) (if is_empty pin then None else Some pin) err)
      end
  | Disconnect mac =>
      match object s mac with
      | None => Ret (s, [NoObject])
      | Some p => let '(p, o) := drop_group (set_ask None None p) in Ret (put p s, o ++ [Returns 0])
      end
  | StartScan err =>
      if negb (s_run s && s_p2p s) then Ret (s, [Returns EINVAL])
      else Ret (with_pending None s, if err =? 0 then [Send [text "P2P_FIND"]; Returns 0] else [Returns err])
  | StopScan => if negb (s_run s && s_p2p s) then Ret (s, []) else Ret (s, [Send [text "P2P_STOP_FIND"]])
  end.
Fixpoint run (s : st) (h : list event) : oc (st * list out) :=
  match h with
  | [] => Ret (s, [])
  | e :: h => let* x := step s e in let* y := run (fst x) h in Ret (fst y, snd x ++ snd y)
  end.
