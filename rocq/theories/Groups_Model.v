(** Model of P2P groups and their peers, src/wifi/wifid-supplicant.c:45-74,
    118-352, 497-645, 677-698, 812-827, 994-1016, 1226-1317, 1350-1447 and
    1901-1923. Names, MAC and IP addresses of devices stand for strings. Objects are
    known by their addresses; malloc may return any address that is not in use, given
    with the event. Spawning the DHCP process and adding its event sources succeed or
    fail together ([ok]). Requests to the supplicant (P2P_GROUP_REMOVE), signals and
    D-Bus messages are left out, as are the pending peer and station addresses; the
    peer of an 'R' line is given with the event. Counting users does not wrap. *)
From Verif Require Import Base.

(** struct supplicant_group, src/wifi/wifid-supplicant.c:45-61: address, interface,
    local group owner, subnet, users, owner, local address is known. A group is in
    the list of groups from the end of supplicant_group_new until it is freed. *)
Record group := mkGroup { g_id : N; g_if : N; g_go : bool; g_subnet : N; g_users : N; g_sp : option N; g_local : bool }.
(** struct supplicant_peer, src/wifi/wifid-supplicant.c:63-74: address, MAC address
    of the device, group, remote address is known, and the state reported by
    peer_supplicant_connected_changed, src/wifi/wifid-peer.c:223-234. *)
Record peer := mkPeer { p_id : N; p_mac : N; p_g : option N; p_addr : bool; p_conn : bool }.
Record st := mkSt { s_groups : list group; s_peers : list peer }.
Definition init : st := mkSt [] [].

Definition is (o : option N) (n : N) : bool := match o with Some m => m =? n | None => false end.
Definition group_at (s : st) (id : N) : option group := find (fun g => g_id g =? id) (s_groups s).
Definition peer_at (s : st) (id : N) : option peer := find (fun p => p_id p =? id) (s_peers s).
(** find_group_by_ifname and find_peer_by_p2p_mac,
    src/wifi/wifid-supplicant.c:143-156 and 118-128. *)
Definition group_named (s : st) (ifn : N) : option group := find (fun g => g_if g =? ifn) (s_groups s).
Definition peer_named (s : st) (mac : N) : option peer := find (fun p => p_mac p =? mac) (s_peers s).
Definition upd_group (f : group -> group) (id : N) (s : st) : st :=
  mkSt (map (fun g => if g_id g =? id then f g else g) (s_groups s)) (s_peers s).
Definition upd_peer (f : peer -> peer) (id : N) (s : st) : st :=
  mkSt (s_groups s) (map (fun p => if p_id p =? id then f p else p) (s_peers s)).
Definition set_users (n : N) (g : group) : group := mkGroup (g_id g) (g_if g) (g_go g) (g_subnet g) n (g_sp g) (g_local g).
Definition set_owner (o : N) (g : group) : group := mkGroup (g_id g) (g_if g) (g_go g) (g_subnet g) (g_users g) (Some o) (g_local g).
Definition set_local (g : group) : group := mkGroup (g_id g) (g_if g) (g_go g) (g_subnet g) (g_users g) (g_sp g) true.
Definition set_pg (o : option N) (p : peer) : peer := mkPeer (p_id p) (p_mac p) o (p_addr p) (p_conn p).
Definition set_addr (p : peer) : peer := mkPeer (p_id p) (p_mac p) (p_g p) true (p_conn p).
Definition set_conn (p : peer) : peer := mkPeer (p_id p) (p_mac p) (p_g p) (p_addr p) true.
Definition leave (p : peer) : peer := mkPeer (p_id p) (p_mac p) None false false.

(** supplicant_group_drop, src/wifi/wifid-supplicant.c:595-601, of a group. *)
Definition group_drop (free : st -> N -> oc st) (s : st) (gid : N) : oc st :=
  match group_at s gid with
  | None => Undef
  | Some g =>
      if g_users g =? 0 then Ret s
      else let s := upd_group (set_users (g_users g - 1)) gid s in
           if g_users g - 1 =? 0 then free s gid else Ret s
  end.
(** supplicant_peer_drop_group, src/wifi/wifid-supplicant.c:628-645. *)
Definition drop_group (free : st -> N -> oc st) (s : st) (pid : N) : oc st :=
  match peer_at s pid with
  | None => Undef
  | Some p =>
      match p_g p with
      | None => Ret s
      | Some gid =>
          match group_at s gid with
          | None => Undef
          | Some g =>
              let* s := if is (g_sp g) pid then Ret s else group_drop free s gid in
              Ret (upd_peer leave pid s)
          end
      end
  end.
(** supplicant_group_free, src/wifi/wifid-supplicant.c:170-229; [fuel] bounds the
    nesting of calls. The peers keep their places in the table meanwhile. *)
Fixpoint group_free (fuel : nat) (s : st) (gid : N) : oc st :=
  match fuel with
  | O => Endless
  | S fuel =>
      match group_at s gid with
      | None => Undef
      | Some _ =>
          let* s := fold_left (fun o p => let* s := o in
              match peer_at s (p_id p) with
              | None => Undef
              | Some p => if is (p_g p) gid then drop_group (group_free fuel) s (p_id p) else Ret s
              end) (s_peers s) (Ret s) in
          match group_at s gid with
          | None => Undef
          | Some _ => Ret (mkSt (filter (fun g => negb (g_id g =? gid)) (s_groups s)) (s_peers s))
          end
      end
  end.
(** Two nested calls are enough; the proofs show that a third is never needed. *)
Definition free_group (s : st) (gid : N) : oc st := group_free 2 s gid.
Definition leave_group (s : st) (pid : N) : oc st := drop_group free_group s pid.

(** The search for a subnet in supplicant_group_new,
    src/wifi/wifid-supplicant.c:526-541; 0 if there is none. *)
Fixpoint find_subnet (n : nat) (subnet : N) (gs : list group) : N :=
  match n with
  | O => 0
  | S n => if existsb (fun j => g_subnet j =? subnet) gs then find_subnet n (subnet + 1) gs else subnet
  end.
(** supplicant_group_new, src/wifi/wifid-supplicant.c:497-585. On errors the group is
    freed before it has peers. *)
Definition group_new (s : st) (id ifn : N) (go ok : bool) : option st :=
  let subnet := if go then find_subnet 206 50 (s_groups s) else 0 in
  if go && (subnet =? 0) then None
  else if ok then Some (mkSt (mkGroup id ifn go subnet 0 None false :: s_groups s) (s_peers s)) else None.
(** supplicant_peer_set_group, src/wifi/wifid-supplicant.c:614-626. *)
Definition set_group (s : st) (pid gid : N) : oc st :=
  match peer_at s pid with
  | None => Undef
  | Some p =>
      if is (p_g p) gid then Ret s
      else let* s := leave_group s pid in
           match group_at s gid with
           | None => Undef
           | Some g => Ret (upd_group (set_users (g_users g + 1)) gid (upd_peer (set_pg (Some gid)) pid s))
           end
  end.
(** supplicant_peer_free, src/wifi/wifid-supplicant.c:677-698. *)
Definition peer_free (s : st) (pid : N) : oc st :=
  let* s := leave_group s pid in
  Ret (mkSt (s_groups s) (filter (fun p => negb (p_id p =? pid)) (s_peers s))).
(** supplicant_event_p2p_group_started, src/wifi/wifid-supplicant.c:1226-1292; [own]
    says if [mac] is the address of the device itself. *)
Definition group_started (s : st) (mac : N) (own : bool) (ifn : N) (go : bool) (id : N) (ok : bool) : oc st :=
  let sp := peer_named s mac in
  match sp, own with
  | None, false => Ret s
  | _, _ =>
      match (match group_named s ifn with
             | Some g => Some (s, g_id g)
             | None => match group_new s id ifn go ok with Some s => Some (s, id) | None => None end
             end) with
      | None => Ret s
      | Some (s, gid) =>
          match sp with
          | None => Ret s
          | Some p =>
              let* s := set_group s (p_id p) gid in
              match group_at s gid with
              | None => Undef
              | Some _ => Ret (upd_group (set_owner (p_id p)) gid s)
              end
          end
      end
  end.
(** supplicant_event_ap_sta_connected, src/wifi/wifid-supplicant.c:1350-1414. *)
Definition sta_connected (s : st) (mac ifn : N) : oc st :=
  match peer_named s mac with
  | None => Ret s
  | Some p =>
      match p_g p with
      | Some _ => Ret s
      | None => match group_named s ifn with None => Ret s | Some g => set_group s (p_id p) (g_id g) end
      end
  end.
(** supplicant_group_comm_fn, src/wifi/wifid-supplicant.c:231-338, for a line from
    the DHCP process. *)
Inductive line := L | G | R (pid : option N) | Other.
Definition comm_line (s : st) (gid : N) (l : line) : oc st :=
  match group_at s gid with
  | None => Undef
  | Some g =>
      let* s := match l with
        | L => Ret (upd_group set_local gid s)
        | G =>
            match g_sp g with
            | None => Ret s
            | Some o => match peer_at s o with None => Undef | Some _ => Ret (upd_peer set_addr o s) end
            end
        | R (Some pid) => Ret (upd_peer set_addr pid s)
        | R None | Other => Ret s
        end in
      match group_at s gid with
      | None => Undef
      | Some g =>
          if g_local g then
            match g_sp g with
            | Some o =>
                match peer_at s o with
                | None => Undef
                | Some p => Ret (if p_addr p then upd_peer set_conn o s else s)
                end
            | None => Ret (mkSt (s_groups s) (map (fun p => if is (p_g p) gid && p_addr p then set_conn p else p) (s_peers s)))
            end
          else Ret s
      end
  end.
(** supplicant_stopped, src/wifi/wifid-supplicant.c:1901-1923. *)
Fixpoint each (f : st -> N -> oc st) (ids : list N) (s : st) : oc st :=
  match ids with [] => Ret s | i :: ids => let* s := f s i in each f ids s end.
Definition free_peers (s : st) : oc st := each peer_free (map p_id (s_peers s)) s.
Definition stopped (s : st) : oc st :=
  let* s := free_peers s in each free_group (map g_id (s_groups s)) s.

(** [PeerNew id mac]: a device is found, its object is at address [id].
    [PeerLost], [StaLeft] and [Disconnect]: supplicant_event_p2p_device_lost,
    src/wifi/wifid-supplicant.c:994-1016, supplicant_event_ap_sta_disconnected,
    src/wifi/wifid-supplicant.c:1416-1447, and supplicant_peer_disconnect,
    src/wifi/wifid-supplicant.c:812-827. [Removed]:
    supplicant_event_p2p_group_removed, src/wifi/wifid-supplicant.c:1294-1317.
    [DhcpExit] and [DhcpLine]: the DHCP process of a group ends (or its connection,
    src/wifi/wifid-supplicant.c:335-337 and 340-352), or sends a line. *)
Inductive event :=
| PeerNew (id mac : N) | PeerLost (mac : N) | GroupStarted (mac : N) (own : bool) (ifn : N) (go : bool) (id : N) (ok : bool)
| Removed (ifn : N) | StaJoined (mac ifn : N) | StaLeft (mac : N) | Disconnect (mac : N)
| DhcpExit (id : N) | DhcpLine (id : N) (l : line) | Stopped.
Definition of_peer (s : st) (mac : N) (f : st -> N -> oc st) : oc st :=
  match peer_named s mac with None => Ret s | Some p => f s (p_id p) end.
(** Events with addresses that malloc cannot return, and events of groups that do
    not exist, have no effect. *)
Definition step (s : st) (e : event) : oc st :=
  match e with
  | PeerNew id mac =>
      match peer_named s mac, peer_at s id with
      | None, None => Ret (mkSt (s_groups s) (mkPeer id mac None false false :: s_peers s))
      | _, _ => Ret s
      end
  | PeerLost mac => of_peer s mac peer_free
  | GroupStarted mac own ifn go id ok =>
      match group_at s id with None => group_started s mac own ifn go id ok | Some _ => Ret s end
  | Removed ifn => match group_named s ifn with None => Ret s | Some g => free_group s (g_id g) end
  | StaJoined mac ifn => sta_connected s mac ifn
  | StaLeft mac | Disconnect mac => of_peer s mac leave_group
  | DhcpExit id => match group_at s id with None => Ret s | Some _ => free_group s id end
  | DhcpLine id l => match group_at s id with None => Ret s | Some _ => comm_line s id l end
  | Stopped => stopped s
  end.
Fixpoint run (s : st) (es : list event) : oc st :=
  match es with [] => Ret s | e :: es => let* s := step s e in run s es end.
