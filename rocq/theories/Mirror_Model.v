(** Model of the objects wifid shows on D-Bus, src/wifi/wifid-dbus.c:31-65, 109-340,
    456-492, 497-660 and 690-900, with the parts of wifid-link.c:56-134, 206-330, 350-410,
    wifid-peer.c:36-100 and 152-227 and wifid-supplicant.c:614-704, 850-932, 1530-1548,
    1864-1923 that change what is shown or tell it, and of the picture the control programs
    make of it, src/ctl/ctl-wifi.c:35-248, 305-523, 681, 747-962, 1153-1217 and 1249-1293.
    Texts are lists of characters. A path stands for its label: sd_bus_path_encode and
    decode are inverse to each other. Memory can be allocated; signals arrive in order. *)
From Coq Require Import String.
From Verif Require Import Base Text.

Inductive prop :=
| Index (n : N) | IfName (t : list byte) | Name (t : list byte) | Managed (b : bool) | Scanning (b : bool) | Wfd (t : list byte)
| Mac (t : list byte) | Connected (b : bool) | Iface (t : list byte) | Local (t : list byte) | Remote (t : list byte).
Inductive path := LinkPath (label : list byte) | PeerPath (label : list byte) | OtherPath.
(** [Done]: the answer to a change of Managed this program asked for. *)
Inductive signal := Added (p : path) (ps : list prop) | Removed (p : path) | Changed (p : path) (ps : list prop) | Done (label : list byte) (b : bool).

(** ** The daemon *)
(** A peer: p2p_mac; public; connected; friendly_name; wfd_subelements; the interface and
    local address of its group if it is in one; remote_addr. *)
Record dpeer := mkDPeer { dp_mac : list byte; dp_public : bool; dp_conn : bool; dp_name : option (list byte); dp_wfd : option (list byte);
  dp_group : option (list byte); dp_local : option (list byte); dp_remote : option (list byte) }.
(** A link with its supplicant: managed; running; has_p2p; p2p_scanning. All are public. *)
Record dlink := mkDLink { dl_index : N; dl_ifname : list byte; dl_name : option (list byte); dl_wfd : option (list byte);
  dl_managed : bool; dl_run : bool; dl_p2p : bool; dl_scan : bool; dl_peers : list dpeer }.
Definition daemon := list dlink.

Definition or_empty (o : option (list byte)) : list byte := match o with Some t => t | None => [] end.
(** link_get_p2p_scanning, wifid-link.c:365-377. *)
Definition scanning (l : dlink) : bool := dl_managed l && (dl_run l && dl_p2p l && dl_scan l).
Definition link_props (l : dlink) : list prop :=
  [Index (dl_index l); IfName (dl_ifname l); Name (or_empty (dl_name l)); Managed (dl_managed l); Scanning (scanning l); Wfd (or_empty (dl_wfd l))].
(** Getters of wifid-peer.c:109-147 and wifid-supplicant.c:706-741. *)
Definition shown (p : dpeer) (o : option (list byte)) : list byte := if dp_conn p then match dp_group p with Some _ => or_empty o | None => [] end else [].
Definition conn_props (p : dpeer) : list prop := [Connected (dp_conn p); Iface (shown p (dp_group p)); Local (shown p (dp_local p)); Remote (shown p (dp_remote p))].
Definition shown_name (p : dpeer) : list byte := match dp_name p with Some t => t | None => text "<unknown>" end.
Definition peer_props (p : dpeer) : list prop := [Mac (dp_mac p); Name (shown_name p)] ++ conn_props p ++ [Wfd (or_empty (dp_wfd p))].
Definition link_label (i : N) : list byte := dec i.
Definition peer_label (i : N) (mac : list byte) : list byte := mac ++ 64 :: dec i.

Definition eq_text (a b : list byte) : bool := if list_eq_dec N.eq_dec a b then true else false.
Fixpoint find_l (d : daemon) (i : N) : option dlink :=
  match d with [] => None | l :: d => if dl_index l =? i then Some l else find_l d i end.
Fixpoint find_p (ps : list dpeer) (mac : list byte) : option dpeer :=
  match ps with [] => None | p :: ps => if eq_text (dp_mac p) mac then Some p else find_p ps mac end.
Definition put_l (l : dlink) (d : daemon) : daemon := map (fun x => if dl_index x =? dl_index l then l else x) d.
Definition put_p (p : dpeer) (ps : list dpeer) : list dpeer := map (fun x => if eq_text (dp_mac x) (dp_mac p) then p else x) ps.
Definition with_peers (ps : list dpeer) (l : dlink) : dlink :=
  mkDLink (dl_index l) (dl_ifname l) (dl_name l) (dl_wfd l) (dl_managed l) (dl_run l) (dl_p2p l) (dl_scan l) ps.
Definition with_state (m r p s : bool) (l : dlink) : dlink :=
  mkDLink (dl_index l) (dl_ifname l) (dl_name l) (dl_wfd l) m r p s (dl_peers l).
Definition tell_peer (i : N) (p : dpeer) (ps : list prop) : list signal := if dp_public p then [Changed (PeerPath (peer_label i (dp_mac p))) ps] else [].
(** peer_supplicant_connected_changed, wifid-peer.c:216-227. *)
Definition connected_changed (i : N) (p : dpeer) (b : bool) : dpeer * list signal :=
  if Bool.eqb (dp_conn p) b then (p, [])
  else let p := mkDPeer (dp_mac p) (dp_public p) b (dp_name p) (dp_wfd p) (dp_group p) (dp_local p) (dp_remote p) in (p, tell_peer i p (conn_props p)).
(** supplicant_peer_drop_group, wifid-supplicant.c:628-645. *)
Definition drop_group (i : N) (p : dpeer) : dpeer * list signal :=
  match dp_group p with
  | None => (p, [])
  | Some _ => connected_changed i (mkDPeer (dp_mac p) (dp_public p) (dp_conn p) (dp_name p) (dp_wfd p) None None None) false
  end.
(** peer_supplicant_started, wifid-peer.c:152-160. *)
Definition start_peer (i : N) (p : dpeer) : dpeer * list signal :=
  if dp_public p then (p, [])
  else let p := mkDPeer (dp_mac p) true (dp_conn p) (dp_name p) (dp_wfd p) (dp_group p) (dp_local p) (dp_remote p) in
       (p, [Added (PeerPath (peer_label i (dp_mac p))) (peer_props p)]).
Fixpoint start_peers (i : N) (ps : list dpeer) : list dpeer * list signal :=
  match ps with
  | [] => ([], [])
  | p :: ps => let '(p, s) := start_peer i p in let '(ps, t) := start_peers i ps in (p :: ps, s ++ t)
  end.
(** supplicant_peer_free, wifid-supplicant.c:677-698: what is told; the peer is gone. *)
Definition free_peer (i : N) (p : dpeer) : list signal :=
  let '(p, s) := drop_group i p in s ++ if dp_public p then [Removed (PeerPath (peer_label i (dp_mac p)))] else [].
(** supplicant_stopped, wifid-supplicant.c:1901-1923. *)
Definition stopped (l : dlink) : dlink * list signal :=
  (with_peers [] (with_state (dl_managed l) false (dl_p2p l) (dl_scan l) l), flat_map (free_peer (dl_index l)) (dl_peers l)).

(** What happens in the daemon. [ok]: what is asked of wpa_supplicant succeeds; [mine]: this
    program asked for it. *)
Inductive op :=
| LinkNew (i : N) (ifname : list byte) | LinkFree (i : N) | Rename (i : N) (ifname : list byte)
| SetName (i : N) (t : list byte) (ok : bool) | SetWfd (i : N) (t : list byte) (ok : bool) | SetManaged (i : N) (b ok mine : bool)
| Started (i : N) | Ready (i : N) (p2p : bool) | Failed (i : N) | Scan (i : N) (b : bool)
| Found (i : N) (mac : list byte) (name wfd : option (list byte)) | Lost (i : N) (mac : list byte)
| Group (i : N) (mac ifname : list byte) | Addr (i : N) (mac : list byte) (loc rem : option (list byte)) | Conn (i : N) (mac : list byte) | Disc (i : N) (mac : list byte).
Definition index_of (o : op) : N :=
  match o with
  | LinkNew i _ | LinkFree i | Rename i _ | SetName i _ _ | SetWfd i _ _ | SetManaged i _ _ _ | Started i | Ready i _ | Failed i | Scan i _
  | Found i _ _ _ | Lost i _ | Group i _ _ | Addr i _ _ _ | Conn i _ | Disc i _ => i
  end.
Definition tell_link (l : dlink) (ps : list prop) : list signal := [Changed (LinkPath (link_label (dl_index l))) ps].
(** Change a peer of the link, if it is there. *)
Definition on_peer (l : dlink) (mac : list byte) (f : dpeer -> dpeer * list signal) : dlink * list signal :=
  match find_p (dl_peers l) mac with
  | None => (l, [])
  | Some p => let '(p, s) := f p in (with_peers (put_p p (dl_peers l)) l, s)
  end.
Definition new_value (o v : option (list byte)) : option (list byte) := match v with Some t => Some t | None => o end.
Definition same_group (o : option (list byte)) (t : list byte) : bool := match o with Some g => eq_text g t | None => false end.
(** What a link that exists does, [LinkNew] and [LinkFree] apart. wpa_supplicant runs only while
    the link is managed. *)
Definition do_link (l : dlink) (o : op) : dlink * list signal :=
  let i := dl_index l in
  match o with
  | LinkNew _ _ | LinkFree _ => (l, [])
  | Rename _ t =>
      if eq_text (dl_ifname l) t then (l, [])
      else let l := mkDLink i t (dl_name l) (dl_wfd l) (dl_managed l) (dl_run l) (dl_p2p l) (dl_scan l) (dl_peers l) in (l, tell_link l [IfName t])
  | SetName _ t ok =>
      match t with
      | [] => (l, [])
      | _ => if dl_run l && negb ok then (l, [])
             else let l := mkDLink i (dl_ifname l) (Some t) (dl_wfd l) (dl_managed l) (dl_run l) (dl_p2p l) (dl_scan l) (dl_peers l) in (l, tell_link l [Name t])
      end
  | SetWfd _ t ok =>
      if negb (dl_managed l) || (dl_run l && negb ok) then (l, [])
      else let l := mkDLink i (dl_ifname l) (dl_name l) (Some t) (dl_managed l) (dl_run l) (dl_p2p l) (dl_scan l) (dl_peers l) in (l, tell_link l [Wfd t])
  | SetManaged _ b ok mine =>
      let '(l, s, done) :=
        if Bool.eqb (dl_managed l) b then (l, [], true)
        else if b then if ok then (with_state true (dl_run l) (dl_p2p l) (dl_scan l) l, [], true) else (l, [], false)
        else let '(l, s) := stopped l in (with_state false (dl_run l) (dl_p2p l) (dl_scan l) l, s, true) in
      (l, s ++ if done && mine then [Done (link_label i) b] else [])
  | Started _ => if dl_run l || negb (dl_managed l) then (l, []) else (with_state (dl_managed l) (dl_run l) (dl_p2p l) false l, [])
  | Ready _ p2p =>
      if dl_run l || negb (dl_managed l) then (l, [])
      else let '(ps, s) := start_peers i (dl_peers l) in (with_peers ps (with_state (dl_managed l) true p2p (dl_scan l) l), s)
  | Failed _ => stopped l
  | Scan _ b =>
      if Bool.eqb (dl_scan l) b || (b && negb (dl_run l && dl_p2p l)) then (l, [])
      else let l := with_state (dl_managed l) (dl_run l) (dl_p2p l) b l in (l, tell_link l [Scanning (scanning l)])
  | Found _ mac name wfd =>
      if negb (dl_managed l) then (l, []) else
      let ps := match find_p (dl_peers l) mac with Some _ => dl_peers l | None => dl_peers l ++ [mkDPeer mac false false None None None None None] end in
      on_peer (with_peers ps l) mac (fun p =>
        let p := mkDPeer (dp_mac p) (dp_public p) (dp_conn p) (new_value (dp_name p) name) (dp_wfd p) (dp_group p) (dp_local p) (dp_remote p) in
        let s1 := match name with Some _ => tell_peer i p [Name (shown_name p)] | None => [] end in
        let p := mkDPeer (dp_mac p) (dp_public p) (dp_conn p) (dp_name p) (new_value (dp_wfd p) wfd) (dp_group p) (dp_local p) (dp_remote p) in
        let s2 := match wfd with Some _ => tell_peer i p [Wfd (or_empty (dp_wfd p))] | None => [] end in
        let '(p, s3) := if dl_run l then start_peer i p else (p, []) in (p, s1 ++ s2 ++ s3))
  | Lost _ mac =>
      match find_p (dl_peers l) mac with
      | None => (l, [])
      | Some p => (with_peers (filter (fun q => negb (eq_text (dp_mac q) mac)) (dl_peers l)) l, free_peer i p)
      end
  | Group _ mac t => on_peer l mac (fun p =>
      if same_group (dp_group p) t then (p, [])
      else let '(p, s) := drop_group i p in (mkDPeer (dp_mac p) (dp_public p) (dp_conn p) (dp_name p) (dp_wfd p) (Some t) (dp_local p) (dp_remote p), s))
  | Addr _ mac a r => on_peer l mac (fun p => (mkDPeer (dp_mac p) (dp_public p) (dp_conn p) (dp_name p) (dp_wfd p) (dp_group p) a r, []))
  | Conn _ mac => on_peer l mac (fun p => match dp_group p with Some _ => connected_changed i p true | None => (p, []) end)
  | Disc _ mac => on_peer l mac (fun p => let '(p, s) := connected_changed i p false in let '(p, t) := drop_group i p in (p, s ++ t))
  end.
Definition step (d : daemon) (o : op) : daemon * list signal :=
  let i := index_of o in
  match o, find_l d i with
  | LinkNew _ t, None =>
      let l := mkDLink i t None None false false false false [] in
      if i =? 0 then (d, []) else (d ++ [l], [Added (LinkPath (link_label i)) (link_props l)])
  | LinkFree _, Some l =>
      let s := if dl_managed l then snd (stopped l) else [] in
      (filter (fun x => negb (dl_index x =? i)) d, s ++ [Removed (LinkPath (link_label i))])
  | _, Some l => let '(l, s) := do_link l o in (put_l l d, s)
  | _, None => (d, [])
  end.
Fixpoint run (d : daemon) (os : list op) : daemon * list signal :=
  match os with [] => (d, []) | o :: os => let '(d, s) := step d o in let '(d, t) := run d os in (d, s ++ t) end.
(** What GetManagedObjects answers, in one order. *)
Definition objects (d : daemon) : list (path * list prop) :=
  flat_map (fun l => (LinkPath (link_label (dl_index l)), link_props l)
    :: flat_map (fun p => if dp_public p then [(PeerPath (peer_label (dl_index l) (dp_mac p)), peer_props p)] else []) (dl_peers l)) d ++ [(OtherPath, [])].

(** ** The control programs *)
Record cpeer := mkCPeer { cp_label : list byte; cp_mac : option (list byte); cp_name : option (list byte); cp_conn : bool;
  cp_iface : option (list byte); cp_local : option (list byte); cp_remote : option (list byte); cp_wfd : option (list byte) }.
Record clink := mkCLink { cl_label : list byte; cl_index : N; cl_ifname : option (list byte); cl_name : option (list byte);
  cl_managed : bool; cl_scan : bool; cl_wfd : option (list byte); cl_peers : list cpeer }.
Definition client := list clink.
(** What is told to the program. *)
Inductive note := PeerNew (l : list byte) | PeerFree (l : list byte) | PeerOn (l : list byte) | PeerOff (l : list byte) | LinkOn (l : list byte) | LinkOff (l : list byte).

(** ctl_wifi_find_link, ctl-wifi.c:1201-1217. *)
Fixpoint find_link (c : client) (label : list byte) : option clink :=
  match label with
  | [] => None
  | _ => match c with [] => None | l :: c => if case_eq (cl_label l) label then Some l else find_link c label end
  end.
Fixpoint link_peer (ps : list cpeer) (label : list byte) : option cpeer :=
  match ps with [] => None | p :: ps => if case_eq (cp_label p) label then Some p else link_peer ps label end.
(** ctl_wifi_find_link_by_peer, ctl-wifi.c:1249-1262. *)
Definition link_of (c : client) (label : list byte) : option clink :=
  match snd (break_at 64 label) with Some (_ :: rest) => find_link c rest | _ => None end.
(** ctl_wifi_find_peer, ctl-wifi.c:1279-1293. *)
Definition find_peer (c : client) (label : list byte) : option cpeer :=
  match link_of c label with Some l => link_peer (cl_peers l) label | None => None end.
(** ctl_link_parse_properties, ctl-wifi.c:408-523. *)
Definition link_prop (l : clink) (p : prop) : clink :=
  match p with
  | Index n => if n =? 0 then l else mkCLink (cl_label l) n (cl_ifname l) (cl_name l) (cl_managed l) (cl_scan l) (cl_wfd l) (cl_peers l)
  | IfName t => mkCLink (cl_label l) (cl_index l) (Some t) (cl_name l) (cl_managed l) (cl_scan l) (cl_wfd l) (cl_peers l)
  | Name t => mkCLink (cl_label l) (cl_index l) (cl_ifname l) (Some t) (cl_managed l) (cl_scan l) (cl_wfd l) (cl_peers l)
  | Managed b => mkCLink (cl_label l) (cl_index l) (cl_ifname l) (cl_name l) b (cl_scan l) (cl_wfd l) (cl_peers l)
  | Scanning b => mkCLink (cl_label l) (cl_index l) (cl_ifname l) (cl_name l) (cl_managed l) b (cl_wfd l) (cl_peers l)
  | Wfd t => mkCLink (cl_label l) (cl_index l) (cl_ifname l) (cl_name l) (cl_managed l) (cl_scan l) (Some t) (cl_peers l)
  | _ => l
  end.
Definition link_parse (l : clink) (ps : list prop) : clink := fold_left link_prop ps l.
(** ctl_peer_parse_properties, ctl-wifi.c:101-248: Connected is compared last. *)
Definition peer_prop (p : cpeer) (x : prop) : cpeer :=
  match x with
  | Mac t => mkCPeer (cp_label p) (Some t) (cp_name p) (cp_conn p) (cp_iface p) (cp_local p) (cp_remote p) (cp_wfd p)
  | Name t => mkCPeer (cp_label p) (cp_mac p) (Some t) (cp_conn p) (cp_iface p) (cp_local p) (cp_remote p) (cp_wfd p)
  | Connected b => mkCPeer (cp_label p) (cp_mac p) (cp_name p) b (cp_iface p) (cp_local p) (cp_remote p) (cp_wfd p)
  | Iface t => mkCPeer (cp_label p) (cp_mac p) (cp_name p) (cp_conn p) (Some t) (cp_local p) (cp_remote p) (cp_wfd p)
  | Local t => mkCPeer (cp_label p) (cp_mac p) (cp_name p) (cp_conn p) (cp_iface p) (Some t) (cp_remote p) (cp_wfd p)
  | Remote t => mkCPeer (cp_label p) (cp_mac p) (cp_name p) (cp_conn p) (cp_iface p) (cp_local p) (Some t) (cp_wfd p)
  | Wfd t => mkCPeer (cp_label p) (cp_mac p) (cp_name p) (cp_conn p) (cp_iface p) (cp_local p) (cp_remote p) (Some t)
  | _ => p
  end.
Definition peer_parse (p : cpeer) (ps : list prop) : cpeer * list note :=
  let q := fold_left peer_prop ps p in
  (q, if Bool.eqb (cp_conn p) (cp_conn q) then [] else if cp_conn q then [PeerOn (cp_label p)] else [PeerOff (cp_label p)]).
Definition c_peers (ps : list cpeer) (l : clink) : clink := mkCLink (cl_label l) (cl_index l) (cl_ifname l) (cl_name l) (cl_managed l) (cl_scan l) (cl_wfd l) ps.
(** Change the link of that label. *)
Definition c_put (l : clink) (c : client) : client := map (fun x => if case_eq (cl_label x) (cl_label l) then l else x) c.
Definition c_put_p (p : cpeer) (ps : list cpeer) : list cpeer := map (fun x => if case_eq (cp_label x) (cp_label p) then p else x) ps.
Definition new_link (label : list byte) : clink := mkCLink label 0 None None false false None [].
Definition new_peer (label : list byte) : cpeer := mkCPeer label None None false None None None None.
(** ctl_link_free, ctl-wifi.c:321-341. *)
Definition free_link (l : clink) : list note := map (fun p => PeerFree (cp_label p)) (rev (cl_peers l)) ++ [LinkOff (cl_label l)].
(** ctl_wifi_parse_object, ctl-wifi.c:866-922, for an object that was added; [None]: an error,
    the message was not read to its end. *)
Definition add_object (c : client) (p : path) (ps : list prop) : client * list note * bool :=
  match p with
  | LinkPath label =>
      match find_link c label with
      | Some _ => (c, [], true)
      | None => (c ++ [link_parse (new_link label) ps], [LinkOn label], true)
      end
  | PeerPath label =>
      match find_peer c label with
      | Some _ => (c, [], true)
      | None =>
          match link_of c label with
          | None => (c, [], false)
          | Some l => let '(q, n) := peer_parse (new_peer label) ps in (c_put (c_peers (cl_peers l ++ [q]) l) c, n ++ [PeerNew label], true)
          end
      end
  | OtherPath => (c, [], true)
  end.
Definition remove_object (c : client) (p : path) : client * list note :=
  match p with
  | LinkPath label =>
      match find_link c label with
      | Some l => (filter (fun x => negb (case_eq (cl_label x) label)) c, free_link l)
      | None => (c, [])
      end
  | PeerPath label =>
      match find_peer c label, link_of c label with
      | Some q, Some l => (c_put (c_peers (filter (fun x => negb (case_eq (cp_label x) label)) (cl_peers l)) l) c, [PeerFree (cp_label q)])
      | _, _ => (c, [])
      end
  | OtherPath => (c, [])
  end.
(** ctl_wifi_properties_fn, ctl-wifi.c:937-988. *)
Definition change_object (c : client) (p : path) (ps : list prop) : client * list note :=
  match p with
  | LinkPath label => match find_link c label with Some l => (c_put (link_parse l ps) c, []) | None => (c, []) end
  | PeerPath label =>
      match find_peer c label, link_of c label with
      | Some q, Some l => let '(q, n) := peer_parse q ps in (c_put (c_peers (c_put_p q (cl_peers l)) l) c, n)
      | _, _ => (c, [])
      end
  | OtherPath => (c, [])
  end.
Definition hear (c : client) (s : signal) : client * list note :=
  match s with
  | Added p ps => let '(c, n, _) := add_object c p ps in (c, n)
  | Removed p => remove_object c p
  | Changed p ps => change_object c p ps
  | Done label b => match find_link c label with Some l => (c_put (link_prop l (Managed b)) c, []) | None => (c, []) end
  end.
Fixpoint hear_all (c : client) (ss : list signal) : client * list note :=
  match ss with [] => (c, []) | s :: ss => let '(c, n) := hear c s in let '(c, m) := hear_all c ss in (c, n ++ m) end.
(** ctl_wifi_fetch, ctl-wifi.c:1153-1199; [None]: an error. An object that is not read leaves
    its container open. *)
Fixpoint fetch (c : client) (os : list (path * list prop)) : option client :=
  match os with
  | [] => Some c
  | (p, ps) :: os => let '(c, _, ok) := add_object c p ps in if ok then fetch c os else None
  end.
