(** Model of how wifid finds the object of a D-Bus path, src/wifi/wifid-dbus.c:32-66, 316-365
    and 722-747, wifid.c:60-83, wifid-link.c:36-55, and of the list of all its paths,
    wifid-dbus.c:826-895. A path under ".../link" or ".../peer" stands for its label:
    sd_bus_path_encode and sd_bus_path_decode are inverse to each other. The hash tables are
    lists in the order in which they are walked. *)
From Verif Require Import Base Text Atoi_Model Comm_Model.
Local Open Scope list_scope.

(** struct peer and struct link, wifid.h: p2p_mac, public; ifindex, public, peer_cnt, peers. *)
Record wpeer := mkWPeer { wp_mac : list byte; wp_public : bool }.
Record wlink := mkWLink { wl_index : N; wl_public : bool; wl_cnt : N; wl_peers : list wpeer }.
(** struct manager: link_cnt and links. *)
Record manager := mkManager { m_cnt : N; m_links : list wlink }.

(** peer_dbus_get_path, wifid-dbus.c:32-48, and link_dbus_get_path, 50-66: the label; the
    array has 128 bytes. *)
Definition link_label (l : wlink) : res (list byte) := let t := dec (wl_index l) in if lenN t + 1 <=? 128 then Ok t else UB.
Definition peer_label (l : wlink) (p : wpeer) : res (list byte) :=
  let t := wp_mac p ++ 64 :: dec (wl_index l) in if lenN t + 1 <=? 128 then Ok t else UB.

(** manager_find_link, wifid.c:60-70. *)
Definition find_index (ls : list wlink) (i : N) : option wlink := find (fun l => wl_index l =? i) ls.
(** manager_find_link_by_label, wifid.c:72-83. *)
Definition link_by_label (ls : list wlink) (t : list byte) : option wlink :=
  let a := atoi_un t 10 in
  match ret a with Success => if next a =? lenN t then find_index ls (value a) else None | _ => None end.
(** link_find_peer, wifid-link.c:36-46. *)
Definition find_mac (ps : list wpeer) (mac : list byte) : option wpeer := find (fun p => str_eq (wp_mac p) mac) ps.
(** link_find_peer_by_label, wifid-link.c:48-55. *)
Definition peer_by_label (l : wlink) (t : list byte) : res (option wpeer) := do mac <- reformat_mac t; Ok (find_mac (wl_peers l) mac).

(** link_dbus_find, wifid-dbus.c:722-747; [None]: there is no such object. *)
Definition link_dbus_find (m : manager) (t : list byte) : option wlink :=
  match link_by_label (m_links m) t with Some l => if wl_public l then Some l else None | None => None end.
(** The loop of lines 349-358: the first link that knows the address. *)
Fixpoint any_link (ls : list wlink) (t : list byte) : res (option (wlink * wpeer)) :=
  match ls with
  | [] => Ok None
  | l :: ls =>
      if wl_public l then
        do p <- peer_by_label l t;
        match p with Some p => Ok (Some (l, p)) | None => any_link ls t end
      else any_link ls t
  end.
Definition if_public (r : option (wlink * wpeer)) : option (wlink * wpeer) :=
  match r with Some (l, p) => if wp_public p then Some (l, p) else None | None => None end.
(** peer_dbus_find, wifid-dbus.c:316-365. *)
Definition peer_dbus_find (m : manager) (t : list byte) : res (option (wlink * wpeer)) :=
  match break_at 64 t with
  | (a, Some (_ :: b)) =>
      match link_by_label (m_links m) b with
      | None => Ok None
      | Some l =>
          if wl_public l then
            do p <- peer_by_label l a;
            Ok (if_public (option_map (fun p => (l, p)) p))
          else Ok None
      end
  | (_, _) => do r <- any_link (m_links m) t; Ok (if_public r)
  end.

(** ** The list of paths *)
Inductive node := LinkNode (t : list byte) | PeerNode (t : list byte) | Root.
(** What can fail: malloc, making the path of an object, strdup. *)
Record luck := mkLuck { k_malloc : bool; k_path : node -> bool; k_strdup : bool }.
(** nodes[i++] = node in an array of [size] places. *)
Definition put (size : N) (out : list node) (x : node) : res (list node) := if lenN out <? size then Ok (out ++ [x]) else UB.
(** If the path of an object cannot be made then r is returned, which has no value yet. *)
Definition made (k : luck) (x : node) : res node := if k_path k x then Ok x else UB.
(** LINK_FOREACH_PEER, lines 864-878; [total]: link_cnt + peer_cnt. *)
Fixpoint list_peers (k : luck) (size total : N) (l : wlink) (ps : list wpeer) (out : list node) : res (list node) :=
  match ps with
  | [] => Ok out
  | p :: ps =>
      if total <=? lenN out then list_peers k size total l ps out
      else if wp_public p then
        do t <- peer_label l p;
        do x <- made k (PeerNode t);
        do out <- put size out x;
        list_peers k size total l ps out
      else list_peers k size total l ps out
  end.
(** MANAGER_FOREACH_LINK, lines 848-879. *)
Fixpoint list_links (k : luck) (size total : N) (ls : list wlink) (out : list node) : res (list node) :=
  match ls with
  | [] => Ok out
  | l :: ls =>
      if total <=? lenN out then list_links k size total ls out
      else if wl_public l then
        do t <- link_label l;
        do x <- made k (LinkNode t);
        do out <- put size out x;
        do out <- list_peers k size total l (wl_peers l) out;
        list_links k size total ls out
      else list_links k size total ls out
  end.
Inductive answer_ := Nodes (l : list node) | Enomem.
Definition total_of (m : manager) : N := m_cnt m + fold_right (fun l n => (if wl_public l then wl_cnt l else 0) + n) 0 (m_links m).
(** manager_dbus_enumerate, wifid-dbus.c:826-895; size_t does not overflow. The last place is
    for the terminator. *)
Definition enumerate (k : luck) (m : manager) : res answer_ :=
  let total := total_of m in
  let size := total + 2 in
  if k_malloc k then
    do out <- list_links k size total (m_links m) [];
    if k_strdup k then
      do out <- put size out Root;
      if lenN out <? size then Ok (Nodes out) else UB
    else Ok Enomem
  else Ok Enomem.
