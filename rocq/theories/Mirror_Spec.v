(** What is expected of the picture the control programs have of wifid. *)
From Coq Require Import String Permutation.
From Verif Require Import Base Text Comm_Spec Mirror_Model.

(** What can be seen of a link and of a peer. *)
Record lview := mkLView { v_index : N; v_ifname : list byte; v_name : list byte; v_managed : bool; v_scan : bool; v_wfd : list byte }.
Record pview := mkPView { w_mac : list byte; w_name : list byte; w_conn : bool; w_iface : list byte; w_local : list byte; w_remote : list byte; w_wfd : list byte }.

(** What the daemon would show now. *)
Definition d_link (d : daemon) (i : N) : option lview :=
  match find_l d i with
  | Some l => Some (mkLView (dl_index l) (dl_ifname l) (or_empty (dl_name l)) (dl_managed l) (scanning l) (or_empty (dl_wfd l)))
  | None => None
  end.
Definition d_peer (d : daemon) (i : N) (mac : list byte) : option pview :=
  match find_l d i with
  | Some l =>
      match find_p (dl_peers l) mac with
      | Some p => if dp_public p then Some (mkPView (dp_mac p) (shown_name p) (dp_conn p) (shown p (dp_group p)) (shown p (dp_local p)) (shown p (dp_remote p)) (or_empty (dp_wfd p))) else None
      | None => None
      end
  | None => None
  end.
(** What the program has. *)
Definition see_link (l : clink) : lview := mkLView (cl_index l) (or_empty (cl_ifname l)) (or_empty (cl_name l)) (cl_managed l) (cl_scan l) (or_empty (cl_wfd l)).
Definition see_peer (p : cpeer) : pview :=
  mkPView (or_empty (cp_mac p)) (or_empty (cp_name p)) (cp_conn p) (or_empty (cp_iface p)) (or_empty (cp_local p)) (or_empty (cp_remote p)) (or_empty (cp_wfd p)).
Definition c_link (c : client) (i : N) : option lview := option_map see_link (find_link c (link_label i)).
Definition c_peer (c : client) (i : N) (mac : list byte) : option pview := option_map see_peer (find_peer c (peer_label i mac)).

Definition is_canon (mac : list byte) : Prop := exists m, is_mac m /\ mac = canon m.
(** The picture is right; [m]: with Managed, [s]: with P2PScanning, [a]: with the interface
    and the addresses. *)
Definition same_link (m s : bool) (v w : lview) : Prop :=
  v_index v = v_index w /\ v_ifname v = v_ifname w /\ v_name v = v_name w /\ v_wfd v = v_wfd w
  /\ (m = true -> v_managed v = v_managed w) /\ (s = true -> v_scan v = v_scan w).
Definition same_peer (a : bool) (v w : pview) : Prop :=
  w_mac v = w_mac w /\ w_name v = w_name w /\ w_conn v = w_conn w /\ w_wfd v = w_wfd w
  /\ (a = true -> w_iface v = w_iface w /\ w_local v = w_local w /\ w_remote v = w_remote w).
Definition both {A} (R : A -> A -> Prop) (x y : option A) : Prop :=
  match x, y with Some x, Some y => R x y | None, None => True | _, _ => False end.
Definition right (m s a : bool) (c : client) (d : daemon) : Prop :=
  (forall i, both (same_link m s) (c_link c i) (d_link d i)) /\ (forall i mac, is_canon mac -> both (same_peer a) (c_peer c i mac) (d_peer d i mac)).

(** MAC addresses are canonical, see C124. *)
Definition good_op (o : op) : Prop :=
  match o with Found _ mac _ _ | Lost _ mac | Group _ mac _ | Addr _ mac _ _ | Conn _ mac | Disc _ mac => is_canon mac | _ => True end.
(** Changes nobody is told of: of Managed unless this program asked for it; the end of
    wpa_supplicant while scanning; other addresses for a peer that is connected. *)
Definition calm (m s a : bool) (d : daemon) (o : op) : Prop :=
  match find_l d (index_of o) with
  | None => True
  | Some l =>
      match o with
      | SetManaged _ b ok mine => (m = true -> dl_managed l = b \/ mine = true \/ b = true /\ ok = false) /\ (s = true -> b = false -> scanning l = false)
      | Failed _ => s = true -> scanning l = false
      | Addr _ mac loc rem => a = true -> forall p, find_p (dl_peers l) mac = Some p -> dp_conn p = true -> dp_local p = loc /\ dp_remote p = rem
      | _ => True
      end
  end.
Fixpoint calm_all (m s a : bool) (d : daemon) (os : list op) : Prop :=
  match os with [] => True | o :: os => good_op o /\ calm m s a d o /\ calm_all m s a (fst (step d o)) os end.

(** Any order in which each link comes before its peers. *)
Definition links_first (os : list (path * list prop)) : Prop :=
  forall y x z i mac, os = (y ++ (PeerPath (peer_label i mac), x) :: z)%list -> is_canon mac -> In (LinkPath (link_label i)) (map fst y).
(** What goes: a peer that is not connected, a link without peers. *)
Definition leave (c : client) (s : signal) : Prop :=
  match s with
  | Removed (LinkPath t) => forall i, t = link_label i -> forall mac, is_canon mac -> c_peer c i mac = None
  | Removed (PeerPath t) => forall i mac, is_canon mac -> t = peer_label i mac -> match c_peer c i mac with Some v => w_conn v = false | None => True end
  | _ => True
  end.
Fixpoint leaves (c : client) (ss : list signal) : Prop := match ss with [] => True | s :: ss => leave c s /\ leaves (fst (hear c s)) ss end.
(** wifid after some events. *)
Definition daemon_after (os : list op) : daemon := fst (run [] os).
