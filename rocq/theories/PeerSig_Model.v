(** Model of the signals of peers: peer_supplicant_provision_discovery, _go_neg_request and
    _formation_failure, src/wifi/wifid-peer.c:194-222, with peer_dbus_*, wifid-dbus.c:32-48 and
    387-454; ctl_wifi_peer_fn, src/ctl/ctl-wifi.c:1006-1069; what is printed for them,
    wifictl.c:442-460, sinkctl.c:648-669 and 687-694. wifid and the control programs are those
    of Mirror_Model. Signals arrive in the order in which they were sent; memory can be
    allocated. What sinkctl does besides printing is in SinkCtl_Model. *)
From Coq Require Import String.
From Verif Require Import Base Text Mirror_Model.
Local Open Scope list_scope.

(** What a message carries, read as texts; [None]: a value of another type. *)
Record msg := mkMsg { g_path : path; g_iface : list byte; g_member : list byte; g_args : list (option (list byte)) }.
Inductive kind := Prov | GoNeg | Fail.
Definition peer_iface : list byte := text "org.freedesktop.miracle.wifi.Peer".

(** ** wifid *)
(** sd_bus_emit_signal on the path of the peer. *)
Definition emit (i : N) (p : dpeer) (member : list byte) (args : list (list byte)) : list msg :=
  [mkMsg (PeerPath (peer_label i (dp_mac p))) peer_iface member (map Some args)].
(** peer_dbus_provision_discovery, 387-411, and peer_dbus_go_neg_request, 413-436. *)
Definition dbus_asked (member : list byte) (i : N) (p : dpeer) (type pin : option (list byte)) : list msg :=
  match type with
  | None => []
  | Some t => emit i p member [t; match pin with Some n => n | None => [] end]
  end.
(** peer_dbus_formation_failure, 438-454. *)
Definition dbus_failure (i : N) (p : dpeer) (reason : list byte) : list msg := emit i p (text "FormationFailure") [reason].
(** peer_supplicant_*. *)
Definition provision_discovery (i : N) (p : dpeer) (type pin : option (list byte)) : list msg :=
  if dp_public p then dbus_asked (text "ProvisionDiscovery") i p type pin else [].
Definition go_neg_request (i : N) (p : dpeer) (type pin : option (list byte)) : list msg :=
  if dp_public p then dbus_asked (text "GoNegRequest") i p type pin else [].
Definition formation_failure (i : N) (p : dpeer) (reason : list byte) : list msg := if dp_public p then dbus_failure i p reason else [].

(** ** The control programs *)
(** The callback with its peer and texts; nothing; an error that is logged. *)
Inductive heard := Call (k : kind) (q : cpeer) (args : list (list byte)) | Ignored | Bad.
(** sd_bus_message_read of [n] texts. *)
Fixpoint read_texts (n : nat) (l : list (option (list byte))) : option (list (list byte)) :=
  match n, l with
  | O, _ => Some []
  | S n, Some t :: l => match read_texts n l with Some r => Some (t :: r) | None => None end
  | S _, _ => None
  end.
Definition is_signal (m : msg) (member : list byte) : bool := eq_text (g_iface m) peer_iface && eq_text (g_member m) member.
Definition call (k : kind) (n : nat) (q : cpeer) (m : msg) : heard := match read_texts n (g_args m) with Some l => Call k q l | None => Bad end.
(** ctl_wifi_peer_fn. *)
Definition peer_fn (c : client) (m : msg) : heard :=
  match g_path m with
  | PeerPath t =>
      match find_peer c t with
      | None => Ignored
      | Some q =>
          if is_signal m (text "ProvisionDiscovery") then call Prov 2 q m
          else if is_signal m (text "GoNegRequest") then call GoNeg 2 q m
          else if is_signal m (text "FormationFailure") then call Fail 1 q m
          else Ignored
      end
  | _ => Ignored
  end.

(** ** What is printed *)
Definition yellow (t : list byte) : list byte := (91 :: 27 :: text "[0;93m") ++ t ++ (27 :: text "[0m]").
Definition line (h : heard) : list byte :=
  match h with
  | Call Prov q [prov; pin] => yellow (text "PROV") ++ text " Peer: " ++ cp_label q ++ text " Type: " ++ prov ++ text " PIN: " ++ pin ++ [10]
  | Call GoNeg q [prov; pin] => yellow (text "GO NEG") ++ text " Peer: " ++ cp_label q ++ text " Type: " ++ prov ++ text " PIN: " ++ pin ++ [10]
  | Call Fail q [reason] => yellow (text "FAIL") ++ text " Peer: " ++ cp_label q ++ text " Reason: " ++ reason ++ [10]
  | _ => []
  end.
(** miracle-wifictl. *)
Definition wifictl_prints (running : bool) (h : heard) : list byte :=
  match h with Call GoNeg _ _ => [] | Call _ _ _ => if running then line h else [] | _ => [] end.
(** miracle-sinkctl; [ours]: the link of the peer is the one that runs. *)
Definition sinkctl_prints (running ours : bool) (h : heard) : list byte :=
  match h with
  | Call _ q _ => if negb ours || match cp_wfd q with Some (_ :: _) => false | _ => true end then [] else if running then line h else []
  | _ => []
  end.
