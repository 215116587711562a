(** Properties C222 to C225: D-Bus paths of links and peers. *)
From Coq Require Import String.
From Verif Require Import Base Text Comm_Model Cli_Spec Paths_Model Paths_Spec Paths_Proofs Paths_Cex.
Local Open Scope list_scope.

(** ** C222: links *)
Theorem C222_own : forall m l, good m -> shown_link m l -> link_label l = Ok (link_text l) /\ link_dbus_find m (link_text l) = Some l.
Proof. exact link_find_own. Qed.
Print Assumptions C222_own.
Theorem C222_exact : forall m t l, good m -> link_dbus_find m t = Some l <-> shown_link m l /\ number t (wl_index l).
Proof. exact link_find_iff. Qed.
Print Assumptions C222_exact.
Example C222_ex :
  link_dbus_find wifi (text "14") = Some (mkWLink 14 true 2 [mkWPeer mac1 true; mkWPeer mac2 true])
  /\ link_dbus_find wifi (text "0014") = link_dbus_find wifi (text "14")
  /\ link_dbus_find wifi (text "14x") = None /\ link_dbus_find wifi (text "4294967310") = None /\ link_dbus_find wifi [] = None
  /\ link_dbus_find wifi (text "5") = None
  /\ link_dbus_find (mkManager 1 [mkWLink 3 false 0 []]) (text "3") = None.
Proof. vm_compute. repeat split; reflexivity. Qed.

(** ** C223: peers *)
Theorem C223_own : forall m l p, good m -> shown_peer m l p -> peer_label l p = Ok (peer_text l p) /\ peer_dbus_find m (peer_text l p) = Ok (Some (l, p)).
Proof. exact peer_find_own. Qed.
Print Assumptions C223_own.
Theorem C223_exact : forall m a b l p, good m -> ~ In 64 a ->
  peer_dbus_find m (a ++ [64] ++ b) = Ok (Some (l, p)) <-> shown_peer m l p /\ number b (wl_index l) /\ reformat_mac a = Ok (wp_mac p).
Proof. exact peer_find_iff. Qed.
Print Assumptions C223_exact.
Theorem C223_shown : forall m t, exists r, peer_dbus_find m t = Ok r /\ forall l p, r = Some (l, p) -> shown_peer m l p.
Proof. exact peer_find_shown. Qed.
Print Assumptions C223_shown.
Example C223_ex :
  peer_dbus_find wifi (text "02:00:00:00:00:0b@14") = Ok (Some (mkWLink 14 true 2 [mkWPeer mac1 true; mkWPeer mac2 true], mkWPeer mac2 true))
  /\ peer_dbus_find wifi (text "2:0:0:0:0:B@14") = peer_dbus_find wifi (text "02:00:00:00:00:0b@14")
  /\ peer_dbus_find wifi (text "02:00:00:00:00:0a@3") = Ok None
  /\ peer_dbus_find wifi (text "02:00:00:00:00:0b@3") = Ok None
  /\ peer_dbus_find wifi (text "02:00:00:00:00:0b@15") = Ok None
  /\ peer_dbus_find wifi (text "02:00:00:00:00:0b@14@14") = Ok None
  /\ peer_dbus_find (mkManager 1 [mkWLink 3 false 1 [mkWPeer mac1 true]]) (text "02:00:00:00:00:0a@3") = Ok None.
Proof. vm_compute. repeat split; reflexivity. Qed.

(** ** C224: paths without an index *)
Theorem C224_missed_refuted : exists m l p, good m /\ shown_peer m l p /\ peer_dbus_find m (wp_mac p) = Ok None.
Proof. exact short_missed. Qed.
Print Assumptions C224_missed_refuted.
Theorem C224_first_partial : forall m t a l b p, good m -> ~ In 64 t -> m_links m = a ++ l :: b -> reformat_mac t = Ok (wp_mac p) ->
  (forall x, In x a -> wl_public x = true -> ~ In (wp_mac p) (map wp_mac (wl_peers x))) -> wl_public l = true -> In p (wl_peers l) ->
  peer_dbus_find m t = Ok (if wp_public p then Some (l, p) else None).
Proof. exact short_find. Qed.
Print Assumptions C224_first_partial.
Theorem C224_none : forall m t mac, ~ In 64 t -> reformat_mac t = Ok mac ->
  (forall x, In x (m_links m) -> wl_public x = true -> ~ In mac (map wp_mac (wl_peers x))) -> peer_dbus_find m t = Ok None.
Proof. exact short_none. Qed.
Print Assumptions C224_none.
Example C224_ex :
  good wifi /\ peer_dbus_find wifi (text "02:00:00:00:00:0b") = peer_dbus_find wifi (text "02:00:00:00:00:0b@14")
  /\ peer_dbus_find wifi (text "02:00:00:00:00:0c") = Ok None
  /\ peer_dbus_find (mkManager 2 [mkWLink 3 false 1 [mkWPeer mac1 false]; mkWLink 4 true 1 [mkWPeer mac1 true]]) mac1 = Ok (Some (mkWLink 4 true 1 [mkWPeer mac1 true], mkWPeer mac1 true)).
Proof. split; [exact wifi_good|]. vm_compute. repeat split; reflexivity. Qed.

(** ** C225: the list of paths *)
Theorem C225_memory_refuted : exists k m, good m /\ enumerate k m = UB.
Proof. exact no_path. Qed.
Print Assumptions C225_memory_refuted.
Theorem C225_all_partial : forall m, good m -> exists ns, enumerate lucky m = Ok (Nodes ns) /\ NoDup ns /\ forall x, In x ns <-> path_of m x.
Proof. exact enumerate_all. Qed.
Print Assumptions C225_all_partial.
Theorem C225_safe_partial : forall k m, (forall x, k_path k x = true) ->
  Forall (fun l => wl_index l < 2 ^ 32 /\ Forall (fun p => is_address (wp_mac p)) (wl_peers l)) (m_links m) -> enumerate k m <> UB.
Proof. exact enumerate_safe. Qed.
Print Assumptions C225_safe_partial.
Example C225_ex :
  enumerate lucky wifi = Ok (Nodes [LinkNode (text "3"); LinkNode (text "14"); PeerNode (text "02:00:00:00:00:0a@14"); PeerNode (text "02:00:00:00:00:0b@14"); Root])
  /\ enumerate lucky (mkManager 1 [mkWLink 3 false 7 [mkWPeer mac1 true]]) = Ok (Nodes [Root])
  /\ enumerate lucky (mkManager 0 (m_links wifi)) = Ok (Nodes [LinkNode (text "3"); LinkNode (text "14"); PeerNode (text "02:00:00:00:00:0a@14"); Root])
  /\ enumerate (mkLuck false (fun _ => true) true) wifi = Ok Enomem /\ enumerate (mkLuck true (fun _ => true) false) wifi = Ok Enomem.
Proof. vm_compute. repeat split; reflexivity. Qed.
