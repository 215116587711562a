(** Properties C234 and C235: ARP packets on the wire. *)
From Verif Require Import Base ArpPkt_Model ArpPkt_Spec ArpPkt_Proofs ArpPkt_Cex.
From Verif Require LinkLocal_Spec.

(** ** Examples *)
Definition fine : world := mkWorld 5 0 28.
Example probe_ex : probe fine my_mac my_ip 3 = Ok
  ([Socket 0x0608; Bind (broadcast 3);
    Sendto [0; 1; 8; 0; 6; 4; 0; 1; 2; 0; 94; 16; 0; 1; 0; 0; 0; 0; 0; 0; 0; 0; 0; 0; 169; 254; 17; 34] (broadcast 3); Close], 28%Z).
Proof. vm_compute. reflexivity. Qed.
Example announce_ex : announce fine my_mac my_ip 3 = Ok
  ([Socket 0x0608; Bind (broadcast 3);
    Sendto [0; 1; 8; 0; 6; 4; 0; 1; 2; 0; 94; 16; 0; 1; 169; 254; 17; 34; 0; 0; 0; 0; 0; 0; 169; 254; 17; 34] (broadcast 3); Close], 28%Z).
Proof. vm_compute. reflexivity. Qed.
Example no_socket_ex : probe (mkWorld (-1) 0 28) my_mac my_ip 3 = Ok ([Socket 0x0608], (-1)%Z).
Proof. vm_compute. reflexivity. Qed.
Example no_bind_ex : announce (mkWorld 5 (-19) 28) my_mac my_ip 3 = Ok ([Socket 0x0608; Bind (broadcast 3); Close], (-19)%Z).
Proof. vm_compute. reflexivity. Qed.
Example not_sent_ex : bind (announce (mkWorld 5 0 (-100)) my_mac my_ip 3) (fun x => Ok (left_open fine (fst x), snd x)) = Ok (0, -100)%Z.
Proof. vm_compute. reflexivity. Qed.
Example short_mac_ex : probe fine [1; 2; 3] my_ip 3 = UB.
Proof. vm_compute. reflexivity. Qed.
Example socket_ex : arp_socket fine 3 = ([Socket 0x0608; Bind (LL 0x0608 3 0 [0; 0; 0; 0; 0; 0; 0; 0])], 5%Z)
  /\ arp_socket (mkWorld 5 (-19) 0) 3 = ([Socket 0x0608; Bind (LL 0x0608 3 0 [0; 0; 0; 0; 0; 0; 0; 0]); Close], (-19)%Z)
  /\ arp_socket (mkWorld (-13) 0 0) 3 = ([Socket 0x0608], (-1)%Z).
Proof. repeat split; vm_compute; reflexivity. Qed.
(** A reply from the address, a request for it, one for its neighbour, another operation, nothing. *)
Example recv_ex :
  recv_arp my_ip [0; 1; 8; 0; 6; 4; 0; 2; 2; 0; 94; 16; 0; 9; 169; 254; 17; 34; 2; 0; 94; 16; 0; 1; 169; 254; 17; 35; 7; 7] = Ok (Some (true, false))
  /\ recv_arp my_ip [0; 1; 8; 0; 6; 4; 0; 1; 2; 0; 94; 16; 0; 9; 169; 254; 17; 33; 0; 0; 0; 0; 0; 0; 169; 254; 17; 34] = Ok (Some (false, true))
  /\ recv_arp my_ip [0; 1; 8; 0; 6; 4; 0; 1; 2; 0; 94; 16; 0; 9; 169; 254; 17; 33; 0; 0; 0; 0; 0; 0; 169; 254; 34; 17] = Ok (Some (false, false))
  /\ recv_arp my_ip [0; 1; 8; 0; 6; 4; 0; 3; 2; 0; 94; 16; 0; 9; 169; 254; 17; 34; 0; 0; 0; 0; 0; 0; 169; 254; 17; 34] = Ok None
  /\ recv_arp my_ip [0; 1; 8; 0; 6; 4; 1; 0; 2; 0; 94; 16; 0; 9; 169; 254; 17; 34; 0; 0; 0; 0; 0; 0; 169; 254; 17; 34] = Ok None
  /\ recv_arp my_ip [] = Ok None.
Proof. repeat split; vm_compute; reflexivity. Qed.

(** ** C234: probes and announcements *)
(** Every packet asks all machines of the interface, in proper form; the socket is always
    closed, and the result tells which call failed. *)
Theorem C234_probe w mac ip ifi : hw_address mac -> ip_address ip ->
  exists l r, probe w mac ip ifi = Ok (l, r) /\ left_open w l = 0%Z /\
    ((w_socket w < 0)%Z /\ r = w_socket w /\ sent l = [] \/
     (0 <= w_socket w)%Z /\ (w_bind w < 0)%Z /\ r = w_bind w /\ sent l = [] \/
     (0 <= w_socket w)%Z /\ (0 <= w_bind w)%Z /\ r = w_send w /\ exists p, sent l = [(p, broadcast ifi)] /\
       lenN p = 28 /\ Forall is_byte p /\ says p = question mac 0 ip).
Proof. exact (fun Hm Hi => sends w mac 0 ip ifi Hm eq_refl Hi). Qed.
Print Assumptions C234_probe.
Theorem C234_announce w mac ip ifi : hw_address mac -> ip_address ip ->
  exists l r, announce w mac ip ifi = Ok (l, r) /\ left_open w l = 0%Z /\
    ((w_socket w < 0)%Z /\ r = w_socket w /\ sent l = [] \/
     (0 <= w_socket w)%Z /\ (w_bind w < 0)%Z /\ r = w_bind w /\ sent l = [] \/
     (0 <= w_socket w)%Z /\ (0 <= w_bind w)%Z /\ r = w_send w /\ exists p, sent l = [(p, broadcast ifi)] /\
       lenN p = 28 /\ Forall is_byte p /\ says p = question mac ip ip).
Proof. exact (fun Hm Hi => sends w mac ip ip ifi Hm Hi Hi). Qed.
Print Assumptions C234_announce.
(** Clients hear each other: a client for [ip] takes the packets of a client for [ip'] for what
    they are. *)
Theorem C234_heard mac src tgt p ip : hw_address mac -> ip_address src -> ip_address tgt -> ip_address ip ->
  packet mac src tgt = Ok p -> recv_arp ip p = Ok (Some (src =? ip, tgt =? ip)).
Proof. exact (heard mac src tgt p ip). Qed.
Print Assumptions C234_heard.
(** The socket to listen on: bound to ARP packets of the interface, or closed again. *)
Theorem C234_socket w ifi :
  let (l, r) := arp_socket w ifi in
  sent l = [] /\ ((0 <= w_socket w)%Z -> (w_bind w <= 0)%Z ->
    (r < 0)%Z /\ left_open w l = 0%Z \/ r = w_socket w /\ w_bind w = 0%Z /\ left_open w l = 1%Z /\ In (Bind (LL 0x0608 ifi 0 (repeat 0 8))) l) /\
  ((w_socket w < 0)%Z -> (r < 0)%Z /\ left_open w l = 0%Z).
Proof. exact (socket_listens w ifi). Qed.
Print Assumptions C234_socket.

(** ** C235: which packets count as conflicts *)
(** Refuted: part of a packet counts, one for another protocol, and the client's own. *)
Theorem C235_short_refuted : exists ip pkt, Forall is_byte pkt /\ LinkLocal_Spec.link_local ip /\ lenN pkt < 28 /\ conflict (recv_arp ip pkt).
Proof. exact short_conflict. Qed.
Print Assumptions C235_short_refuted.
Theorem C235_protocol_refuted : exists ip pkt, Forall is_byte pkt /\ LinkLocal_Spec.link_local ip /\ lenN pkt = 28 /\
  protocol (says pkt) <> 0x800 /\ conflict (recv_arp ip pkt).
Proof. exact protocol_conflict. Qed.
Print Assumptions C235_protocol_refuted.
Theorem C235_own_refuted : exists mac ip p, hw_address mac /\ LinkLocal_Spec.link_local ip /\ packet mac 0 ip = Ok p /\
  sender_hw (says p) = mac /\ conflict (recv_arp ip p).
Proof. exact own_conflict. Qed.
Print Assumptions C235_own_refuted.
(** Missing: what is not a whole packet for Ethernet and IPv4 counts as if its end were zeros
    and its kind right, and the sender's hardware address is not looked at. Otherwise exactly
    the requests and replies that name the address count; this is what properties C92 to C97
    take for granted. *)
Theorem C235_reads_partial ip pkt : ip_address ip -> Forall is_byte pkt -> recv_arp ip pkt = Ok (verdict ip (says pkt)).
Proof. exact (reads_packet ip pkt). Qed.
Print Assumptions C235_reads_partial.
Theorem C235_names_partial ip pkt : ip_address ip -> Forall is_byte pkt ->
  (conflict (recv_arp ip pkt) <->
   LinkLocal_Spec.names ip (operation (says pkt)) (sender_ip (says pkt)) (target_ip (says pkt)) = true).
Proof. exact (names_conflict ip pkt). Qed.
Print Assumptions C235_names_partial.
