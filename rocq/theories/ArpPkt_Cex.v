From Verif Require Import Base ArpPkt_Model ArpPkt_Spec ArpPkt_Proofs.
From Verif Require LinkLocal_Spec.

Definition my_mac : list byte := [2; 0; 94; 16; 0; 1].
(** 169.254.17.34 *)
Definition my_ip : N := 0xa9fe1122.
(** A request without its last ten bytes; one for another protocol. *)
Definition cut : list byte := [0; 1; 8; 0; 6; 4; 0; 1; 2; 0; 94; 16; 0; 9; 169; 254; 17; 34].
Definition other_protocol : list byte :=
  [0; 1; 0x80; 0x9b; 6; 4; 0; 1; 2; 0; 94; 16; 0; 9; 169; 254; 17; 34; 0; 0; 0; 0; 0; 0; 0; 0; 0; 0].
Lemma bytes_dec l : forallb (fun b => b <? 256) l = true -> Forall is_byte l.
Proof. intros H. apply Forall_forall. intros x Hx. rewrite forallb_forall in H. apply N.ltb_lt. exact (H x Hx). Qed.
Lemma short_conflict : exists ip pkt, Forall is_byte pkt /\ LinkLocal_Spec.link_local ip /\ lenN pkt < 28 /\ conflict (recv_arp ip pkt).
Proof.
  exists my_ip, cut. split; [apply bytes_dec; vm_compute; reflexivity|]. split; [split; vm_compute; discriminate|].
  split; [vm_compute; reflexivity|]. exists true, false. split; vm_compute; reflexivity.
Qed.
Lemma protocol_conflict : exists ip pkt, Forall is_byte pkt /\ LinkLocal_Spec.link_local ip /\ lenN pkt = 28 /\ protocol (says pkt) <> 0x800 /\
  conflict (recv_arp ip pkt).
Proof.
  exists my_ip, other_protocol. split; [apply bytes_dec; vm_compute; reflexivity|]. split; [split; vm_compute; discriminate|].
  split; [vm_compute; reflexivity|]. split; [vm_compute; discriminate|]. exists true, false. split; vm_compute; reflexivity.
Qed.
Lemma own_conflict : exists mac ip p, hw_address mac /\ LinkLocal_Spec.link_local ip /\ packet mac 0 ip = Ok p /\
  sender_hw (says p) = mac /\ conflict (recv_arp ip p).
Proof.
  exists my_mac, my_ip. eexists. split; [split; [reflexivity|apply bytes_dec; vm_compute; reflexivity]|].
  split; [split; vm_compute; discriminate|]. split; [vm_compute; reflexivity|].
  split; [vm_compute; reflexivity|]. exists false, true. split; vm_compute; reflexivity.
Qed.
Lemma names_conflict ip pkt : ip_address ip -> Forall is_byte pkt ->
  (conflict (recv_arp ip pkt) <->
   LinkLocal_Spec.names ip (operation (says pkt)) (sender_ip (says pkt)) (target_ip (says pkt)) = true).
Proof.
  intros Hi F. rewrite (reads_packet _ _ Hi F). unfold conflict, verdict, LinkLocal_Spec.names.
  destruct ((operation (says pkt) =? 1) || (operation (says pkt) =? 2)); cbn [andb].
  - split; [intros (a & b & E & H); injection E as <- <-; exact H|intros H; eauto].
  - split; [intros (a & b & E & _); discriminate|discriminate].
Qed.
(** Another client hears the packets of a client as what they are. *)
Lemma heard mac src tgt p ip : hw_address mac -> ip_address src -> ip_address tgt -> ip_address ip ->
  packet mac src tgt = Ok p -> recv_arp ip p = Ok (Some (src =? ip, tgt =? ip)).
Proof.
  intros Hm Hs Ht Hi E. destruct (packet_says _ _ _ _ Hm Hs Ht E) as (_ & F & S).
  rewrite reads_packet by assumption. rewrite S. reflexivity.
Qed.
