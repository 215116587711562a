(** Properties C78 - C80: DHCP packets on raw sockets. *)
From Verif Require Import Base Checksum_Model Checksum_Spec DhcpRaw_Model DhcpRaw_Spec DhcpRaw_Proofs.

(** C78. What one host sends to port 68 the other receives unchanged: the first 548
    bytes with the broadcast flag set. The hosts may differ in byte order. *)
Theorem C78_sent_is_received : forall le le' src dst sport p,
  bytes src -> bytes dst -> bytes p -> lenN src = 4 -> lenN dst = 4 -> sport < 65536 -> lenN p = 628 -> dhcp_message p ->
  exists g, raw le src dst sport 68 p = Ok (Some g) /\ lenN g = 576
    /\ recv le' (fresh 628) (Some g) = Ok (Some (Accepted (map Some (takeN 548 (set_broadcast p)) ++ fresh 80) 548)).
Proof. exact roundtrip. Qed.
Print Assumptions C78_sent_is_received.

(** What is sent is a proper IP packet with a proper UDP datagram. *)
Theorem C78_sent_is_valid : forall le src dst sport p,
  bytes src -> bytes dst -> bytes p -> lenN src = 4 -> lenN dst = 4 -> sport < 65536 -> lenN p = 628 ->
  exists g hc uc, raw le src dst sport 68 p = Ok (Some g) /\ bytes g /\ lenN g = 576
    /\ ip_udp g 576 hc uc (takeN 548 (set_broadcast p)) /\ hc <> [255; 255] /\ uc <> [255; 255].
Proof. exact raw_ok. Qed.
Print Assumptions C78_sent_is_valid.

(** C79. Whatever is accepted is a valid packet, and its payload is what is delivered. *)
Theorem C79_accepted_is_valid : forall le g pkt n,
  bytes g -> lenN g <= 656 -> recv le (fresh 628) (Some g) = Ok (Some (Accepted pkt n)) ->
  exists hc uc payload, ip_udp g (28 + n) hc uc payload /\ dhcp_message payload /\ pkt = map Some payload ++ fresh (628 - n).
Proof. exact recv_sound. Qed.
Print Assumptions C79_accepted_is_valid.

(** The converse is false: a UDP checksum that sums up to zero is sent as 0xffff (RFC
    768), the receiver computes 0. *)
Definition payload_ffff : list byte := repeat 0 234 ++ [0x46; 0x92; 0x63; 0x82; 0x53; 0x63].
Definition frame_ffff : list byte :=
  [0x45; 0; 1; 12; 0; 0; 0; 0; 64; 17; 0x79; 0xe2; 0; 0; 0; 0; 255; 255; 255; 255; 0; 67; 0; 68; 0; 248; 255; 255] ++ payload_ffff.
Theorem C79_valid_is_accepted_refuted : exists g hc uc payload,
  bytes g /\ lenN g <= 656 /\ ip_udp g 268 hc uc payload /\ dhcp_message payload
  /\ forall le, recv le (fresh 628) (Some g) = Ok (Some Dropped).
Proof.
  exists frame_ffff, [0x79; 0xe2], [255; 255], payload_ffff.
  split; [unfold bytes; repeat (apply Forall_cons; [reflexivity|]); apply Forall_nil|]. split; [vm_compute; discriminate|].
  split. { exists 0, [0; 0; 0; 0], 64, [0; 0; 0; 0], [255; 255; 255; 255], [0; 67], []. repeat split; try (vm_compute; reflexivity). right. vm_compute. reflexivity. }
  split. { exists (repeat 0 234 ++ [0x46; 0x92]), []. split; reflexivity. }
  intros []; vm_compute; reflexivity.
Qed.
Print Assumptions C79_valid_is_accepted_refuted.

(** It holds for packets with other checksums. *)
Theorem C79_valid_is_accepted_partial : forall le g n hc uc payload,
  bytes g -> lenN g <= 656 -> ip_udp g n hc uc payload -> dhcp_message payload ->
  hc <> [255; 255] -> uc <> [255; 255] ->
  recv le (fresh 628) (Some g) = Ok (Some (Accepted (map Some payload ++ fresh (656 - n)) (n - 28))).
Proof. exact recv_complete. Qed.
Print Assumptions C79_valid_is_accepted_partial.

(** C80. False: an IP packet whose total length is that of its header makes the memcpy
    run over all memory. *)
Theorem C80_short_packet_refuted : exists g, bytes g /\ lenN g <= 656 /\ forall le old, recv le old (Some g) = UB.
Proof.
  exists [0x45; 0; 0; 20; 0; 0; 0; 0; 64; 17; 0x7a; 0xda; 0; 0; 0; 0; 255; 255; 255; 255; 0; 67; 0; 68; 0; 0; 0; 0].
  split; [unfold bytes; repeat (apply Forall_cons; [reflexivity|]); apply Forall_nil|]. split; [vm_compute; discriminate|].
  intros [] old; vm_compute; reflexivity.
Qed.
Print Assumptions C80_short_packet_refuted.

(** A datagram shorter than the cookie makes the receiver compare uninitialised bytes. *)
Theorem C80_no_cookie_refuted : exists g hc uc, bytes g /\ lenN g <= 656 /\ ip_udp g 28 hc uc [] /\ forall le, recv le (fresh 628) (Some g) = UB.
Proof.
  exists [0x45; 0; 0; 28; 0; 0; 0; 0; 64; 17; 0x7a; 0xd2; 0; 0; 0; 0; 255; 255; 255; 255; 0; 67; 0; 68; 0; 8; 0; 0], [0x7a; 0xd2], [0; 0].
  split; [unfold bytes; repeat (apply Forall_cons; [reflexivity|]); apply Forall_nil|]. split; [vm_compute; discriminate|].
  split. { exists 0, [0; 0; 0; 0], 64, [0; 0; 0; 0], [255; 255; 255; 255], [0; 67], []. repeat split. left. reflexivity. }
  intros []; vm_compute; reflexivity.
Qed.
Print Assumptions C80_no_cookie_refuted.

(** Every other frame is handled. *)
Theorem C80_long_packets_partial : forall le g, bytes g -> lenN g <= 656 -> 268 <= total g ->
  exists r, recv le (fresh 628) (Some g) = Ok (Some r).
Proof. exact recv_defined. Qed.
Print Assumptions C80_long_packets_partial.

(** A frame with bytes after the packet is accepted; one with a wrong checksum, port or
    length is not. *)
Example C79_nontrivial :
  let p u := [0x45; 0; 1; 12; 0; 0; 0; 0; 64; 17; 0x79; 0xe2; 0; 0; 0; 0; 255; 255; 255; 255; 0; 67; 0; 68; 0; 248; u; 0] ++ payload_ffff ++ [1; 2; 3] in
  recv true (fresh 628) (Some (p 0)) = Ok (Some (Accepted (map Some payload_ffff ++ fresh 388) 240))
  /\ recv true (fresh 628) (Some (p 1)) = Ok (Some Dropped)
  /\ recv false (fresh 628) (Some (takeN 267 (p 0))) = Ok (Some Dropped)
  /\ recv false (fresh 628) None = Ok (Some Dropped).
Proof. vm_compute. repeat split. Qed.
Example C78_nontrivial :
  match raw true [192; 168; 77; 1] [255; 255; 255; 255] 67 68 (repeat 0 10 ++ [1] ++ repeat 7 225 ++ [0x63; 0x82; 0x53; 0x63] ++ repeat 9 388) with
  | Ok (Some g) => firstn 28 g = [69; 0; 2; 64; 0; 0; 0; 0; 64; 17; 107; 4; 192; 168; 77; 1; 255; 255; 255; 255; 0; 67; 0; 68; 2; 44; 50; 246]
      /\ nthN g 38 = Some 0x81
  | _ => False
  end.
Proof. vm_compute. split; reflexivity. Qed.
