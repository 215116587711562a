(** IPv4 and UDP as of RFC 791 and RFC 768: when a frame carries a DHCP message for a
    client. *)
From Verif Require Import Base Checksum_Spec.

Definition net16 (v : N) : list byte := [v / 256; v mod 256].
(** A block with the right one's complement checksum filled in. *)
Definition sums_up (l : list byte) : Prop := be_sum l mod 0xffff = 0.

(** [frame] is an IPv4 packet without options, of total length [n], with a UDP datagram
    for port 68 and [payload] in it; bytes after the packet are allowed. [hc], [uc]: the
    checksum fields. *)
Definition ip_udp (frame : list byte) (n : N) (hc uc payload : list byte) : Prop :=
  exists tos id ttl src dst sport trailer,
  frame = [0x45; tos] ++ net16 n ++ id ++ [ttl; 17] ++ hc ++ src ++ dst ++ sport ++ net16 68 ++ net16 (n - 20) ++ uc ++ payload ++ trailer
  /\ lenN id = 4 /\ lenN hc = 2 /\ lenN src = 4 /\ lenN dst = 4 /\ lenN sport = 2 /\ lenN uc = 2
  /\ n = 28 + lenN payload /\ n < 65536
  /\ sums_up ([0x45; tos] ++ net16 n ++ id ++ [ttl; 17] ++ hc ++ src ++ dst)
  /\ (uc = [0; 0] \/ sums_up (src ++ dst ++ [0; 17] ++ net16 (n - 20) ++ sport ++ net16 68 ++ net16 (n - 20) ++ uc ++ payload)).
(** A DHCP message: the magic cookie follows the 236 bytes of the BOOTP header. *)
Definition dhcp_message (payload : list byte) : Prop :=
  exists h o, payload = h ++ [0x63; 0x82; 0x53; 0x63] ++ o /\ lenN h = 236.
