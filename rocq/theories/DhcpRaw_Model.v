(** Model of dhcp_send_raw_packet (src/dhcp/common.c:522-587), sanity_check and
    dhcp_recv_l2_packet (src/dhcp/client.c:1274-1340). A struct ip_udp_dhcp_packet is
    its 656 bytes: 20 of struct iphdr, 8 of struct udphdr, 628 of struct dhcp_packet.
    [le]: little endian host. System calls of the sender succeed; addresses and the
    hardware destination are taken as given. *)
From Verif Require Import Base Checksum_Model.

(** htons, as bytes in memory. *)
Definition be16 (v : N) : list byte := [v / 256 mod 256; v mod 256].

(** ** dhcp_send_raw_packet *)
(** Line 541: the broadcast flag is bit 7 of byte 10. *)
Definition set_broadcast (p : list byte) : list byte :=
  takeN 10 p ++ match dropN 10 p with f :: rest => N.lor f 0x80 :: rest | [] => [] end.
(** IP_UPD_DHCP_SIZE and UPD_DHCP_SIZE, lines 530-535. *)
Definition FULL : N := 576.
Definition UDP_SIZE : N := 556.
Definition ip_header (check src dst : list byte) : list byte :=
  [0x45; 0] ++ be16 FULL ++ [0; 0; 0; 0; 64; 17] ++ check ++ src ++ dst.
Definition udp_header (sport dport : N) (check : list byte) : list byte :=
  be16 sport ++ be16 dport ++ be16 UDP_SIZE ++ check.
(** Lines 541-576. [Ok None]: the checksum ran out of fuel. *)
Definition raw (le : bool) (src dst : list byte) (sport dport : N) (p : list byte) : res (option (list byte)) :=
  let data := takeN 548 (set_broadcast p) in
  do c <- checksum le ([0; 0] ++ be16 UDP_SIZE ++ [0; 0; 0; 0; 0; 17; 0; 0] ++ src ++ dst ++ udp_header sport dport [0; 0] ++ data);
  do d <- checksum le (ip_header [0; 0] src dst);
  match c, d with
  | Some c, Some d => Ok (Some (ip_header (stored le d) src dst ++ udp_header sport dport (stored le c) ++ data))
  | _, _ => Ok None
  end.

(** ** dhcp_recv_l2_packet *)
(** Result: the packet is dropped, or the content of [*dhcp_pkt] and the length returned. *)
Inductive recvd := Dropped | Accepted (pkt : list cell) (n : N).
Definition MAGIC : list cell := [Some 0x63; Some 0x82; Some 0x53; Some 0x63].

(** Lines 1317-1339, with [tot] the length of the IP header. [old]: the content of
    [*dhcp_pkt] before, which the caller does not initialise; reading such bytes is
    undefined. The size of the memcpy is computed in size_t: it wraps for [tot] below 28. *)
Definition accept (le : bool) (old : list cell) (buf : list byte) (tot : N) : res (option recvd) :=
  match buf with
  | vi :: tos :: t0 :: t1 :: i0 :: i1 :: f0 :: f1 :: ttl :: pr :: c0 :: c1 :: s0 :: s1 :: s2 :: s3 :: d0 :: d1 :: d2 :: d3
    :: p0 :: p1 :: q0 :: q1 :: l0 :: l1 :: u0 :: u1 :: data =>
      (** sanity_check *)
      if negb (pr =? 17) then Ok (Some Dropped)
      else if negb (N.shiftr vi 4 =? 4) then Ok (Some Dropped)
      else if negb (N.land vi 15 =? 5) then Ok (Some Dropped)
      else if negb (256 * q0 + q1 =? 68) then Ok (Some Dropped)
      else if negb (256 * l0 + l1 =? (tot + two64 - 20) mod 65536) then Ok (Some Dropped)
      else
        do h <- checksum le [vi; tos; t0; t1; i0; i1; f0; f1; ttl; pr; 0; 0; s0; s1; s2; s3; d0; d1; d2; d3];
        match h with None => Ok None | Some h =>
        if negb (word le c0 c1 =? h) then Ok (Some Dropped)
        else
          do u <- (if word le u0 u1 =? 0 then Ok (Some 0)
                   else checksum le (takeN tot ([0; 0; l0; l1; 0; 0; 0; 0; 0; pr; 0; 0; s0; s1; s2; s3; d0; d1; d2; d3; p0; p1; q0; q1; l0; l1; 0; 0] ++ data)));
          match u with None => Ok None | Some u =>
          if negb (word le u0 u1 =? 0) && negb (word le u0 u1 =? u) then Ok (Some Dropped)
          else
            let n := (tot + two64 - 28) mod two64 in
            do d <- mem_read (map Some data) 0 n;
            do pkt <- mem_write old 0 d;
            do cookie <- mem_read pkt 236 4;
            match cookie with
            | [Some a; Some b; Some c; Some d] =>
                if (a =? 0x63) && (b =? 0x82) && (c =? 0x53) && (d =? 0x63) then Ok (Some (Accepted pkt n)) else Ok (Some Dropped)
            | _ => UB
            end
          end
        end
  | _ => UB
  end.
(** Lines 1300-1315. [got]: the bytes read, at most 656, [None] if read failed. *)
Definition recv (le : bool) (old : list cell) (got : option (list byte)) : res (option recvd) :=
  match got with
  | None => Ok (Some Dropped)
  | Some g =>
      if lenN g <? 28 then Ok (Some Dropped)
      else
        let buf := g ++ repeat 0 (N.to_nat (656 - lenN g)) in
        let tot := match buf with _ :: _ :: a :: b :: _ => 256 * a + b | _ => 0 end in
        if lenN g <? tot then Ok (Some Dropped) else accept le old buf tot
  end.
