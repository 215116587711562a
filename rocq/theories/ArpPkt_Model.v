(** Model of the ARP packets of the link-local client on the wire: ipv4ll_send_arp_packet and
    ipv4ll_arp_socket, src/dhcp/ipv4ll.c:73-142; the calls of the former, src/dhcp/client.c:538-539
    and 567-570; and how ipv4ll_recv_arp_packet reads a packet, src/dhcp/client.c:1396-1413.
    The machine is little endian. The socket closes without error. *)
From Verif Require Import Base.

(** ** Numbers in memory *)
(** htons and htonl, and the bytes of a uint16_t and a uint32_t of the machine. *)
Definition htons (n : N) : N := n mod 256 * 256 + n / 256 mod 256.
Definition htonl (n : N) : N :=
  n mod 256 * 16777216 + n / 256 mod 256 * 65536 + n / 65536 mod 256 * 256 + n / 16777216 mod 256.
Definition bytes16 (n : N) : list byte := [n mod 256; n / 256 mod 256].
Definition bytes32 (n : N) : list byte := [n mod 256; n / 256 mod 256; n / 65536 mod 256; n / 16777216 mod 256].
(** memset and memcmp of equal lengths. *)
Definition memset (b : byte) (n : N) : list byte := repeat b (N.to_nat n).
Fixpoint same (a b : list byte) : bool :=
  match a, b with
  | [], [] => true
  | x :: a, y :: b => (x =? y) && same a b
  | _, _ => false
  end.

Definition ETH_ALEN : N := 6.
Definition ETH_P_ARP : N := 0x0806.
Definition ARPHRD_ETHER : N := 1.
Definition ETHERTYPE_IP : N := 0x0800.
Definition ARPOP_REQUEST : N := 1.
Definition ARPOP_REPLY : N := 2.
(** struct ether_arp: where the fields are, and its size. *)
Definition arp_hrd : N := 0.
Definition arp_pro : N := 2.
Definition arp_hln : N := 4.
Definition arp_pln : N := 5.
Definition arp_op : N := 6.
Definition arp_sha : N := 8.
Definition arp_spa : N := 14.
Definition arp_tpa : N := 24.
Definition arp_size : N := 28.

(** ** Sending *)
(** struct sockaddr_ll without the fields that stay 0; sll_addr has 8 bytes. *)
Record lladdr := LL { sll_protocol : N; sll_ifindex : Z; sll_halen : N; sll_addr : list byte }.
Inductive call := Socket (protocol : N) | Bind (to : lladdr) | Sendto (data : list byte) (to : lladdr) | Close.
(** What the calls return: a file descriptor or -errno, 0 or -errno, a length or -errno. *)
Record world := mkWorld { w_socket : Z; w_bind : Z; w_send : Z }.

(** Lines 99-109. *)
Definition packet (source_eth : list byte) (source_ip target_ip : N) : res (list byte) :=
  let ip_source := htonl source_ip in
  let ip_target := htonl target_ip in
  let p := memset 0 arp_size in
  do p <- mem_write p arp_hrd (bytes16 (htons ARPHRD_ETHER));
  do p <- mem_write p arp_pro (bytes16 (htons ETHERTYPE_IP));
  do p <- mem_write p arp_hln [ETH_ALEN];
  do p <- mem_write p arp_pln [4];
  do p <- mem_write p arp_op (bytes16 (htons ARPOP_REQUEST));
  do eth <- mem_read source_eth 0 ETH_ALEN;
  do p <- mem_write p arp_sha eth;
  do p <- mem_write p arp_spa (bytes32 ip_source);
  mem_write p arp_tpa (bytes32 ip_target).
(** ipv4ll_send_arp_packet, lines 73-119. *)
Definition send_arp (w : world) (source_eth : list byte) (source_ip target_ip : N) (ifindex : Z) : res (list call * Z) :=
  let s := [Socket (htons ETH_P_ARP)] in
  if (w_socket w <? 0)%Z then Ok (s, w_socket w)
  else
    do addr <- mem_write (memset 0 8) 0 (memset 255 ETH_ALEN);
    let dest := LL (htons ETH_P_ARP) ifindex ETH_ALEN addr in
    if (w_bind w <? 0)%Z then Ok (s ++ [Bind dest; Close], w_bind w)
    else
      do p <- packet source_eth source_ip target_ip;
      Ok (s ++ [Bind dest; Sendto p dest; Close], w_send w).
(** The calls in send_probe_packet and send_announce_packet; [mac]: the six bytes mac_address. *)
Definition probe (w : world) (mac : list byte) (requested_ip : N) (ifindex : Z) := send_arp w mac 0 requested_ip ifindex.
Definition announce (w : world) (mac : list byte) (requested_ip : N) (ifindex : Z) := send_arp w mac requested_ip requested_ip ifindex.
(** ipv4ll_arp_socket, lines 121-142 (a failing socket gives -1). *)
Definition arp_socket (w : world) (ifindex : Z) : list call * Z :=
  let s := [Socket (htons ETH_P_ARP)] in
  if (w_socket w <? 0)%Z then (s, -1)%Z
  else
    let sock := LL (htons ETH_P_ARP) ifindex 0 (memset 0 8) in
    if (w_bind w =? 0)%Z then (s ++ [Bind sock], w_socket w) else (s ++ [Bind sock; Close], w_bind w).

(** ** Receiving *)
(** read of a packet into the structure. *)
Definition load (pkt : list byte) : res (list byte) := mem_write (memset 0 arp_size) 0 (takeN arp_size pkt).
(** Lines 1396-1413: None if the packet is refused, otherwise source_conflict and
    target_conflict. *)
Definition recv_arp (requested_ip : N) (pkt : list byte) : res (option (bool * bool)) :=
  do arp <- load pkt;
  do op <- mem_read arp arp_op 2;
  if negb (same op (bytes16 (htons ARPOP_REPLY))) && negb (same op (bytes16 (htons ARPOP_REQUEST))) then Ok None
  else
    let ip_requested := htonl requested_ip in
    do spa <- mem_read arp arp_spa 4;
    do tpa <- mem_read arp arp_tpa 4;
    Ok (Some (same spa (bytes32 ip_requested), same tpa (bytes32 ip_requested))).
