(** ARP (RFC 826) for Ethernet and IPv4: what a packet says. *)
From Verif Require Import Base ArpPkt_Model.

Definition is_byte (b : byte) : Prop := b < 256.
Definition hw_address (mac : list byte) : Prop := length mac = 6%nat /\ Forall is_byte mac.
Definition ip_address (ip : N) : Prop := ip < 2 ^ 32.

(** The number that a byte string stands for, the highest byte first. *)
Definition value (l : list byte) : N := fold_left (fun n b => n * 256 + b) l 0.
(** The bytes at a place; what is beyond the end counts as 0. *)
Definition at_ (l : list byte) (off n : N) : list byte := takeN n (dropN off (l ++ repeat 0 (N.to_nat (off + n)))).

(** What a packet says. *)
Record arp := Arp {
  hardware : N; protocol : N; hw_len : N; proto_len : N; operation : N;
  sender_hw : list byte; sender_ip : N; target_hw : list byte; target_ip : N }.
Definition says (p : list byte) : arp :=
  Arp (value (at_ p 0 2)) (value (at_ p 2 2)) (value (at_ p 4 1)) (value (at_ p 5 1)) (value (at_ p 6 2))
    (at_ p 8 6) (value (at_ p 14 4)) (at_ p 18 6) (value (at_ p 24 4)).
(** A whole packet for Ethernet and IPv4. *)
Definition proper (p : list byte) : Prop :=
  28 <= lenN p /\ hardware (says p) = 1 /\ protocol (says p) = 0x800 /\ hw_len (says p) = 6 /\ proto_len (says p) = 4.
(** "who has [tgt]?", asked by [src] at [mac]. *)
Definition question (mac : list byte) (src tgt : N) : arp := Arp 1 0x800 6 4 1 mac src (repeat 0 6) tgt.

(** Packets sent by calls, and sockets that are left open. *)
Fixpoint sent (l : list call) : list (list byte * lladdr) :=
  match l with
  | [] => []
  | Sendto d to :: l => (d, to) :: sent l
  | _ :: l => sent l
  end.
Fixpoint left_open (w : world) (l : list call) : Z :=
  match l with
  | [] => 0
  | Socket _ :: l => (if w_socket w <? 0 then 0 else 1) + left_open w l
  | Close :: l => left_open w l - 1
  | _ :: l => left_open w l
  end%Z.
(** All machines of an interface, by ARP (0x0806 in network order). *)
Definition broadcast (ifindex : Z) : lladdr := LL 0x0608 ifindex 6 (repeat 255 6 ++ [0; 0]).

(** What is made of a packet: nothing, or whether it comes from the address, and whether it
    asks for the address. *)
Definition verdict (ip : N) (a : arp) : option (bool * bool) :=
  if (operation a =? 1) || (operation a =? 2) then Some (sender_ip a =? ip, target_ip a =? ip) else None.
(** It names the address. *)
Definition conflict (v : res (option (bool * bool))) : Prop := exists a b, v = Ok (Some (a, b)) /\ a || b = true.
