(** What is expected of MAC addresses in text and of the messages of miracle-dhcp. *)
From Coq Require Import String.
From Verif Require Import Base Text Comm_Model.

(** The canonical text of a MAC address. *)
Definition is_mac (m : list N) : Prop := List.length m = 6%nat /\ Forall (fun x => x < 256) m.
Definition table : list byte := text "0123456789abcdef".
Definition two (x : N) : list byte := [nth (N.to_nat (x / 16)) table 0; nth (N.to_nat (x mod 16)) table 0].
Definition canon (m : list N) : list byte :=
  match m with
  | [a; b; c; d; e; f] => two a ++ [58] ++ two b ++ [58] ++ two c ++ [58] ++ two d ++ [58] ++ two e ++ [58] ++ two f
  | _ => []
  end%list.
(** Ways to write a MAC address: one or two digits of either case for each byte. *)
Inductive hexc : byte -> N -> Prop :=
| HDigit c : 48 <= c <= 57 -> hexc c (c - 48)
| HLower c : 97 <= c <= 102 -> hexc c (c - 87)
| HUpper c : 65 <= c <= 70 -> hexc c (c - 55).
Inductive spells : N -> list byte -> Prop :=
| SOne c a : hexc c a -> spells a [c]
| STwo c d a b : hexc c a -> hexc d b -> spells (16 * a + b) [c; d].
Fixpoint spelling (m : list N) (t : list byte) : Prop :=
  match m with
  | [] => False
  | [x] => spells x t
  | x :: m => exists a b, t = (a ++ 58 :: b)%list /\ spells x a /\ spelling m b
  end.
(** What may follow: nothing, or a character that does not continue the number. *)
Definition no_more (rest : list byte) : Prop :=
  match rest with [] => True | c :: _ => (forall v, ~ hexc c v) /\ c <> 120 /\ c <> 88 end.

(** White space. *)
Definition blank (c : byte) : Prop := c = 32 \/ 9 <= c <= 13.

(** IP addresses and masks in text. *)
Definition is_addr (s : list byte) : Prop := s <> [] /\ lenN s <= 15 /\ Forall (fun c => c = 46 \/ 48 <= c <= 57) s.
Definition good_lease (l : lease) : Prop :=
  (exists a, l_addr l = Some a /\ is_addr a) /\ Forall is_addr (l_subnet l) /\ Forall is_addr (l_dns l) /\ Forall is_addr (l_router l).

(** Exactly the first peer known by [mac] gets the address. *)
Definition knows (mac : list byte) (p : peer) : Prop := q_mac p = mac \/ q_sta p = Some mac.
Definition told (mac ip : list byte) (ps ps' : list peer) : Prop :=
  (Forall (fun p => ~ knows mac p) ps /\ map q_remote ps' = map q_remote ps)
  \/ exists a p b, ps = (a ++ p :: b)%list /\ Forall (fun p => ~ knows mac p) a /\ knows mac p
       /\ map q_remote ps' = (map q_remote a ++ Some ip :: map q_remote b)%list.
(** Names of the peers and their places in the group stay. *)
Definition same_peers (ps ps' : list peer) : Prop :=
  map q_mac ps' = map q_mac ps /\ map q_sta ps' = map q_sta ps /\ map q_in ps' = map q_in ps /\ map q_owner ps' = map q_owner ps.

(** A group with one peer, its owner, of which nothing is known. *)
Definition owned (mac : list byte) : grp := mkGrp None [mkPeer mac None true true None false].
(** The last of the leases. *)
Definition last_addr (ls : list (lease * (bool * bool))) (a : list byte) : Prop := exists l f, In (l, f) (match rev ls with x :: _ => [x] | [] => [] end) /\ l_addr l = Some a.
Definition last_router (ls : list (lease * (bool * bool))) (r : list byte) : Prop :=
  exists l f rs, In (l, f) (match rev ls with x :: _ => [x] | [] => [] end) /\ l_router l = r :: rs.
(** Every lease has a router, and the same one as the lease before if it is for the same
    address and mask. *)
Definition mask (l : lease) : list byte := match l_subnet l with s :: _ => s | [] => text "24" end.
Fixpoint steady (ls : list (lease * (bool * bool))) : Prop :=
  match ls with
  | [] => True
  | (l, _) :: ls' =>
      l_router l <> [] /\ steady ls'
      /\ match ls' with (l', _) :: _ => l_addr l' = l_addr l -> mask l' = mask l -> hd_error (l_router l') = hd_error (l_router l) | [] => True end
  end.
