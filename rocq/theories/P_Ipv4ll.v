(** Property C46: link-local addresses. *)
From Verif Require Import Base Ipv4ll_Model Ipv4ll_Spec Ipv4ll_Proofs.

(** C46. Whatever the random source returns, an address chosen lies in
    169.254.1.0 .. 169.254.254.255. *)
Theorem C46_link_local_range : forall rnd fuel n r,
  random_ip rnd fuel n = Some r -> ip 169 254 1 0 <= r <= ip 169 254 254 255.
Proof. exact random_ip_range. Qed.
Print Assumptions C46_link_local_range.

(** The choice ends as soon as the random source returns a usable number (low
    16 bits at most 65023), and not before. *)
Theorem C46_link_local_ends : forall rnd fuel n,
  (exists i, (n <= i < n + fuel)%nat /\ usable (rnd i) = true) -> exists r, random_ip rnd fuel n = Some r.
Proof. exact random_ip_ends. Qed.
Print Assumptions C46_link_local_ends.

Theorem C46_link_local_never_ends : forall rnd fuel n,
  (forall i, (n <= i < n + fuel)%nat -> usable (rnd i) = false) -> random_ip rnd fuel n = None.
Proof. exact random_ip_never. Qed.
Print Assumptions C46_link_local_never_ends.

(** Every address of the range can be chosen. *)
Theorem C46_link_local_every : forall r, ip 169 254 1 0 <= r <= ip 169 254 254 255 ->
  exists x, x < 65536 /\ forall rnd fuel n, rnd n = x -> random_ip rnd (S fuel) n = Some r.
Proof. exact random_ip_every. Qed.
Print Assumptions C46_link_local_every.

(** C54. Random delays. *)
Theorem C54_random_delay : forall r secs, 1 <= secs <= 4294967 ->
  exists d, random_delay_ms r secs = Ok d /\ d < secs * 1000.
Proof. exact random_delay_ok. Qed.
Print Assumptions C54_random_delay.

(** Only multiples of 2^29 seconds are fatal, zero among them. *)
Theorem C54_random_delay_undefined : forall r secs, random_delay_ms r secs = UB <-> secs mod 536870912 = 0.
Proof. exact random_delay_undefined. Qed.
Print Assumptions C54_random_delay_undefined.

Example C46_nontrivial :
  random_ip (fun n => nth n [0x1fffe; 0x1ffff; 0xabcd0102] 0) 3 0 = Some (ip 169 254 2 2)
  /\ random_ip (fun n => nth n [0x1fffe; 0x1ffff; 0xabcd0102] 0) 2 0 = None.
Proof. split; vm_compute; reflexivity. Qed.
Example C54_nontrivial : random_delay_ms 123456 2 = Ok 1456 /\ random_delay_ms 5 0 = UB.
Proof. split; vm_compute; reflexivity. Qed.
