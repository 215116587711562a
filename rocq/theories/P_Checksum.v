(** Property C35: the Internet checksum. *)
From Verif Require Import Base Checksum_Model Checksum_Spec Checksum_Proofs.

(** C35. For every block of at most 2^15 words and both byte orders: no signed
    overflow, the folding ends, and the bytes stored are the complement of the
    block's one's complement sum in network order. *)
Theorem C35_checksum_is_complement : forall le l, bytes l -> lenN l <= 65536 ->
  exists c, checksum le l = Ok (Some c) /\ c <= 0xffff
    /\ ones_sum l (0xffff - be_sum (stored le c)) /\ be_sum (stored le c) <= 0xffff.
Proof. exact checksum_ok. Qed.
Print Assumptions C35_checksum_is_complement.

Theorem C35_ones_sum_unique : forall l s s', ones_sum l s -> ones_sum l s' -> s = s'.
Proof. exact ones_sum_unique. Qed.
Print Assumptions C35_ones_sum_unique.

(** A receiver that sums the block with the checksum filled in gets zero. *)
Theorem C35_checksum_verifies : forall le l1 l2, bytes l1 -> bytes l2 ->
  N.even (lenN l1) = true -> lenN l1 + lenN l2 <= 65534 ->
  exists c, checksum le (l1 ++ [0; 0] ++ l2) = Ok (Some c) /\
            checksum le (l1 ++ stored le c ++ l2) = Ok (Some 0).
Proof. exact checksum_verifies. Qed.
Print Assumptions C35_checksum_verifies.

(** Both byte orders put the same bytes on the wire. *)
Theorem C35_checksum_any_byte_order : forall l c c', bytes l -> lenN l <= 65536 ->
  checksum true l = Ok (Some c) -> checksum false l = Ok (Some c') -> stored true c = stored false c'.
Proof. exact checksum_endian. Qed.
Print Assumptions C35_checksum_any_byte_order.

(** The IP header of RFC 1071 style examples, and an odd block. *)
Example C35_nontrivial :
  checksum true [0x45; 0; 0; 0x73; 0; 0; 0x40; 0; 0x40; 0x11; 0; 0; 0xc0; 0xa8; 0; 1; 0xc0; 0xa8; 0; 0xc7]
    = Ok (Some 0x61b8)
  /\ stored true 0x61b8 = [0xb8; 0x61]
  /\ checksum false [0xff; 0xff; 0x01] = Ok (Some 0xfeff)
  /\ checksum false [] = Ok (Some 0xffff)
  /\ checksum false [0xff; 0xff] = Ok (Some 0).
Proof. vm_compute. repeat split. Qed.
