(** The Internet checksum (RFC 1071), on bytes in network order. *)
From Verif Require Import Base.

(** Sum of the big-endian 16-bit words of a block, padded with a zero byte. *)
Fixpoint be_sum (l : list byte) : N :=
  match l with
  | a :: b :: l => (256 * a + b) + be_sum l
  | [a] => 256 * a
  | [] => 0
  end.

(** The one's complement sum of a block: zero only for an all-zero block. *)
Definition ones_sum (l : list byte) (s : N) : Prop :=
  s <= 0xffff /\ s mod 0xffff = be_sum l mod 0xffff /\ (s = 0 <-> be_sum l = 0).

Definition bytes (l : list byte) : Prop := Forall (fun b => b < 256) l.
