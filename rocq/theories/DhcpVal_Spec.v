(** What the options of RFC 2132 mean, as text. *)
From Verif Require Import Base Text.

Definition dotted (a b c d : N) : list byte := dec a ++ [46] ++ dec b ++ [46] ++ dec c ++ [46] ++ dec d.
(** Addresses, 16-bit and 32-bit numbers of an option; incomplete ones at the end do not count. *)
Fixpoint addresses (d : list byte) : list (list byte) :=
  match d with a :: b :: c :: e :: d => dotted a b c e :: addresses d | _ => [] end.
Fixpoint numbers16 (d : list byte) : list (list byte) :=
  match d with a :: b :: d => dec (a * 256 + b) :: numbers16 d | _ => [] end.
Fixpoint numbers32 (d : list byte) : list (list byte) :=
  match d with a :: b :: c :: e :: d => dec (((a * 256 + b) * 256 + c) * 256 + e) :: numbers32 d | _ => [] end.
(** Text up to a zero byte. *)
Fixpoint upto0 (d : list byte) : list byte :=
  match d with [] => [] | c :: d => if c =? 0 then [] else c :: upto0 d end.
