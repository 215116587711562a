(** Addresses in dotted notation (host byte order). *)
From Verif Require Import Base.

Definition ip (a b c d : N) : N := a * 2 ^ 24 + b * 2 ^ 16 + c * 2 ^ 8 + d.
(** A random number whose low half is usable. *)
Definition usable (r : N) : bool := r mod 65536 <=? 65023.
