(** Model of SHL_ALIGN_POWER2, src/shared/shl_macro.h:136-147. *)
From Verif Require Import Base.

(** __builtin_clzll for a 64-bit argument; the builtin is undefined for 0. *)
Definition clz64 (x : N) : res N :=
  if x =? 0 then UB else Ok (63 - N.log2 x).

(** [1ULL << s]: undefined when the shift count is not below the width. *)
Definition shl1_64 (s : N) : res N :=
  if 64 <=? s then UB else Ok (2 ^ s).

(** src/shared/shl_macro.h:137-147 (size_t and unsigned long long are 64-bit). *)
Definition align_power2 (u : N) : res N :=
  if u =? 1 then Ok 1
  else
    do c <- clz64 (wrap64 (u + two64 - 1));
    shl1_64 (64 - c).
