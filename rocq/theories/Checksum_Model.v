(** Model of dhcp_checksum, src/dhcp/common.c:417-445. [le]: little endian host. *)
From Verif Require Import Base.

(** Value of a uint16_t in memory, and the bytes of one. *)
Definition word (le : bool) (a b : byte) : N := if le then a + 256 * b else 256 * a + b.
Definition stored (le : bool) (w : N) : list byte :=
  if le then [w mod 256; w / 256] else [w / 256; w mod 256].

(** [sum] is an int32_t: exceeding 2^31 - 1 is undefined. *)
Definition add_sum (sum w : N) : res N := if sum + w <? 2 ^ 31 then Ok (sum + w) else UB.

(** The two loops of lines 427-440; the left-over byte goes to the first byte of
    a zeroed word. *)
Fixpoint sum_words (le : bool) (l : list byte) (sum : N) : res N :=
  match l with
  | a :: b :: l => do sum <- add_sum sum (word le a b); sum_words le l sum
  | [a] => add_sum sum (word le a 0)
  | [] => Ok sum
  end.

(** Lines 441-442. A non-negative int32_t is folded at most twice; four rounds
    are allowed here, running out of them is the outcome [None]. *)
Fixpoint fold16 (fuel : nat) (sum : N) : option N :=
  match fuel with
  | O => None
  | S fuel =>
      if N.shiftr sum 16 =? 0 then Some sum
      else fold16 fuel (N.land sum 0xffff + N.shiftr sum 16)
  end.

(** [~sum] converted to uint16_t is 0xffff - sum. *)
Definition checksum (le : bool) (l : list byte) : res (option N) :=
  do sum <- sum_words le l 0;
  Ok (option_map (fun s => 0xffff - s) (fold16 4 sum)).
