(** Model of ipv4ll_random_ip and ipv4ll_random_delay_ms, src/dhcp/ipv4ll.c:41-72.
    [rnd n] is the n-th value of rand() converted to unsigned; seeding is not modelled. *)
From Verif Require Import Base.

(** LINKLOCAL_ADDR, src/dhcp/ipv4ll.h:32; IN_CLASSB_HOST is 0xffff. *)
Definition LINKLOCAL_ADDR : N := 0xa9fe0000.
Definition CLASSB_HOST : N := 0xffff.

(** The loop of lines 52-55, starting with random number [n]; [None]: no
    acceptable number among the next [fuel] ones. *)
Fixpoint random_ip (rnd : nat -> N) (fuel n : nat) : option N :=
  match fuel with
  | O => None
  | S fuel =>
      let tmp := N.land (rnd n) CLASSB_HOST in
      if CLASSB_HOST - 0x0200 <? tmp then random_ip rnd fuel (S n)
      else Some (LINKLOCAL_ADDR + 0x0100 + tmp)
  end.

(** Lines 62-71; guint arithmetic modulo 2^32, division by zero is undefined. *)
Definition random_delay_ms (r secs : N) : res N :=
  let m := (secs * 1000) mod 2 ^ 32 in
  if m =? 0 then UB else Ok (r mod m).
