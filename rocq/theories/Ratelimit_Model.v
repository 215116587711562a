(** Model of the rate limiter, src/shared/shl_util.c:904-926 and
    src/shared/shl_util.h:140-163. *)
From Verif Require Import Base.

(** struct shl_ratelimit, src/shared/shl_util.h:142-147. *)
Record rl := mkRl { interval : N; begin : N; burst : N; num : N }.

(** SHL_RATELIMIT_INIT, src/shared/shl_util.h:152-158. *)
Definition rl_init (i b : N) : rl := mkRl i 0 b 0.
(** SHL_RATELIMIT_DEFINE, src/shared/shl_util.h:149-150: a positional
    initialiser { interval, burst, 0, 0 } for the fields above. *)
Definition rl_define (i b : N) : rl := mkRl i b 0 0.
(** SHL_RATELIMIT_RESET, src/shared/shl_util.h:160-164. *)
Definition rl_reset (r : rl) : rl := mkRl (interval r) 0 (burst r) 0.

(** shl_ratelimit_test, src/shared/shl_util.c:904-926; [ts] is shl_now(). *)
Definition rl_test (r : rl) (ts : N) : rl * bool :=
  if (interval r =? 0) || (burst r =? 0) then (r, true)
  else if (begin r =? 0) || (wrap64 (begin r + interval r) <? ts) then
    (mkRl (interval r) ts (burst r) ((0 + 1) mod 2 ^ 32), true)
  else if num r <? burst r then
    (mkRl (interval r) (begin r) (burst r) ((num r + 1) mod 2 ^ 32), true)
  else (r, false).

(** A sequence of tests at the given times. *)
Fixpoint rl_run (r : rl) (times : list N) : list bool :=
  match times with
  | [] => []
  | t :: ts => let '(r, b) := rl_test r t in b :: rl_run r ts
  end.
