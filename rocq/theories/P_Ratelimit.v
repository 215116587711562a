(** Properties C11, C52: the rate limiter. *)
From Verif Require Import Base Ratelimit_Model Ratelimit_Spec Ratelimit_Proofs.

(** C11. The event times fall into windows; of every window exactly the first
    [b] events are admitted. *)
Theorem C11_ratelimit_windows :
  forall i b ts, 0 < i -> 0 < b < 2 ^ 32 -> clock i ts ->
  exists ws, concat ws = ts /\ windows i ws
    /\ rl_run (rl_init i b) ts = concat (map (admit b) ws).
Proof. exact rl_windows. Qed.
Print Assumptions C11_ratelimit_windows.

(** Consequence for arbitrary intervals of the same length: at most 2b - 1. *)
Theorem C11_ratelimit_sliding_bound :
  forall i b ts x, 0 < i -> 0 < b < 2 ^ 32 -> clock i ts ->
  admitted_in x i ts (rl_run (rl_init i b) ts) < 2 * b.
Proof. exact rl_sliding. Qed.
Print Assumptions C11_ratelimit_sliding_bound.

(** A zero interval or burst disables the limiter. *)
Theorem C11_ratelimit_disabled :
  forall i b ts, i = 0 \/ b = 0 -> rl_run (rl_init i b) ts = map (fun _ => true) ts.
Proof. exact rl_disabled. Qed.
Print Assumptions C11_ratelimit_disabled.

(** A reset limiter is a new one. *)
Theorem C11_ratelimit_reset : forall r ts, rl_run (rl_reset r) ts = rl_run (rl_init (interval r) (burst r)) ts.
Proof. exact rl_reset_new. Qed.
Print Assumptions C11_ratelimit_reset.
Example C11_sliding_reached : admitted_in 7 10 [5; 15; 16; 17] (rl_run (rl_init 10 2) [5; 15; 16; 17]) = 3.
Proof. vm_compute. reflexivity. Qed.
Example C11_nontrivial :
  rl_run (rl_init 10 2) [5; 6; 7; 15; 16; 17; 18; 40]
  = [true; true; false; false; true; true; false; true]
  /\ windows 10 [[5; 6; 7; 15]; [16; 17; 18]; [40]]
  /\ admitted_in 5 13 [5; 6; 7; 15; 16; 17; 18; 40]
       (rl_run (rl_init 10 2) [5; 6; 7; 15; 16; 17; 18; 40]) = 4.
Proof.
  split; [vm_compute; reflexivity|]. split; [|vm_compute; reflexivity].
  repeat constructor; lia.
Qed.

(** C52 is false: a limiter defined with the static initialiser does not limit;
    the burst value lands in the wrong field. *)
Theorem C52_static_definition_equals_init_refuted :
  exists i b ts, 0 < i /\ 0 < b < 2 ^ 32 /\ clock i ts
    /\ rl_run (rl_define i b) ts <> rl_run (rl_init i b) ts.
Proof. exact rl_define_counterexample. Qed.
Print Assumptions C52_static_definition_equals_init_refuted.

(** It admits everything, whatever the parameters. *)
Theorem C52_static_definition_partial :
  forall i b ts, rl_run (rl_define i b) ts = map (fun _ => true) ts.
Proof. exact rl_define_admits_all. Qed.
Print Assumptions C52_static_definition_partial.
