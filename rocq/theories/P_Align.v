(** Properties C03, C04: rounding sizes up to a power of two. *)
From Verif Require Import Base Align_Model Align_Proofs.

(** C03. For 1 <= u <= 2^63 the result is the least power of two >= u. *)
Theorem C03_align_least_power_of_two :
  forall u, 1 <= u <= 2 ^ 63 ->
  exists p, align_power2 u = Ok p
    /\ (exists k, p = 2 ^ k)
    /\ u <= p
    /\ (forall k, u <= 2 ^ k -> p <= 2 ^ k).
Proof. exact align_power2_least. Qed.
Print Assumptions C03_align_least_power_of_two.
Example C03_nontrivial : align_power2 4097 = Ok 8192 /\ align_power2 8192 = Ok 8192
  /\ align_power2 (2 ^ 63) = Ok (2 ^ 63).
Proof. vm_compute. repeat split. Qed.

(** C04 as documented ("0 => 0, overflow => 0") is false: the inputs the
    comment singles out are undefined behaviour. *)
Theorem C04_align_total_refuted :
  exists u, u < 2 ^ 64 /\ align_power2 u = UB.
Proof. exact (ex_intro _ 0 (conj eq_refl eq_refl)). Qed.
Print Assumptions C04_align_total_refuted.

(** ... and they are the only ones. *)
Theorem C04_align_ub_exactly_partial :
  forall u, u < 2 ^ 64 -> (align_power2 u = UB <-> (u = 0 \/ 2 ^ 63 < u)).
Proof. exact align_power2_ub_iff. Qed.
Print Assumptions C04_align_ub_exactly_partial.
