(** Properties C05, C06, C07, C47: the strict number parser. *)
From Verif Require Import Base Atoi_Model Atoi_Spec Atoi_Proofs.

(** C05. Whatever the string, there is exactly one way to read it as prefix,
    maximal digit run and rest; the parser stops right after the run, and if
    the number fits 64 bits returns it. *)
Theorem C05_number_exact :
  forall base s b pre ds vs rest,
  base <= 36 -> run base s b pre ds vs rest ->
  next (atoi_ulln s base) = lenN pre + lenN ds
  /\ (num b vs < 2 ^ 64 ->
      ret (atoi_ulln s base) = Success /\ value (atoi_ulln s base) = num b vs).
Proof. exact atoi_exact_all. Qed.
Print Assumptions C05_number_exact.

Theorem C05_run_exists :
  forall base s, base <= 36 -> exists b pre ds vs rest, run base s b pre ds vs rest.
Proof. exact atoi_run_exists. Qed.
Print Assumptions C05_run_exists.

Theorem C05_run_unique :
  forall base s b pre ds vs rest b' pre' ds' vs' rest',
  run base s b pre ds vs rest -> run base s b' pre' ds' vs' rest' ->
  b = b' /\ pre = pre' /\ ds = ds' /\ vs = vs' /\ rest = rest'.
Proof. exact run_unique. Qed.
Print Assumptions C05_run_unique.

Theorem C05_invalid_base :
  forall s base, 36 < base -> atoi_ulln s base = mkAnswer Einval 0 0.
Proof. exact atoi_bad_base. Qed.
Print Assumptions C05_invalid_base.

(** "0x1fZ" with base detection: prefix "0x", digits "1f", rest "Z". *)
Example C05_nontrivial :
  run 0 [48; 120; 49; 102; 90] 16 [48; 120] [49; 102] [1; 15] [90]
  /\ num 16 [1; 15] = 31
  /\ atoi_ulln [48; 120; 49; 102; 90] 0 = mkAnswer Success 4 31.
Proof.
  split; [|split; vm_compute; reflexivity].
  constructor.
  - reflexivity.
  - eapply PHex with (v := 1). apply ctoi_Some. reflexivity.
  - repeat constructor; apply ctoi_Some; reflexivity.
  - intros c t v [= <- <-]. apply ctoi_None. reflexivity.
Qed.

(** C06 is false: "18446744073709551616" = 2^64 parses successfully. *)
Definition two64_text : list byte :=
  [49;56;52;52;54;55;52;52;48;55;51;55;48;57;53;53;49;54;49;54].
Theorem C06_overflow_reported_refuted :
  exists s vs rest, run 10 s 10 [] s vs rest /\ num 10 vs = 2 ^ 64
    /\ atoi_ulln s 10 = mkAnswer Success 20 (2 ^ 64 - 6).
Proof.
  exact (ex_intro _ two64_text (ex_intro _ (map (fun c => c - 48) two64_text)
    (ex_intro _ []
      (conj (mkRun 10 two64_text 10 [] two64_text _ [] eq_refl
               (PGiven 10 two64_text (fun H => ltac:(discriminate H)))
               ltac:(repeat constructor; apply ctoi_Some; reflexivity)
               (fun c t v (H : [] = c :: t) => ltac:(discriminate H)))
         (conj eq_refl eq_refl))))).
Qed.
Print Assumptions C06_overflow_reported_refuted.

(** C06, exactly which overflows are reported: those where the number without
    the last digit, times the base, already overflows. Otherwise the parser
    silently drops the last digit. *)
Theorem C06_overflow_reported_partial :
  forall base s b pre ds ws w rest,
  base <= 36 -> run base s b pre ds (ws ++ [w]) rest ->
  2 ^ 64 <= num b (ws ++ [w]) ->
  (2 ^ 64 <= num b ws * b ->
     ret (atoi_ulln s base) = Erange /\ value (atoi_ulln s base) = 2 ^ 64 - 1)
  /\ (num b ws * b < 2 ^ 64 ->
     ret (atoi_ulln s base) = Success /\ value (atoi_ulln s base) = num b ws * b).
Proof. exact atoi_overflow_all. Qed.
Print Assumptions C06_overflow_reported_partial.
Example C06_nontrivial :
  atoi_ulln (two64_text ++ [48]) 10 = mkAnswer Erange 21 (2 ^ 64 - 1).
Proof. vm_compute. reflexivity. Qed.

(** C07. Narrow parsers: never truncate, never invent. *)
Theorem C07_narrow_never_truncates :
  forall max s base, max < 2 ^ 64 ->
  let w := atoi_ulln s base in let n := narrow max w in
  next n = next w
  /\ (ret n = Success -> ret w = Success /\ value n = value w /\ value n <= max)
  /\ (ret w = Success -> value w <= max -> ret n = Success)
  /\ (ret w = Success -> max < value w -> ret n = Erange /\ value n = max)
  /\ (ret w = Erange -> ret n = Erange /\ value n = max).
Proof. exact narrow_spec. Qed.
Print Assumptions C07_narrow_never_truncates.
Example C07_nontrivial :
  atoi_un [52;50;57;52;57;54;55;50;57;54] 10 = mkAnswer Erange 10 (2 ^ 32 - 1)
  /\ atoi_un [52;50;57;52;57;54;55;50;57;53] 10 = mkAnswer Success 10 (2 ^ 32 - 1).
Proof. vm_compute. split; reflexivity. Qed.

(** C47 is false: an empty digit run is accepted as the number 0. *)
Theorem C47_empty_run_rejected_refuted :
  exists s, run 10 s 10 [] [] [] s /\ atoi_ulln s 10 = mkAnswer Success 0 0.
Proof.
  exact (ex_intro _ [45; 49]
    (conj (mkRun 10 [45; 49] 10 [] [] [] [45; 49] eq_refl
             (PGiven 10 [45; 49] (fun H => ltac:(discriminate H)))
             (Forall2_nil _)
             (fun c t v (H : [45; 49] = c :: t) =>
                ltac:(injection H as <- <-; apply ctoi_None; reflexivity)))
       eq_refl)).
Qed.
Print Assumptions C47_empty_run_rejected_refuted.

(** ... but the caller can tell: success with nothing consumed after the prefix
    happens only with value 0 and the stop position at the end of the prefix. *)
Theorem C47_empty_run_detectable_partial :
  forall base s b pre ds vs rest,
  base <= 36 -> run base s b pre ds vs rest ->
  (next (atoi_ulln s base) = lenN pre <-> ds = []).
Proof. exact atoi_empty_detectable. Qed.
Print Assumptions C47_empty_run_detectable_partial.
