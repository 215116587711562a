(** What a number in a string is, independently of the parser. *)
From Verif Require Import Base.

(** Digits of a base: '0'..'9', then letters of either case. *)
Inductive digit (base : N) : byte -> N -> Prop :=
| DNum v : v < 10 -> v < base -> digit base (48 + v) v
| DLower v : 10 <= v < 36 -> v < base -> digit base (97 + (v - 10)) v
| DUpper v : 10 <= v < 36 -> v < base -> digit base (65 + (v - 10)) v.

(** Positional value of a digit sequence, most significant digit first. *)
Fixpoint num (base : N) (vs : list N) : N :=
  match vs with
  | [] => 0
  | v :: vs => v * base ^ lenN vs + num base vs
  end.

(** The prefix that selects a base when auto-detection is requested. *)
Inductive prefix : N -> list byte -> N -> list byte -> Prop :=
| PGiven base s : base <> 0 -> prefix base s base []
| POctal c v s : digit 8 c v -> prefix 0 (48 :: c :: s) 8 [48]
| PHex c v s : digit 16 c v -> prefix 0 (48 :: 120 :: c :: s) 16 [48; 120]
| PDecimal s :
    (forall c v t, s = 48 :: c :: t -> ~ digit 8 c v) ->
    (forall c v t, s = 48 :: 120 :: c :: t -> ~ digit 16 c v) ->
    prefix 0 s 10 [].

(** [run s b pre ds vs rest]: [s] is [pre], then the maximal digit run [ds] with
    digit values [vs], then [rest]. *)
Record run (base : N) (s : list byte) (b : N) (pre ds : list byte) (vs : list N)
    (rest : list byte) : Prop := mkRun {
  run_split : s = pre ++ ds ++ rest;
  run_prefix : prefix base s b pre;
  run_digits : Forall2 (digit b) ds vs;
  run_maximal : forall c t v, rest = c :: t -> ~ digit b c v }.
