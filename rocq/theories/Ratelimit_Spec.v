(** What a rate limiter should do. *)
From Verif Require Import Base.
From Coq Require Import Sorted.

(** Times divided into windows: a window begins with its first event and holds
    the following events up to [i] later. *)
Inductive windows (i : N) : list (list N) -> Prop :=
| WNil : windows i []
| WCons t ts ws :
    Forall (fun x => x <= t + i) ts ->
    match ws with (u :: _) :: _ => t + i < u | _ => True end ->
    windows i ws -> windows i ((t :: ts) :: ws).

(** In a window of [n] events the first [b] are admitted. *)
Definition admit (b : N) (w : list N) : list bool :=
  map (fun k => N.of_nat k <? b) (seq 0 (length w)).

(** Number of admitted events with times in [x, x + i]. *)
Fixpoint admitted_in (x i : N) (ts : list N) (bs : list bool) : N :=
  match ts, bs with
  | t :: ts, b :: bs =>
      (if b && (x <=? t) && (t <=? x + i) then 1 else 0) + admitted_in x i ts bs
  | _, _ => 0
  end.

(** Clock readings: non-decreasing, not 0, no overflow when adding [i]. *)
Definition clock (i : N) (ts : list N) : Prop :=
  Sorted N.le ts /\ Forall (fun t => 0 < t /\ t + i < 2 ^ 64) ts.
