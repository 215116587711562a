(** What is expected of the logger. *)
From Coq Require Import String.
From Verif Require Import Base Text Log_Model.
Local Open Scope list_scope.
Local Open Scope N_scope.

(** Reading decimal numbers. *)
Definition is_digit (c : byte) : bool := (48 <=? c) && (c <=? 57).
Definition value (l : list byte) : N := fold_left (fun a d => a * 10 + (d - 48)) l 0.
(** A stamp that shows a time in microseconds. *)
Definition shows (l : list byte) (us : Z) : Prop :=
  exists a b, l = [91] ++ a ++ [46] ++ b ++ [93; 32] /\ forallb is_digit (a ++ b) = true /\ 4 <= lenN a /\ lenN b = 6
    /\ us = (Z.of_N (value a) * 1000000 + Z.of_N (value b))%Z.
Definition micros (t : timeval) : Z := (fst t * 1000000 + snd t)%Z.
Definition is_time (t : timeval) : Prop := (0 <= snd t < 1000000)%Z.

(** The severity a reader of the log sees: an optional stamp in brackets, then the
    name before the first colon. *)
Fixpoint until (c : byte) (l : list byte) : option (list byte * list byte) :=
  match l with
  | [] => None
  | x :: l => if x =? c then Some ([], l) else match until c l with Some (a, r) => Some (x :: a, r) | None => None end
  end.
Definition skip_stamp (l : list byte) : list byte :=
  match l with
  | 91 :: r => match until 93 r with Some (_, 32 :: r) => r | _ => l end
  | _ => l
  end.
Fixpoint index_of (names : list string) (l : list byte) (i : N) : option N :=
  match names with [] => None | n :: names => if str_eq (text n) l then Some i else index_of names l (i + 1) end.
Definition read_sev (l : list byte) : option N :=
  match until 58 (skip_stamp l) with
  | Some (name, _) => index_of ["FATAL"; "ALERT"; "CRITICAL"; "ERROR"; "WARNING"; "NOTICE"; "INFO"; "DEBUG"; "TRACE"]%string name 0
  | None => None
  end.
Definition newlines (l : list byte) : N := lenN (filter (N.eqb 10) l).
Definition opt_newlines (o : option (list byte)) : N := match o with Some l => newlines l | None => 0 end.
(** A locale without brackets and newlines in dates and times, and short. *)
Definition usual (t : tm) : Prop :=
  ~ In 93 (tm_x t ++ tm_X t) /\ ~ In 10 (tm_x t ++ tm_X t) /\ lenN (tm_x t) + lenN (tm_X t) <= 60 /\ tm_day t <= 31.

(** Date, time and milliseconds of a moment: the nearest millisecond. [loc] is
    localtime. *)
Definition near_ms (ms us : Z) : Prop := (Z.abs (ms * 1000 - us) <= 500)%Z.
Definition right_stamp (loc : Z -> tm) (t : timeval) (l : list byte) : Prop :=
  exists ms, near_ms ms (micros t) /\ l = tm_x (loc (ms / 1000)%Z) ++ text " - " ++ tm_X (loc (ms / 1000)%Z) ++ [46] ++ zeros 3 (dec (Z.to_N (ms mod 1000))).
