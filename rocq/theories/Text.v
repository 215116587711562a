(** String literals of the C sources as byte lists, and printf's %u. *)
From Coq Require Import Ascii String.
From Verif Require Import Base.

Definition text (s : string) : list byte := map N_of_ascii (list_ascii_of_string s).
Arguments text _%string_scope.

(** Decimal digits of [n] without leading zeros, as "%u", "%zu", "%llu". *)
Fixpoint dec_loop (fuel : nat) (n : N) (acc : list byte) : list byte :=
  match fuel with
  | O => acc
  | S fuel => if n <? 10 then (48 + n) :: acc
              else dec_loop fuel (n / 10) ((48 + n mod 10) :: acc)
  end.
Definition dec (n : N) : list byte := dec_loop (S (N.size_nat n)) n [].

(** strcasecmp == 0 (in the C locale) on C strings. *)
Definition lower (c : byte) : byte := if (65 <=? c) && (c <=? 90) then c + 32 else c.
Fixpoint case_eq (a b : list byte) : bool :=
  match a, b with
  | [], [] => true
  | x :: a, y :: b => (lower x =? lower y) && case_eq a b
  | _, _ => false
  end.
(** strcmp == 0. *)
Fixpoint str_eq (a b : list byte) : bool :=
  match a, b with
  | [], [] => true
  | x :: a, y :: b => (x =? y) && str_eq a b
  | _, _ => false
  end.
(** strncasecmp(s, p, strlen(p)) == 0. *)
Definition case_prefix (p s : list byte) : bool := case_eq (takeN (lenN p) s) p.
(** strchr(s, c): the text before the first [c], and the text from it on. *)
Fixpoint break_at (c : byte) (s : list byte) : list byte * option (list byte) :=
  match s with
  | [] => ([], None)
  | x :: t => if x =? c then ([], Some s)
              else let '(a, r) := break_at c t in (x :: a, r)
  end.
