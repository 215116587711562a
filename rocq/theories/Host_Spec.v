(** What should hold of the functions of Host_Model. *)
From Coq Require Import String.
From Verif Require Import Base Text Host_Model.
From Verif Require Log_Spec.
Local Open Scope list_scope.
Local Open Scope N_scope.

(** Where settings are looked for, in this order. *)
Definition places (home : list byte) : list (list byte) :=
  map (fun s => home ++ text s) ["/.miraclecastrc"; "/.miraclecast/config"; "/.config/miraclecastrc"; "/.config/miraclecast/config"]%string
  ++ [text "/etc/miraclecastrc"; text "/etc/miraclecast/config"].
Definition no_slash_end (home : list byte) : Prop := home <> [] /\ last home 0 <> 47.

(** Interfaces as Linux has them: names of 1 to 15 bytes without zero and colon, no two alike. *)
Definition netdevs (ifs : list (list byte * N)) : Prop :=
  NoDup (map fst ifs) /\ forall n i, In (n, i) ifs -> 1 <= lenN n <= 15 /\ ~ In 0 n /\ ~ In 58 n /\ 1 <= i.

(** Numbers base 2 and 16. *)
Definition is_bit (c : byte) : bool := (c =? 48) || (c =? 49).
Definition bin_val (l : list byte) : Z := fold_left (fun a c => 2 * a + Z.of_N (c - 48))%Z l 0%Z.
Definition is_hex (c : byte) : bool := (48 <=? c) && (c <=? 57) || (97 <=? c) && (c <=? 102).
Definition hex_val (l : list byte) : N := fold_left (fun a c => 16 * a + (if c <=? 57 then c - 48 else c - 87)) l 0.
(** The number of digits without one: what was asked for, or what is needed. *)
Definition width (x padding : Z) : Z := Z.max padding (Z.log2 x).
Definition is_int (z : Z) : Prop := (- 2 ^ 31 <= z < 2 ^ 31)%Z.
(** [w] bytes a row, behind their offset in at least four digits; [shown]: how a byte looks. *)
Inductive rows (w : N) (shown : byte -> list byte -> Prop) : N -> list byte -> list byte -> Prop :=
| Rows_end off : rows w shown off [] []
| Rows_row off o row items data out :
    row <> [] -> lenN row <= w -> (data <> [] -> lenN row = w) ->
    forallb Log_Spec.is_digit o = true -> Log_Spec.value o = off -> 4 <= lenN o -> (off < 10000 -> lenN o = 4) ->
    Forall2 shown row items -> rows w shown (off + w) data out ->
    rows w shown off (row ++ data) (o ++ text ": " ++ flat_map (fun i => i ++ [32]) items ++ [10] ++ out).
Definition shown_bits (n : N) (x : byte) (i : list byte) : Prop :=
  lenN i = n /\ forallb is_bit i = true /\ bin_val i = Z.of_N x.
Definition shown_hex (x : byte) (i : list byte) : Prop := lenN i = 2 /\ forallb is_hex i = true /\ hex_val i = x.
