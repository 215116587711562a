(** What the fields of a string are. *)
From Verif Require Import Base.

(** [split_of sep s fs]: [s] consists of the non-empty separator-free runs
    [fs], each followed by a separator or the end, with separators between. *)
Inductive split_of (sep : byte -> Prop) : list byte -> list (list byte) -> Prop :=
| FNone g : Forall sep g -> split_of sep g []
| FCons g f rest fs :
    Forall sep g -> f <> [] -> Forall (fun c => ~ sep c) f ->
    (rest = [] \/ exists c t, rest = c :: t /\ sep c) ->
    split_of sep rest fs ->
    split_of sep (g ++ f ++ rest) (f :: fs).

(** An absolute path. *)
Definition rooted (s : list byte) : Prop := exists t, s = 47 :: t.
