(** What a hash table is: a bag of elements. *)
From Coq Require Import Permutation.
From Verif Require Import Base Htable_Model.

Section Spec.
  Context (rehash : N -> N) (cmp : N -> N -> bool).

  (** Bag before, operation, bag after, result. *)
  Inductive bag_step : list N -> op -> list N -> out -> Prop :=
  | BInsert L p h ok : bag_step L (Insert p h ok) (p :: L) (OInsert true)
  | BNoMem L p h : bag_step L (Insert p h false) L (OInsert false)
  | BFound L obj h p : In p L -> cmp obj p = true ->
      bag_step L (Lookup obj h) L (OFound (Some p))
  | BNotFound L obj h : (forall p, In p L -> rehash p = h -> cmp obj p = false) ->
      bag_step L (Lookup obj h) L (OFound None)
  | BRemoved L L' obj h p : Permutation L (p :: L') -> cmp obj p = true ->
      bag_step L (Remove obj h) L' (OFound (Some p))
  | BNotRemoved L obj h : (forall p, In p L -> rehash p = h -> cmp obj p = false) ->
      bag_step L (Remove obj h) L (OFound None)
  | BVisit L l : Permutation L l -> bag_step L Visit L (OList l)
  | BForeach L l : Permutation L l -> bag_step L Foreach L (OList l)
  | BClear L l : Permutation L l -> bag_step L Clear [] (OList l).

  Inductive bag_run : list N -> list op -> list N -> list out -> Prop :=
  | BNil L : bag_run L [] L []
  | BCons L o L' x ops L'' xs :
      bag_step L o L' x -> bag_run L' ops L'' xs -> bag_run L (o :: ops) L'' (x :: xs).

  (** Users pass the hash of the inserted element, and pointers of the same
      magnitude (the same highest bit [k], not the lowest one). *)
  Definition good_op (k : N) (o : op) : Prop :=
    match o with Insert p h _ => h = rehash p /\ 2 ^ k <= p < 2 ^ (k + 1) | _ => True end.
End Spec.

Definition is_insert (o : op) : bool := match o with Insert _ _ _ => true | _ => false end.
Definition inserts (ops : list op) : N := lenN (filter is_insert ops).
