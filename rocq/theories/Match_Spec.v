(** What is expected of match callbacks. *)
From Verif Require Import Base Match_Model.

(** Numbers of the registrations in force, and their keys. *)
Definition nums (b : bus) : list N := map m_num (b_list b).
Definition keys (b : bus) : list N := map m_key (b_list b).
(** A removal takes back the latest registration with the key. *)
Definition without_last (key : N) (ks ks' : list N) : Prop :=
  (~ In key ks /\ ks' = ks) \/ exists a c, ks = a ++ key :: c /\ ~ In key c /\ ks' = a ++ c.
Inductive after : list op -> list N -> list N -> Prop :=
| after_nil ks : after [] ks ks
| after_add key os ks ks' : after os (ks ++ [key]) ks' -> after (Add key :: os) ks ks'
| after_remove key os ks ks1 ks' : without_last key ks ks1 -> after os ks1 ks' -> after (Remove key :: os) ks ks'.
(** The keys that are removed. *)
Fixpoint removals (os : list op) : list N :=
  match os with [] => [] | Add _ :: os => removals os | Remove key :: os => key :: removals os end.
(** All operations of the callbacks that were called. *)
Definition done (script : list (list op * bool)) (n : nat) : list op := concat (map fst (firstn n script)).
