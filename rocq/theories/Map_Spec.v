(** What a map is: keys and objects, each key once. *)
From Coq Require Import Permutation.
From Verif Require Import Base Map_Model.

Section Spec.
  Context {K : Type}.
  Definition has (m : list (K * N)) (k : K) (r : option N) : Prop :=
    match r with Some p => In (k, p) m | None => forall p, ~ In (k, p) m end.
  Inductive does : list (K * N) -> @op K -> list (K * N) -> out -> Prop :=
  | DAlready m k p ok q : In (k, q) m -> does m (Add k p ok) m OAlready
  | DAdded m k p ok : (forall q, ~ In (k, q) m) -> does m (Add k p ok) ((k, p) :: m) OAdded
  | DNoMem m k p : (forall q, ~ In (k, q) m) -> does m (Add k p false) m ONoMem
  | DFind m k r : has m k r -> does m (Find k) m (OFound r)
  | DFree m m' k p : Permutation m ((k, p) :: m') -> does m (Free p) m' (OFreed (Some p))
  | DEach m l : Permutation (List.map snd m) l -> does m Each m (OEach l).
  Inductive does_all : list (K * N) -> list (@op K) -> list (K * N) -> list out -> Prop :=
  | DNil m : does_all m [] m []
  | DCons m o m' x ops m'' xs : does m o m' x -> does_all m' ops m'' xs -> does_all m (o :: ops) m'' (x :: xs).

  (** The allocator does not give the address of an object that exists, and gives
      pointers of one magnitude ([w], the highest bit); objects are freed that exist. *)
  Definition fair (w : N) (m : list (K * N)) (o : @op K) : Prop :=
    match o with
    | Add _ p _ => 2 ^ w <= p < 2 ^ (w + 1) /\ ~ In p (List.map snd m)
    | Free p => In p (List.map snd m)
    | _ => True
    end.
  Fixpoint all_fair (w : N) (m : list (K * N)) (ops : list (@op K)) : Prop :=
    match ops with
    | [] => True
    | o :: ops => fair w m o /\ forall m' x, does m o m' x -> all_fair w m' ops
    end.
End Spec.
Definition is_add {K} (o : @op K) : bool := match o with Add _ _ _ => true | _ => false end.
Definition adds {K} (ops : list (@op K)) : N := lenN (filter is_add ops).
