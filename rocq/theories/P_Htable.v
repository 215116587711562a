(** Properties C13-C15 and C53: the hash table. *)
From Coq Require Import Permutation.
From Verif Require Import Base Htable_Model Htable_Spec Htable_Term.

(** C13. Any hash function, any comparison, any sequence of operations, any
    pattern of failing allocations: every result is the one a bag gives. Element
    pointers share their highest bit (as pointers into one heap do), elements
    are inserted under their own hash, at most 3 * 2^28 insertions. *)
Theorem C13_htable_is_bag : forall rehash cmp k ops,
  1 <= k <= 63 -> Forall (good_op rehash k) ops -> inserts ops <= 3 * 2 ^ 28 ->
  exists t L xs, run rehash cmp ht_init ops = Ret (t, xs) /\ bag_run rehash cmp [] ops L xs.
Proof. exact htable_is_bag. Qed.
Print Assumptions C13_htable_is_bag.

(** C14. No operation loops for ever or leaves the table's memory: any non-NULL
    pointers, any (even wrong) hashes. *)
Theorem C14_htable_terminates : forall rehash cmp ops,
  (forall p h b, In (Insert p h b) ops -> p <> 0) -> inserts ops <= 3 * 2 ^ 28 ->
  exists t xs, run rehash cmp ht_init ops = Ret (t, xs).
Proof. exact htable_terminates. Qed.
Print Assumptions C14_htable_terminates.

(** C15. After any operations: a visit, an iteration and clearing each yield
    every element of the bag exactly once; clearing leaves the empty table. *)
Theorem C15_htable_visits_all : forall rehash cmp k ops,
  1 <= k <= 63 -> Forall (good_op rehash k) ops -> inserts ops <= 3 * 2 ^ 28 ->
  exists t L xs l, run rehash cmp ht_init ops = Ret (t, xs) /\ bag_run rehash cmp [] ops L xs
    /\ Permutation L (ht_visit t)
    /\ ht_foreach t = Ret l /\ Permutation L l
    /\ ht_clear t = (ht_visit t, ht_init).
Proof. exact htable_visits. Qed.
Print Assumptions C15_htable_visits_all.

(** C53 is refuted: inserting a second, smaller pointer loses it. *)
Theorem C53_htable_any_pointers_refuted : exists p q t,
  p <> 0 /\ q <> 0 /\ p <> q /\
  run (fun _ => 0) N.eqb ht_init
    [Insert p 0 true; Insert q 0 true; Lookup p 0; Lookup q 0; Visit]
  = Ret (t, [OInsert true; OInsert true; OFound (Some p); OFound None; OList [p]]).
Proof.
  exists 0x7ffffffff010, 0x404010. eexists.
  split; [discriminate|]. split; [discriminate|]. split; [discriminate|].
  vm_compute. reflexivity.
Qed.
Print Assumptions C53_htable_any_pointers_refuted.

(** What holds instead: pointers sharing their highest bit. *)
Theorem C53_htable_common_highest_bit_partial : forall rehash cmp k ops,
  1 <= k <= 63 -> Forall (good_op rehash k) ops -> inserts ops <= 3 * 2 ^ 28 ->
  exists t L xs, run rehash cmp ht_init ops = Ret (t, xs) /\ bag_run rehash cmp [] ops L xs.
Proof. exact htable_is_bag. Qed.
Print Assumptions C53_htable_common_highest_bit_partial.

(** Eight elements with colliding hashes: growth, removals, deleted markers. *)
Example C13_nontrivial :
  let h p := p / 64 in
  let b := 0x555500000000 in
  let ins p := Insert (b + p) (h (b + p)) true in
  let rem p := Remove (b + p) (h (b + p)) in
  let look p := Lookup (b + p) (h (b + p)) in
  exists t, run h N.eqb ht_init
    [ins 16; ins 32; ins 32; ins 64; rem 32; look 32; rem 32; look 32; rem 32;
     ins 80; ins 96; ins 112; rem 64; look 80; Insert (b + 128) (h (b + 128)) true; Visit; Foreach; Clear; Visit]
  = Ret (t, [OInsert true; OInsert true; OInsert true; OInsert true;
     OFound (Some (b + 32)); OFound (Some (b + 32)); OFound (Some (b + 32)); OFound None; OFound None;
     OInsert true; OInsert true; OInsert true; OFound (Some (b + 64)); OFound (Some (b + 80)); OInsert true;
     OList [b + 16; b + 80; b + 96; b + 112; b + 128]; OList [b + 16; b + 80; b + 96; b + 112; b + 128];
     OList [b + 16; b + 80; b + 96; b + 112; b + 128]; OList []]).
Proof. eexists. vm_compute. reflexivity. Qed.

Example C14_nontrivial : exists t,
  run (fun p => p / 16) (fun _ _ => false) ht_init
    [Insert 1 5 true; Insert 3 0 true; Insert (2 ^ 64 - 1) 1 true; Insert 7 1 true; Lookup 3 1; Remove 1 0; Foreach]
  = Ret (t, [OInsert true; OInsert true; OInsert true; OInsert true; OFound None; OFound None; OList [3; 7; 2 ^ 64 - 1]]).
Proof. eexists. vm_compute. reflexivity. Qed.
