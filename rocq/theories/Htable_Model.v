(** Model of the hash table, src/shared/shl_htable.c (and the iteration macros of
    src/shared/shl_htable.h). 64-bit machine: uintptr_t and size_t have 64 bits.
    Elements are pointer values; [rehash] and [cmp] are the two user callbacks
    (pure: the keys of stored objects do not change). *)
From Verif Require Import Base.

Definition ones64 : N := N.ones 64.
(** [~x] on uintptr_t. *)
Definition not64 (x : N) : N := N.lxor ones64 (N.land x ones64).

(** struct htable, src/shared/shl_htable.c:30-40. [own = None]: the table
    pointer still points to the member [perfect_bit] (a table of one slot). *)
Record ht := mkHt {
  bits : N; elems : N; deleted : N; maxe : N; maxd : N;
  mask : N; cbits : N; perf : N; own : option (list N) }.

Definition table (t : ht) : list N :=
  match own t with Some T => T | None => [perf t] end.

Definition rd (T : list N) (i : N) : oc N :=
  match nthN T i with Some e => Ret e | None => Undef end.
Definition wr (T : list N) (i v : N) : oc (list N) :=
  if i <? lenN T then Ret (takeN i T ++ v :: dropN (i + 1) T) else Undef.

(** HTABLE_DELETED, src/shared/shl_htable.c:54. *)
Definition DELETED : N := 1.
(** get_extra_ptr_bits, src/shared/shl_htable.c:57-61. *)
Definition get_extra (t : ht) (e : N) : N := N.land e (mask t).
(** get_raw_ptr, src/shared/shl_htable.c:63-66. *)
Definition get_raw (t : ht) (e : N) : N := N.lor (N.land e (not64 (mask t))) (cbits t).
(** make_hval, src/shared/shl_htable.c:68-72. *)
Definition make_hval (t : ht) (p b : N) : N := N.lor (N.land p (not64 (mask t))) b.
(** entry_is_valid, src/shared/shl_htable.c:74-77. *)
Definition valid (e : N) : bool := DELETED <? e.
(** get_hash_ptr_bits, src/shared/shl_htable.c:79-87. *)
Definition hash_bits (t : ht) (h : N) : N :=
  N.land (N.land (N.lxor h (N.shiftr h (bits t))) (mask t)) (not64 (perf t)).

(** htable_init, src/shared/shl_htable.c:42-43,89-98. *)
Definition ht_init : ht := mkHt 0 0 0 0 0 ones64 0 0 None.

(** 1 << bits. [bits] never exceeds 30, see [double_table]. *)
Definition size (t : ht) : N := 2 ^ bits t.
(** hash_bucket, src/shared/shl_htable.c:158-161. *)
Definition hash_bucket (t : ht) (h : N) : N := N.land h (size t - 1).
(** (i + 1) & ((1 << ht->bits)-1). *)
Definition next_slot (t : ht) (i : N) : N := N.land (i + 1) (size t - 1).

(** htable_val, src/shared/shl_htable.c:163-177. The loop state is the offset
    (and, in the first round only, the perfect bit), so the loop is endless once
    it makes more rounds than there are slots: [fuel] is that number. *)
Fixpoint ht_val (fuel : nat) (t : ht) (off h2 perfect : N) : oc (option (N * N)) :=
  match fuel with
  | O => Endless
  | S fuel =>
      let* e := rd (table t) off in
      if e =? 0 then Ret None
      else if negb (e =? DELETED) && (get_extra t e =? h2) then Ret (Some (get_raw t e, off))
      else ht_val fuel t (next_slot t off) (N.land h2 (not64 perfect)) perfect
  end.
Definition rounds (t : ht) : nat := S (length (table t)).
(** htable_firstval, src/shared/shl_htable.c:179-184. *)
Definition ht_firstval (t : ht) (h : N) : oc (option (N * N)) :=
  ht_val (rounds t) t (hash_bucket t h) (N.lor (hash_bits t h) (perf t)) (perf t).
(** htable_nextval, src/shared/shl_htable.c:186-191. *)
Definition ht_nextval (t : ht) (off h : N) : oc (option (N * N)) :=
  ht_val (rounds t) t (next_slot t off) (N.lor (hash_bits t h) 0) 0.

(** ht_add, src/shared/shl_htable.c:194-206, the loop looking for a slot. *)
Fixpoint add_slot (fuel : nat) (t : ht) (T : list N) (i perfect : N) : oc (N * N) :=
  match fuel with
  | O => Endless
  | S fuel =>
      let* e := rd T i in
      if valid e then add_slot fuel t T (next_slot t i) 0 else Ret (i, perfect)
  end.
Definition ht_add (t : ht) (T : list N) (new h : N) : oc (list N) :=
  let* (i, perfect) := add_slot (S (length T)) t T (hash_bucket t h) (perf t) in
  wr T i (make_hval t new (N.lor (hash_bits t h) perfect)).

(** The lowest bit of the mask, src/shared/shl_htable.c:224-232. *)
Fixpoint low_bit (n : nat) (i m : N) : option N :=
  match n with
  | O => None
  | S n => if N.land m (2 ^ i) =? 0 then low_bit n (i + 1) m else Some (2 ^ i)
  end.

(** Adding all valid entries of a table, src/shared/shl_htable.c:234-241. *)
Fixpoint add_all (rehash : N -> N) (t : ht) (T : list N) (old : list N) : oc (list N) :=
  match old with
  | [] => Ret T
  | e :: old =>
      if valid e then
        let p := get_raw t e in
        let* T := ht_add t T p (rehash p) in add_all rehash t T old
      else add_all rehash t T old
  end.

(** double_table, src/shared/shl_htable.c:208-245; [None]: calloc failed. The
    size of the new table, 1 << (bits+1), is computed as int. *)
Definition double_table (rehash : N -> N) (calloc_ok : bool) (t : ht) : oc (option ht) :=
  if 31 <=? bits t + 1 then Undef
  else if negb calloc_ok then Ret None
  else
    let b := bits t + 1 in
    let pf := if (perf t =? 0) && negb (mask t =? 0)
              then match low_bit 64 0 (mask t) with Some x => x | None => perf t end
              else perf t in
    let t' := mkHt b (elems t) 0 (3 * 2 ^ b / 4) (9 * 2 ^ b / 10) (mask t) (cbits t) pf None in
    let* T := add_all rehash t' (repeat 0 (N.to_nat (2 ^ b)))
                (match own t with Some T => T | None => [] end) in
    Ret (Some (mkHt b (elems t) 0 (3 * 2 ^ b / 4) (9 * 2 ^ b / 10) (mask t) (cbits t) pf (Some T))).

(** rehash_table, src/shared/shl_htable.c:247-269: the first empty bucket ... *)
Fixpoint find_empty (T : list N) (i : N) : oc N :=
  match T with
  | [] => Undef
  | e :: T => if e =? 0 then Ret i else find_empty T (i + 1)
  end.
(** ... and one round of the loop from there. *)
Definition rehash_one (rehash : N -> N) (t : ht) (T : list N) (h : N) : oc (list N) :=
  let* e := rd T h in
  if e =? 0 then Ret T
  else if e =? DELETED then wr T h 0
  else if N.land e (perf t) =? 0 then
    let p := get_raw t e in
    let* T := wr T h 0 in
    ht_add t T p (rehash p)
  else Ret T.
Fixpoint rehash_loop (rehash : N -> N) (t : ht) (T : list N) (start i : N) (n : nat) : oc (list N) :=
  match n with
  | O => Ret T
  | S n =>
      let* T := rehash_one rehash t T (N.land (i + start) (size t - 1)) in
      rehash_loop rehash t T start (i + 1) n
  end.
Definition set_table (t : ht) (T : list N) : ht :=
  mkHt (bits t) (elems t) (deleted t) (maxe t) (maxd t) (mask t) (cbits t) (perf t) (Some T).
Definition rehash_table (rehash : N -> N) (t : ht) : oc ht :=
  let* start := find_empty (table t) 0 in
  let* T := rehash_loop rehash t (table t) start 0 (N.to_nat (size t)) in
  Ret (mkHt (bits t) (elems t) 0 (maxe t) (maxd t) (mask t) (cbits t) (perf t) (Some T)).

(** update_common, src/shared/shl_htable.c:272-312. *)
Fixpoint top_bit (n : nat) (p : N) : N :=
  match n with
  | O => 0
  | S n' => if N.land p (2 ^ N.of_nat n) =? 0 then top_bit n' p else N.of_nat n
  end.
Definition update_common (t : ht) (p : N) : ht :=
  if elems t =? 0 then
    let m := not64 (2 ^ top_bit 63 p) in
    mkHt (bits t) (elems t) (deleted t) (maxe t) (maxd t) m (N.land p m) 1 (own t)
  else
    let md := N.lxor (cbits t) (N.land p (mask t)) in
    let bd := N.land (cbits t) md in
    let fix1 e := if valid e then N.lor (N.land e (not64 md)) bd else e in
    mkHt (bits t) (elems t) (deleted t) (maxe t) (maxd t)
      (N.land (mask t) (not64 md)) (N.land (cbits t) (not64 md)) (N.land (perf t) (not64 md))
      (Some (map fix1 (table t))).

(** htable_add, src/shared/shl_htable.c:314-327; the boolean is its result. A
    NULL element fails the assertion. *)
Definition htable_add (rehash : N -> N) (calloc_ok : bool) (t : ht) (h p : N) : oc (bool * ht) :=
  let* g := (if maxe t <? elems t + 1 then double_table rehash calloc_ok t else Ret (Some t)) in
  match g with
  | None => Ret (false, t)
  | Some t =>
      let* t := (if maxd t <? elems t + 1 + deleted t then rehash_table rehash t else Ret t) in
      if p =? 0 then Undef
      else
        let t := if N.land p (mask t) =? cbits t then t else update_common t p in
        let* T := ht_add t (table t) p h in
        Ret (true, mkHt (bits t) (elems t + 1) (deleted t) (maxe t) (maxd t)
                        (mask t) (cbits t) (perf t) (Some T))
  end.

(** htable_delval, src/shared/shl_htable.c:329-337. *)
Definition htable_delval (t : ht) (off : N) : oc ht :=
  if off <? size t then
    let* e := rd (table t) off in
    if valid e then
      let* T := wr (table t) off DELETED in
      Ret (mkHt (bits t) (elems t - 1) (deleted t + 1) (maxe t) (maxd t)
                (mask t) (cbits t) (perf t) (Some T))
    else Undef
  else Undef.

(** The common loop of shl_htable_lookup, src/shared/shl_htable.c:372-390, and
    shl_htable_remove, 399-419: first candidate that compares equal. *)
Fixpoint find_from (fuel : nat) (cmp : N -> N -> bool) (t : ht) (obj h : N)
  (c : oc (option (N * N))) : oc (option (N * N)) :=
  match fuel with
  | O => Endless
  | S fuel =>
      let* r := c in
      match r with
      | None => Ret None
      | Some (p, off) =>
          if cmp obj p then Ret (Some (p, off))
          else find_from fuel cmp t obj h (ht_nextval t off h)
      end
  end.
Definition ht_find (cmp : N -> N -> bool) (t : ht) (obj h : N) : oc (option (N * N)) :=
  find_from (rounds t) cmp t obj h (ht_firstval t h).
Definition ht_lookup (cmp : N -> N -> bool) (t : ht) (obj h : N) : oc (option N) :=
  let* r := ht_find cmp t obj h in Ret (option_map fst r).
Definition ht_remove (cmp : N -> N -> bool) (t : ht) (obj h : N) : oc (option N * ht) :=
  let* r := ht_find cmp t obj h in
  match r with
  | None => Ret (None, t)
  | Some (p, off) => let* t := htable_delval t off in Ret (Some p, t)
  end.

(** shl_htable_insert, src/shared/shl_htable.c:392-399: true is 0, false -ENOMEM. *)
Definition ht_insert (rehash : N -> N) (calloc_ok : bool) (t : ht) (p h : N) : oc (bool * ht) :=
  htable_add rehash calloc_ok t h p.

(** htable_visit, src/shared/shl_htable.c:144-156, and the callback calls of
    htable_clear, 100-118: the elements handed to the callback. *)
Definition ht_visit (t : ht) : list N :=
  match own t with
  | None => []
  | Some T => map (get_raw t) (filter valid T)
  end.
Definition ht_clear (t : ht) : list N * ht := (ht_visit t, ht_init).

(** shl_htable_this_or_next, src/shared/shl_htable.c:121-131; [None] is
    SIZE_MAX. *)
Fixpoint next_valid (n : nat) (T : list N) (i : N) : oc (option N) :=
  match n with
  | O => Ret None
  | S n =>
      let* e := rd T i in
      if valid e then Ret (Some i) else next_valid n T (i + 1)
  end.
Definition this_or_next (t : ht) (i : N) : oc (option N) :=
  match own t with
  | None => Ret None
  | Some T => next_valid (N.to_nat (size t - i)) T i
  end.
(** shl_htable_get_entry, src/shared/shl_htable.c:133-142; 0 is NULL. *)
Definition get_entry (t : ht) (i : option N) : oc N :=
  match i with
  | None => Ret 0
  | Some i =>
      if i <? size t then
        let* e := rd (table t) i in
        Ret (if valid e then get_raw t e else 0)
      else Ret 0
  end.
(** SHL_HTABLE_FOREACH, src/shared/shl_htable.h:89-93, with a body that does not
    change the table: the elements seen. At most one round per slot. *)
Fixpoint foreach (fuel : nat) (t : ht) (i : option N) : oc (list N) :=
  match fuel with
  | O => Endless
  | S fuel =>
      let* p := get_entry t i in
      if p =? 0 then Ret []
      else
        let* j := (match i with Some i => this_or_next t (i + 1) | None => Ret None end) in
        let* l := foreach fuel t j in
        Ret (p :: l)
  end.
Definition ht_foreach (t : ht) : oc (list N) :=
  let* i := this_or_next t 0 in foreach (rounds t) t i.

(** The API as a transition system. *)
Inductive op :=
| Insert (p h : N) (calloc_ok : bool)
| Lookup (obj h : N)
| Remove (obj h : N)
| Visit
| Foreach
| Clear.
Inductive out :=
| OInsert (ok : bool)
| OFound (p : option N)
| OList (l : list N).

Section Run.
  Context (rehash : N -> N) (cmp : N -> N -> bool).
  Definition step (t : ht) (o : op) : oc (ht * out) :=
    match o with
    | Insert p h ok => let* (b, t) := ht_insert rehash ok t p h in Ret (t, OInsert b)
    | Lookup obj h => let* r := ht_lookup cmp t obj h in Ret (t, OFound r)
    | Remove obj h => let* (r, t) := ht_remove cmp t obj h in Ret (t, OFound r)
    | Visit => Ret (t, OList (ht_visit t))
    | Foreach => let* l := ht_foreach t in Ret (t, OList l)
    | Clear => let (l, t) := ht_clear t in Ret (t, OList l)
    end.
  Fixpoint run (t : ht) (ops : list op) : oc (ht * list out) :=
    match ops with
    | [] => Ret (t, [])
    | o :: ops =>
        let* (t, x) := step t o in
        let* (t, xs) := run t ops in
        Ret (t, x :: xs)
    end.
End Run.
