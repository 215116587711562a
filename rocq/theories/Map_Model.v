(** Model of the maps of wifid: the typed wrappers of the hash table,
    src/shared/shl_htable.h:124-366 and src/shared/shl_htable.c:421-474, and how
    links and peers are put into them, found and freed, src/wifi/wifid-peer.c:37-100,
    src/wifi/wifid-link.c:36-150, src/wifi/wifid.c:60-72. The hash table is that of
    unit Htable. An object is known by the address of its key; the allocator gives
    the address when the object is made. Its other members, D-Bus and the
    supplicant are not modelled here, the copy of the key is always made. *)
From Verif Require Import Base Htable_Model.

(** ** Keys *)
(** shl_htable_rehash_uint, _ulong and _u64: the key itself. *)
Definition hash_num (k : N) : N := k.
(** (size_t)*str: char is signed. *)
Definition sext (c : byte) : N := if c <? 128 then c else two64 - 256 + c.
(** shl_htable_rehash_str, src/shared/shl_htable.c:464-474. [None]: NULL. *)
Definition hash_bytes (l : list byte) : N := fold_left (fun h c => wrap64 (wrap64 (N.shiftl h 5) + h + sext c)) l 5381.
Definition hash_str (s : option (list byte)) : N := match s with None => 5381 | Some l => hash_bytes l end.
Fixpoint bytes_eqb (a b : list byte) : bool :=
  match a, b with [], [] => true | x :: a, y :: b => (x =? y) && bytes_eqb a b | _, _ => false end.
(** shl_htable_compare_str, src/shared/shl_htable.c:455-461. *)
Definition eqb_str (a b : option (list byte)) : bool :=
  match a, b with None, None => true | Some a, Some b => bytes_eqb a b | _, _ => false end.

(** ** Objects *)
Section Map.
  Context {K : Type} (eqb : K -> K -> bool) (hash : K -> N) (none : K).
  (** [m_key]: what the memory at an address holds. [m_cnt]: peer_cnt, link_cnt. *)
  Record map := mkMap { m_tab : ht; m_key : N -> K; m_cnt : N }.
  Definition map_init : map := mkMap ht_init (fun _ => none) 0.
  Definition set_key (f : N -> K) (p : N) (k : K) : N -> K := fun q => if q =? p then k else f q.
  (** shl_htable_lookup_str(…, key, NULL, &elem) and the like: the hash is that of the
      key asked for. *)
  Definition map_find (s : map) (k : K) : oc (option N) := ht_lookup (fun _ p => eqb k (m_key s p)) (m_tab s) 0 (hash k).
  (** peer_free, src/wifi/wifid-peer.c:85-100; link_free, src/wifi/wifid-link.c:112-140. *)
  Definition map_free (s : map) (p : N) : oc (map * option N) :=
    let k := m_key s p in
    let* (r, t) := ht_remove (fun _ q => eqb k (m_key s q)) (m_tab s) 0 (hash k) in
    Ret (mkMap t (m_key s) (match r with Some _ => m_cnt s - 1 | None => m_cnt s end), r).

  Inductive op := Add (k : K) (p : N) (calloc_ok : bool) | Find (k : K) | Free (p : N) | Each.
  Inductive out := OAlready | OAdded | ONoMem | OFound (p : option N) | OFreed (p : option N) | OEach (l : list N).
  (** peer_new, src/wifi/wifid-peer.c:37-83; link_new, src/wifi/wifid-link.c:57-110. *)
  Definition map_add (s : map) (k : K) (p : N) (ok : bool) : oc (map * out) :=
    let* r := map_find s k in
    match r with
    | Some _ => Ret (s, OAlready)
    | None =>
        let key := set_key (m_key s) p k in
        let* (b, t) := ht_insert (fun q => hash (key q)) ok (m_tab s) p (hash k) in
        if b : bool then Ret (mkMap t key (m_cnt s + 1), OAdded)
        else let* (s, _) := map_free (mkMap t key (m_cnt s)) p in Ret (s, ONoMem)
    end.
  Definition map_step (s : map) (o : op) : oc (map * out) :=
    match o with
    | Add k p ok => map_add s k p ok
    | Find k => let* r := map_find s k in Ret (s, OFound r)
    | Free p => let* (s, r) := map_free s p in Ret (s, OFreed r)
    | Each => let* l := ht_foreach (m_tab s) in Ret (s, OEach l)
    end.
  Fixpoint map_run (s : map) (ops : list op) : oc (map * list out) :=
    match ops with
    | [] => Ret (s, [])
    | o :: ops => let* (s, x) := map_step s o in let* (s, xs) := map_run s ops in Ret (s, x :: xs)
    end.
End Map.
Arguments Add {K}. Arguments Find {K}. Arguments Free {K}. Arguments Each {K}.
