(** Model of the ring buffer, src/shared/shl_ring.c and shl_ring.h. *)
From Verif Require Import Base Align_Model.

(** struct shl_ring, src/shared/shl_ring.h:21-26. The object [buf] points to is
    the list [buf] (one cell per byte of the allocation, [] for NULL). *)
Record ring := mkRing { buf : list cell; size : N; start : N; used : N }.

(** A zero-initialised ring (as every user creates it). *)
Definition ring_init : ring := mkRing [] 0 0 0.

(** RING_MASK, src/shared/shl_ring.c:19; arithmetic is modulo 2^64. *)
Definition ring_mask (r : ring) (v : N) : N :=
  N.land v (wrap64 (size r + two64 - 1)).

(** shl_ring_flush, src/shared/shl_ring.c:21-25. *)
Definition ring_flush (r : ring) : ring := mkRing (buf r) (size r) 0 0.

(** shl_ring_clear, src/shared/shl_ring.c:27-31. *)
Definition ring_clear (r : ring) : ring := ring_init.

(** shl_ring_peek, src/shared/shl_ring.c:45-64. The iovecs are returned as the
    memory they designate. *)
Definition ring_peek (r : ring) : res (list (list cell)) :=
  if used r =? 0 then Ok []
  else if wrap64 (start r + used r) <=? size r then
    do a <- mem_read (buf r) (start r) (used r);
    Ok [a]
  else
    do a <- mem_read (buf r) (start r) (size r - start r);
    do b <- mem_read (buf r) 0 (used r - (size r - start r));
    Ok [a; b].

(** shl_ring_copy, src/shared/shl_ring.c:71-89 (destination large enough). *)
Definition ring_copy (r : ring) (n : N) : res (list cell) :=
  let n := if used r <? n then used r else n in
  if 0 <? n then
    let l := size r - start r in
    if n <=? l then mem_read (buf r) (start r) n
    else
      do a <- mem_read (buf r) (start r) l;
      do b <- mem_read (buf r) 0 (n - l);
      Ok (a ++ b)
  else Ok [].

(** ring_resize, src/shared/shl_ring.c:95-120. [malloc_ok] says whether the
    malloc() call succeeds; [None] is -ENOMEM. *)
Definition ring_resize (r : ring) (nsize : N) (malloc_ok : bool) : res (option ring) :=
  if negb malloc_ok then Ok None
  else
    let nb := fresh nsize in
    do nb' <-
      (if 0 <? used r then
         let l := size r - start r in
         if used r <=? l then
           do d <- mem_read (buf r) (start r) (used r);
           mem_write nb 0 d
         else
           do d <- mem_read (buf r) (start r) l;
           do nb1 <- mem_write nb 0 d;
           do d2 <- mem_read (buf r) 0 (used r - l);
           mem_write nb1 l d2
       else Ok nb);
    Ok (Some (mkRing nb' nsize 0 (used r))).

(** ring_grow, src/shared/shl_ring.c:127-145. *)
Definition ring_grow (r : ring) (add : N) (malloc_ok : bool) : res (option ring) :=
  if add <=? size r - used r then Ok (Some r)
  else
    let need := wrap64 (used r + add) in
    if need <=? used r then Ok None
    else
      let need := if need <? 4096 then 4096 else need in
      do need <- align_power2 need;
      if need =? 0 then Ok None
      else ring_resize r need malloc_ok.

(** shl_ring_push, src/shared/shl_ring.c:151-175. Result flag: true = 0,
    false = -ENOMEM. *)
Definition ring_push (r : ring) (d : list byte) (malloc_ok : bool) : res (ring * bool) :=
  if lenN d =? 0 then Ok (r, true)
  else
    do g <- ring_grow r (lenN d) malloc_ok;
    match g with
    | None => Ok (r, false)
    | Some r =>
        let src := map Some d in
        let pos := ring_mask r (wrap64 (start r + used r)) in
        let l := size r - pos in
        do b <-
          (if lenN d <=? l then mem_write (buf r) pos src
           else
             do s1 <- mem_read src 0 l;
             do b1 <- mem_write (buf r) pos s1;
             do s2 <- mem_read src l (lenN d - l);
             mem_write b1 0 s2);
        Ok (mkRing b (size r) (start r) (wrap64 (used r + lenN d)), true)
    end.

(** shl_ring_pull, src/shared/shl_ring.c:181-188. *)
Definition ring_pull (r : ring) (n : N) : ring :=
  let n := if used r <? n then used r else n in
  mkRing (buf r) (size r) (ring_mask r (wrap64 (start r + n))) (used r - n).

(** shl_ring_get_size, src/shared/shl_ring.h:47-50. *)
Definition ring_get_size (r : ring) : N := used r.

(** The API as a transition system. [Push d ok]: push [d], with malloc()
    succeeding iff [ok]. *)
Inductive op :=
| Push (d : list byte) (malloc_ok : bool)
| Pull (n : N)
| Peek
| Copy (n : N)
| GetSize
| Flush
| Clear.

(** What the caller sees. *)
Inductive out :=
| OErr (success : bool)
| OSegs (s : list (list cell))
| OBytes (b : list cell)
| OSize (n : N)
| ODone.

Definition step (r : ring) (o : op) : res (ring * out) :=
  match o with
  | Push d ok => do x <- ring_push r d ok; Ok (fst x, OErr (snd x))
  | Pull n => Ok (ring_pull r n, ODone)
  | Peek => do s <- ring_peek r; Ok (r, OSegs s)
  | Copy n => do b <- ring_copy r n; Ok (r, OBytes b)
  | GetSize => Ok (r, OSize (ring_get_size r))
  | Flush => Ok (ring_flush r, ODone)
  | Clear => Ok (ring_clear r, ODone)
  end.

Fixpoint run (r : ring) (ops : list op) : res (ring * list out) :=
  match ops with
  | [] => Ok (r, [])
  | o :: ops =>
      do x <- step r o;
      do y <- run (fst x) ops;
      Ok (fst y, snd x :: snd y)
  end.
