(** Model of the intrusive list, src/shared/shl_dlist.h. Memory is split by
    field; 0 is NULL; an unmapped address is [None] and touching it is [UB]. *)
From Verif Require Import Base.

(** struct shl_dlist, src/shared/shl_dlist.h:27-30, for all nodes at once. *)
Record heap := mkHeap { nx : N -> option N; pv : N -> option N }.

Definition upd (f : N -> option N) (a v : N) : N -> option N :=
  fun b => if b =? a then Some v else f b.
Definition load (f : N -> option N) (a : N) : res N :=
  match f a with Some v => Ok v | None => UB end.
Definition set_nx (h : heap) (a v : N) : res heap :=
  match nx h a with Some _ => Ok (mkHeap (upd (nx h) a v) (pv h)) | None => UB end.
Definition set_pv (h : heap) (a v : N) : res heap :=
  match pv h a with Some _ => Ok (mkHeap (nx h) (upd (pv h) a v)) | None => UB end.

(** shl_dlist_init, src/shared/shl_dlist.h:34-38. *)
Definition dl_init (h : heap) (l : N) : res heap :=
  do h <- set_nx h l l; set_pv h l l.

(** shl_dlist__link, src/shared/shl_dlist.h:40-48. *)
Definition dl__link (h : heap) (prev next n : N) : res heap :=
  do h <- set_pv h next n;
  do h <- set_nx h n next;
  do h <- set_pv h n prev;
  set_nx h prev n.

(** shl_dlist_link, src/shared/shl_dlist.h:50-54. *)
Definition dl_link (h : heap) (head n : N) : res heap :=
  do f <- load (nx h) head; dl__link h head f n.
(** shl_dlist_link_tail, src/shared/shl_dlist.h:56-60. *)
Definition dl_link_tail (h : heap) (head n : N) : res heap :=
  do t <- load (pv h) head; dl__link h t head n.

(** shl_dlist__unlink, src/shared/shl_dlist.h:62-67. *)
Definition dl__unlink (h : heap) (prev next : N) : res heap :=
  do h <- set_pv h next prev; set_nx h prev next.
(** shl_dlist_unlink, src/shared/shl_dlist.h:69-76. *)
Definition dl_unlink (h : heap) (e : N) : res heap :=
  do p <- load (pv h) e;
  if p =? 0 then Ok h
  else
    do n <- load (nx h) e;
    if n =? 0 then Ok h
    else
      do h <- dl__unlink h p n;
      do h <- set_pv h e 0;
      set_nx h e 0.

(** shl_dlist_linked, src/shared/shl_dlist.h:78-81. *)
Definition dl_linked (h : heap) (e : N) : res bool :=
  do n <- load (nx h) e;
  if n =? 0 then Ok false else do p <- load (pv h) e; Ok (negb (p =? 0)).
(** shl_dlist_empty, src/shared/shl_dlist.h:83-86. *)
Definition dl_empty (h : heap) (head : N) : res bool :=
  do n <- load (nx h) head; Ok (n =? head).
(** shl_dlist_first / shl_dlist_last, src/shared/shl_dlist.h:88-96. *)
Definition dl_first (h : heap) (head : N) : res N := load (nx h) head.
Definition dl_last (h : heap) (head : N) : res N := load (pv h) head.

(** shl_dlist_for_each (and _reverse with the other field),
    src/shared/shl_dlist.h:107-108,123-124: the nodes visited. [None]: more
    than [fuel] nodes. *)
Fixpoint walk (fuel : nat) (f : N -> option N) (iter head : N) : res (option (list N)) :=
  match fuel with
  | O => Ok None
  | S fuel =>
      if iter =? head then Ok (Some [])
      else
        do nxt <- load f iter;
        do r <- walk fuel f nxt head;
        Ok (option_map (cons iter) r)
  end.

(** shl_dlist_for_each_safe, src/shared/shl_dlist.h:119-121 (and
    _reverse_safe, 135-137, with the other field), with a body that unlinks the
    visited node: the nodes visited and the final heap. *)
Fixpoint drain (rv : bool) (fuel : nat) (h : heap) (iter tmp head : N)
  : res (option (heap * list N)) :=
  match fuel with
  | O => Ok None
  | S fuel =>
      if iter =? head then Ok (Some (h, []))
      else
        do h <- dl_unlink h iter;
        do t <- load (if rv then pv h else nx h) tmp;
        do r <- drain rv fuel h tmp t head;
        Ok (option_map (fun x => (fst x, iter :: snd x)) r)
  end.

(** shl_dlist_for_each_but_one (and _reverse_but_one),
    src/shared/shl_dlist.h:110-117,126-133: the nodes visited when starting at
    [start]. *)
Fixpoint walk_but (fuel : nat) (f : N -> option N) (iter start head : N)
  : res (option (list N)) :=
  match fuel with
  | O => Ok None
  | S fuel =>
      if iter =? start then Ok (Some [])
      else
        do n <- load f iter;
        do n <- (if (n =? head) && negb (start =? head) then load f n else Ok n);
        do r <- walk_but fuel f n start head;
        Ok (option_map (cons iter) r)
  end.
Definition walk_but_one (fuel : nat) (f : N -> option N) (start head : N)
  : res (option (list N)) :=
  do n <- load f start;
  do n <- (if n =? head then load f n else Ok n);
  walk_but fuel f n start head.

(** The API as a transition system. The [fuel] of the walks is chosen by the
    caller of the model. *)
Inductive op :=
| Init (a : N) | Link (head n : N) | LinkTail (head n : N) | Unlink (e : N)
| Linked (e : N) | Empty (head : N) | First (head : N) | Last (head : N)
| Walk (head : N) | WalkRev (head : N) | WalkBut (start head : N) | WalkRevBut (start head : N)
| Drain (head : N) | DrainRev (head : N).
Inductive out := ODone | OBool (b : bool) | OAddr (a : N) | ONodes (l : option (list N)).

Definition step (fuel : nat) (h : heap) (o : op) : res (heap * out) :=
  match o with
  | Init a => do h <- dl_init h a; Ok (h, ODone)
  | Link hd n => do h <- dl_link h hd n; Ok (h, ODone)
  | LinkTail hd n => do h <- dl_link_tail h hd n; Ok (h, ODone)
  | Unlink e => do h <- dl_unlink h e; Ok (h, ODone)
  | Linked e => do b <- dl_linked h e; Ok (h, OBool b)
  | Empty hd => do b <- dl_empty h hd; Ok (h, OBool b)
  | First hd => do a <- dl_first h hd; Ok (h, OAddr a)
  | Last hd => do a <- dl_last h hd; Ok (h, OAddr a)
  | Walk hd => do i <- load (nx h) hd; do l <- walk fuel (nx h) i hd; Ok (h, ONodes l)
  | WalkRev hd => do i <- load (pv h) hd; do l <- walk fuel (pv h) i hd; Ok (h, ONodes l)
  | WalkBut s hd => do l <- walk_but_one fuel (nx h) s hd; Ok (h, ONodes l)
  | WalkRevBut s hd => do l <- walk_but_one fuel (pv h) s hd; Ok (h, ONodes l)
  | Drain hd =>
      do i <- load (nx h) hd; do t <- load (nx h) i;
      do r <- drain false fuel h i t hd;
      Ok (match r with Some (h, l) => (h, ONodes (Some l)) | None => (h, ONodes None) end)
  | DrainRev hd =>
      do i <- load (pv h) hd; do t <- load (pv h) i;
      do r <- drain true fuel h i t hd;
      Ok (match r with Some (h, l) => (h, ONodes (Some l)) | None => (h, ONodes None) end)
  end.
Fixpoint run (fuel : nat) (h : heap) (ops : list op) : res (heap * list out) :=
  match ops with
  | [] => Ok (h, [])
  | o :: ops =>
      do x <- step fuel h o; do y <- run fuel (fst x) ops; Ok (fst y, snd x :: snd y)
  end.
