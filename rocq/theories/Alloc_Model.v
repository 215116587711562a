(** Model of the growing allocations, src/shared/shl_util.c:231-303. Memory is a
    list of cells; [realloc_ok] says whether realloc() succeeds. *)
From Verif Require Import Base Align_Model.

(** realloc(): keeps the common prefix. *)
Definition realloc (m : list cell) (n : N) : list cell :=
  takeN n m ++ fresh (n - lenN m).

(** shl_greedy_realloc, src/shared/shl_util.c:231-250. [None]: NULL returned,
    nothing changed. *)
Definition greedy_realloc (m : list cell) (size need : N) (realloc_ok : bool)
  : res (option (list cell * N)) :=
  if need <=? size then Ok (Some (m, size))
  else
    do nsize <- align_power2 (N.max 64 need);
    if nsize =? 0 then Ok None
    else if realloc_ok then Ok (Some (realloc m nsize, nsize)) else Ok None.

(** shl_greedy_realloc0, src/shared/shl_util.c:252-265. *)
Definition greedy_realloc0 (m : list cell) (size need : N) (realloc_ok : bool)
  : res (option (list cell * N)) :=
  do r <- greedy_realloc m size need realloc_ok;
  match r with
  | None => Ok None
  | Some (p, nsize) =>
      if size <? nsize then
        do p' <- mem_write p size (repeat (Some 0) (N.to_nat (nsize - size)));
        Ok (Some (p', nsize))
      else Ok (Some (p, nsize))
  end.

(** shl_greedy_realloc_t, src/shared/shl_util.c:267-288. Sizes are element
    counts; the byte size [ncnt * ts] is computed modulo 2^64. *)
Definition greedy_realloc_t (m : list cell) (cnt need ts : N) (realloc_ok : bool)
  : res (option (list cell * N)) :=
  if need <=? cnt then Ok (Some (m, cnt))
  else if ts =? 0 then Ok None
  else
    do ncnt <- align_power2 (N.max 64 need);
    if ncnt =? 0 then Ok None
    else if realloc_ok then Ok (Some (realloc m (wrap64 (ncnt * ts)), ncnt)) else Ok None.

(** shl_greedy_realloc0_t, src/shared/shl_util.c:290-303. *)
Definition greedy_realloc0_t (m : list cell) (cnt need ts : N) (realloc_ok : bool)
  : res (option (list cell * N)) :=
  do r <- greedy_realloc_t m cnt need ts realloc_ok;
  match r with
  | None => Ok None
  | Some (p, ncnt) =>
      if cnt <? ncnt then
        do p' <- mem_write p (wrap64 (cnt * ts))
                   (repeat (Some 0) (N.to_nat (wrap64 ((ncnt - cnt) * ts))));
        Ok (Some (p', ncnt))
      else Ok (Some (p, ncnt))
  end.
