(** Model of the strict number parser, src/shared/shl_util.c:43-212, and of the
    overflow-checked multiplications of src/shared/shl_macro.h:187-238.
    Numbers are [N] with explicit wrap-around at 2^32 / 2^64. A string with its
    length is the list of its bytes. *)
From Verif Require Import Base.

Definition u32_max : N := 2 ^ 32 - 1.
Definition u64_max : N := 2 ^ 64 - 1.
Definition wrap32 (n : N) : N := n mod 2 ^ 32.

(** shl_ctoi, src/shared/shl_util.c:43-65; [None] is -EINVAL. *)
Definition ctoi (ch base : N) : option N :=
  let v :=
    if (48 <=? ch) && (ch <=? 57) then Some (ch - 48)
    else if (97 <=? ch) && (ch <=? 122) then Some (ch - 97 + 10)
    else if (65 <=? ch) && (ch <=? 90) then Some (ch - 65 + 10)
    else None in
  match v with
  | Some v => if base <=? v then None else Some v
  | None => None
  end.

(** shl__skip_base, src/shared/shl_util.c:68-91: base and bytes to skip. *)
Definition skip_base (s : list byte) : N * N :=
  let second :=
    match s with
    | c0 :: c1 :: c2 :: _ =>
        if (c0 =? 48) && (c1 =? 120) then
          match ctoi c2 16 with Some _ => (16, 2) | None => (10, 0) end
        else (10, 0)
    | _ => (10, 0)
    end in
  match s with
  | c0 :: c1 :: _ =>
      if c0 =? 48 then
        match ctoi c1 8 with Some _ => (8, 1) | None => second end
      else second
  | _ => second
  end.

(** shl_mult_u32 (SHL__UPCAST_MULT), src/shared/shl_macro.h:194-200,235-238.
    Returns the new value and whether the product fitted. *)
Definition mult_u32 (v f : N) : N * bool :=
  let p := wrap64 (v * f) in
  if p <=? u32_max then (p, true) else (v, false).

(** shl_mult_ull (SHL__REAL_MULT), src/shared/shl_macro.h:187-192,202-206. *)
Definition mult_ull (v f : N) : N * bool :=
  if (f =? 0) || (v <=? u64_max / f) then (wrap64 (v * f), true) else (v, false).

(** Local variables of shl_atoi_ulln: huge, val1, val2, and r < 0. *)
Record ast := mkAst { huge : bool; val1 : N; val2 : N; bad : bool }.

(** Loop body, src/shared/shl_util.c:126-147, for a valid digit [c]. *)
Definition digit_step (base : N) (st : ast) (c : N) : ast :=
  if bad st then st
  else
    let st1 :=
      if negb (huge st) then
        let '(m, ok) := mult_u32 (val1 st) base in
        if ok && (m <=? wrap32 (m + c)) then mkAst false (wrap32 (m + c)) (val1 st) (negb ok)
        else mkAst true m (val1 st) (negb ok)
      else st in
    if huge st1 then
      let '(m, ok) := mult_ull (val2 st1) base in
      if ok && (m <=? wrap64 (m + c)) then mkAst true (val1 st1) (wrap64 (m + c)) (negb ok)
      else mkAst true (val1 st1) m (negb ok)
    else st1.

(** The for loop, src/shared/shl_util.c:121-148; also counts [pos]. *)
Fixpoint digit_loop (base : N) (s : list byte) (st : ast) (pos : N) : ast * N :=
  match s with
  | [] => (st, pos)
  | ch :: s =>
      match ctoi ch base with
      | None => (st, pos)
      | Some c => digit_loop base s (digit_step base st c) (pos + 1)
      end
  end.

Inductive code := Success | Erange | Einval.

(** What the caller gets: return code, *next as offset into the string, *out. *)
Record answer := mkAnswer { ret : code; next : N; value : N }.

(** shl_atoi_ulln, src/shared/shl_util.c:93-162. *)
Definition atoi_ulln (s : list byte) (base : N) : answer :=
  if 36 <? base then mkAnswer Einval 0 0
  else
    let '(b, off) := if base =? 0 then skip_base s else (base, 0) in
    let '(st, pos) := digit_loop b (dropN off s) (mkAst false 0 0 false) 0 in
    mkAnswer (if bad st then Erange else Success) (off + pos)
      (if bad st then u64_max else if huge st then val2 st else val1 st).

(** shl_atoi_uln / shl_atoi_un / shl_atoi_zn, src/shared/shl_util.c:164-212,
    with [max] = ULONG_MAX, UINT_MAX, SIZE_MAX. *)
Definition narrow (max : N) (a : answer) : answer :=
  mkAnswer (match ret a with
            | Success => if max <? value a then Erange else Success
            | c => c end)
    (next a) (N.min (value a) max).
Definition atoi_uln (s : list byte) (base : N) : answer := narrow u64_max (atoi_ulln s base).
Definition atoi_zn (s : list byte) (base : N) : answer := narrow u64_max (atoi_ulln s base).
Definition atoi_un (s : list byte) (base : N) : answer := narrow u32_max (atoi_ulln s base).
