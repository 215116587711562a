(** Model of string splitting, src/shared/shl_util.c:366-456, and of path
    prefix matching, src/shared/shl_util.c:784-814. *)
From Verif Require Import Base.

(** Inner loop over the separators, src/shared/shl_util.c:414-431: does one of
    them equal [c]? [sep] is the separator C string. *)
Fixpoint sep_hit (c : byte) (sep : list byte) : bool :=
  match sep with
  | [] => false
  | d :: sep => if negb (c =? d) then sep_hit c sep else true
  end.

(** Outer loop and trailing token, src/shared/shl_util.c:413-441; [cur] is the
    text from [pos] to [&str[i]]. shl__split_push (366-388) copies a token;
    allocation succeeds. *)
Fixpoint split_loop (sep : list byte) (s : list byte) (cur : list byte) : list (list byte) :=
  match s with
  | [] => match cur with [] => [] | _ => [cur] end
  | c :: s =>
      if sep_hit c sep then
        match cur with
        | [] => split_loop sep s []
        | _ => cur :: split_loop sep s []
        end
      else split_loop sep s (cur ++ [c])
  end.

(** shl_strsplit_n, src/shared/shl_util.c:390-456: the tokens and the returned
    count, or [None] for -ENOMEM when the count does not fit an int
    (src/shared/shl_util.c:443-446). *)
Definition strsplit (s sep : list byte) : option (list (list byte) * N) :=
  let out := split_loop sep s [] in
  if 2 ^ 31 <=? lenN out then None else Some (out, lenN out).

(** strspn(s, "/") and strcspn(s, "/"). *)
Fixpoint skip_slash (s : list byte) : list byte :=
  match s with 47 :: t => skip_slash t | _ => s end.
Fixpoint comp (s : list byte) : list byte * list byte :=
  match s with
  | [] => ([], [])
  | c :: t => if c =? 47 then ([], s) else let '(a, b) := comp t in (c :: a, b)
  end.
Fixpoint beq (a b : list byte) : bool :=
  match a, b with
  | [], [] => true
  | x :: a, y :: b => (x =? y) && beq a b
  | _, _ => false
  end.

Inductive fuel_res (A : Type) := Done (a : A) | OutOfFuel.
Arguments Done {A} _.
Arguments OutOfFuel {A}.

(** Loop of shl__path_startswith, src/shared/shl_util.c:797-813. *)
Fixpoint psw_loop (fuel : nat) (path prefix : list byte) : fuel_res (option (list byte)) :=
  match fuel with
  | O => OutOfFuel
  | S fuel =>
      let path := skip_slash path in
      let prefix := skip_slash prefix in
      match prefix, path with
      | [], _ => Done (Some path)
      | _, [] => Done None
      | _, _ =>
          let '(a, path') := comp path in
          let '(b, prefix') := comp prefix in
          if negb (lenN a =? lenN b) || negb (beq a b) then Done None
          else psw_loop fuel path' prefix'
      end
  end.

(** shl__path_startswith, src/shared/shl_util.c:784-814, for non-NULL
    arguments. *)
Definition absolute (s : list byte) : bool := match s with 47 :: _ => true | _ => false end.
Definition path_startswith (fuel : nat) (path prefix : list byte)
  : fuel_res (option (list byte)) :=
  if negb (Bool.eqb (absolute path) (absolute prefix)) then Done None
  else psw_loop fuel path prefix.
