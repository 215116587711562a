(** Model of shl_mkdir_p and shl_mkdir_p_prefix, src/shared/shl_util.c:774-882, and of
    shl_strcat and shl_strjoin, 309-362. The file system has no links; memory can be
    allocated but for sizes that wrap. *)
From Verif Require Import Base Split_Model.

(** ** The kernel *)
Definition name := list byte.
Inductive node := Dir (mode : N) | File.
(** A place: the name and those of the directories it is in, up to the root. *)
Definition loc := list name.
Definition fs := loc -> option node.
Definition ENOENT : N := 2.
Definition EEXIST : N := 17.
Definition ENOTDIR : N := 20.
Definition names (path : list byte) : list name := split_loop [47] path [].
Definition at_name (l : loc) (n : name) : loc := if beq n [46] then l else if beq n [46; 46] then tl l else n :: l.
(** Where the names lead to, each but the last through a directory. *)
Fixpoint walk (f : fs) (l : loc) (ns : list name) : loc + N :=
  match ns with
  | [] => inl l
  | n :: ns => match f l with Some (Dir _) => walk f (at_name l n) ns | Some File => inr ENOTDIR | None => inr ENOENT end
  end.
Definition base (cwd : loc) (path : list byte) : loc := if absolute path then [] else cwd.
Definition trailing (path : list byte) : bool := match rev path with 47 :: _ => true | _ => false end.
Definition loc_eqb (a b : loc) : bool := if list_eq_dec (list_eq_dec N.eq_dec) a b then true else false.
(** stat: [inl true] is a directory. *)
Definition stat (f : fs) (cwd : loc) (path : list byte) : bool + N :=
  match path with
  | [] => inr ENOENT
  | _ =>
      match walk f (base cwd path) (names path) with
      | inr e => inr e
      | inl l => match f l with None => inr ENOENT | Some (Dir _) => inl true | Some File => if trailing path then inr ENOTDIR else inl false end
      end
  end.
(** mkdir: the error, 0 for none; [deny]: what else may stand in the way of a new directory. *)
Definition mkdir_names (deny : loc -> N) (f : fs) (l : loc) (ns : list name) (mode : N) : N * fs :=
  match rev ns with
  | [] => (EEXIST, f)
  | n :: _ =>
      match walk f l (removelast ns) with
      | inr e => (e, f)
      | inl d =>
          match f d with
          | None => (ENOENT, f)
          | Some File => (ENOTDIR, f)
          | Some (Dir _) =>
              if beq n [46] || beq n [46; 46] then (EEXIST, f)
              else match f (n :: d) with
                   | Some _ => (EEXIST, f)
                   | None => if deny (n :: d) =? 0 then (0, fun x => if loc_eqb x (n :: d) then Some (Dir mode) else f x) else (deny (n :: d), f)
                   end
          end
      end
  end.
Definition mkdir (deny : loc -> N) (f : fs) (cwd : loc) (path : list byte) (mode : N) : N * fs :=
  match path with [] => (ENOENT, f) | _ => mkdir_names deny f (base cwd path) (names path) mode end.

(** ** The functions *)
Definition starts_with (path prefix : list byte) : bool :=
  match path_startswith (S (length prefix)) path prefix with Done (Some _) => true | _ => false end.
(** strrchr(path, '/'): the text before it. *)
Fixpoint before_last (path : list byte) : option (list byte) :=
  match path with
  | [] => None
  | c :: t => match before_last t with Some d => Some (c :: d) | None => if c =? 47 then Some [] else None end
  end.
(** The slashes in front. *)
Definition slashes (s : list byte) : list byte := takeN (lenN s - lenN (skip_slash s)) s.
Section Env.
Context (deny : loc -> N) (cwd : loc) (prefix : option (list byte)) (mode : N).
(** The loop of shl__mkdir_parents, 838-856; [done]: the text before p. *)
Fixpoint parents_loop (fuel : nat) (f : fs) (done p : list byte) : option (N * fs) :=
  match fuel with
  | O => None
  | S fuel =>
      let '(c, e) := comp p in
      let p := skip_slash e in
      match p with
      | [] => Some (0, f)
      | _ =>
          let t := done ++ c in
          let done := t ++ slashes e in
          if match prefix with Some q => starts_with q t | None => false end then parents_loop fuel f done p
          else
            let '(r, f) := mkdir deny f cwd t mode in
            if negb (r =? 0) && negb (r =? EEXIST) then Some (r, f) else parents_loop fuel f done p
      end
  end.
(** shl__mkdir_parents, 816-857. *)
Definition mkdir_parents (f : fs) (path : list byte) : option (N * fs) :=
  if negb (match prefix with Some q => starts_with path q | None => true end) then Some (ENOTDIR, f)
  else
    match before_last path with
    | None | Some [] => Some (0, f)
    | Some d =>
        match stat f cwd d with
        | inl true => Some (0, f)
        | inl false => Some (ENOTDIR, f)
        | inr _ => parents_loop (S (length path)) f (slashes path) (skip_slash path)
        end
    end.
(** shl__mkdir_p, 859-872. The error is 0 for success; when stat fails its error is in errno. *)
Definition mkdir_p (f : fs) (path : list byte) : option (N * fs) :=
  match mkdir_parents f path with
  | None => None
  | Some (r, f) =>
      if negb (r =? 0) then Some (r, f)
      else
        let '(r, f) := mkdir deny f cwd path mode in
        if r =? 0 then Some (0, f)
        else if negb (r =? EEXIST) then Some (r, f)
        else match stat f cwd path with inl true => Some (0, f) | inl false => Some (EEXIST, f) | inr e => Some (e, f) end
  end.
End Env.

(** ** Strings *)
(** A block of [size] bytes, to which the text and its end are written. *)
Definition put (size : N) (s : list byte) : res (list byte) := if lenN s + 1 <=? size then Ok (s ++ [0]) else UB.
Definition W64 : N := 2 ^ 64.
Definition or_empty (s : option (list byte)) : list byte := match s with Some s => s | None => [] end.
(** shl_strcat, 309-332. *)
Definition strcat (first second : option (list byte)) : res (option (list byte)) :=
  let first := or_empty first in
  let second := or_empty second in
  let size := (lenN first + lenN second + 1) mod W64 in
  if size <=? lenN first then Ok None else do b <- put size (first ++ second); Ok (Some b).
(** shl_strjoin, 334-362. *)
Fixpoint join_len (args : list (list byte)) (len : N) : option N :=
  match args with
  | [] => Some len
  | a :: args => let n := (len + lenN a) mod W64 in if n <? len then None else join_len args n
  end.
Definition strjoin (args : list (list byte)) : res (option (list byte)) :=
  match join_len args 0 with
  | None => Ok None
  | Some len => do b <- put ((len + 1) mod W64) (concat args); Ok (Some b)
  end.
