(** Model of quoted strings, src/shared/shl_util.c:480-768. A C string is the
    list of its bytes before the terminating 0. *)
From Verif Require Import Base Align_Model Alloc_Model.

(** shl_qstr_unescape_char, src/shared/shl_util.c:484-510. *)
Definition unescape_char (c : byte) : byte :=
  if c =? 97 then 7 else if c =? 98 then 8 else if c =? 102 then 12
  else if c =? 110 then 10 else if c =? 114 then 13 else if c =? 116 then 9
  else if c =? 118 then 11 else if c =? 34 then 34 else if c =? 39 then 39
  else if c =? 92 then 92 else 0.

(** What the loop body of shl_qstr_decode_n (src/shared/shl_util.c:522-553) does
    with byte [c] in state (escaped, quoted): next state and bytes appended. *)
Definition dec_char (esc : bool) (q c : N) : bool * N * list byte :=
  if esc then
    (false, q,
     if negb (unescape_char c =? 0) then [unescape_char c]
     else if c =? 0 then [] else [92; c])
  else if negb (q =? 0) then
    if c =? 92 then (true, q, [])
    else if (c =? 34) && (q =? 34) then (false, 0, [])
    else if (c =? 39) && (q =? 39) then (false, 0, [])
    else if c =? 0 then (false, q, [])
    else (false, q, [c])
  else
    if c =? 92 then (true, q, [])
    else if (c =? 34) || (c =? 39) then (false, c, [])
    else if c =? 0 then (false, q, [])
    else (false, q, [c]).

(** shl_qstr_decode_n, src/shared/shl_util.c:512-561, as a function from the
    input bytes to the decoded string. *)
Fixpoint decode (esc : bool) (q : N) (s : list byte) : list byte :=
  match s with
  | [] => if esc then [92] else []
  | c :: s => let '(esc, q, o) := dec_char esc q c in o ++ decode esc q s
  end.

(** The same function as written: in place, on a buffer. [k] bytes are left to
    read, at offsets [i], [i]+1, ... ; [pos] is the write offset. *)
Fixpoint write_all (b : list cell) (pos : N) (o : list byte) : res (list cell * N) :=
  match o with
  | [] => Ok (b, pos)
  | c :: o => do b <- mem_write b pos [Some c]; write_all b (pos + 1) o
  end.
Fixpoint decode_loop (k : nat) (b : list cell) (i pos : N) (esc : bool) (q : N)
  : res (list cell * N * bool) :=
  match k with
  | O => Ok (b, pos, esc)
  | S k =>
      match nthN b i with
      | Some (Some c) =>
          let '(esc, q, o) := dec_char esc q c in
          do bp <- write_all b pos o;
          decode_loop k (fst bp) (i + 1) (snd bp) esc q
      | _ => UB
      end
  end.
(** shl_qstr_decode_n(str, length): the resulting buffer and the offset of the
    terminating 0. *)
Definition decode_n (b : list cell) (length : N) : res (list cell * N) :=
  do r <- decode_loop (N.to_nat length) b 0 0 false 0;
  let '(b, pos, esc) := r in
  do bp <- (if esc : bool then write_all b pos [92] else Ok (b, pos));
  do b <- mem_write (fst bp) (snd bp) [Some 0];
  Ok (b, snd bp).

(** shl_qstr_tokenize_n, src/shared/shl_util.c:587-665; [cur] is the text
    between [pos] and [i]. Each token is decoded by shl__qstr_push
    (src/shared/shl_util.c:563-585). Allocation succeeds. *)
Fixpoint tok_loop (s : list byte) (esc : bool) (q : N) (cur : list byte) : list (list byte) :=
  match s with
  | [] => match cur with [] => [] | _ => [decode false 0 cur] end
  | c :: s =>
      if esc then tok_loop s false q (cur ++ [c])
      else if c =? 92 then tok_loop s true q (cur ++ [c])
      else if negb (q =? 0) then
        if (c =? 34) && (q =? 34) then tok_loop s false 0 (cur ++ [c])
        else if (c =? 39) && (q =? 39) then tok_loop s false 0 (cur ++ [c])
        else tok_loop s false q (cur ++ [c])
      else if c =? 34 then tok_loop s false 34 (cur ++ [c])
      else if c =? 39 then tok_loop s false 39 (cur ++ [c])
      else if c =? 32 then
        match cur with
        | [] => tok_loop s false 0 []
        | _ => decode false 0 cur :: tok_loop s false 0 []
        end
      else tok_loop s false q (cur ++ [c])
  end.
Definition tokenize (s : list byte) : list (list byte) := tok_loop s false 0 [].

(** shl__qstr_encode, src/shared/shl_util.c:672-696. *)
Fixpoint encode_body (s : list byte) : list byte :=
  match s with
  | [] => []
  | c :: s => if (c =? 92) || (c =? 34) then 92 :: c :: encode_body s else c :: encode_body s
  end.
Definition encode (s : list byte) (need_quote : bool) : list byte :=
  if need_quote then [34] ++ encode_body s ++ [34] else encode_body s.

(** shl__qstr_length, src/shared/shl_util.c:698-717: the need_quote part (the
    length part is [lenN]). *)
Definition need_quote (s : list byte) : bool :=
  existsb (fun c => (c =? 32) || (c =? 9) || (c =? 10) || (c =? 11)) s.

(** shl_qstr_join, src/shared/shl_util.c:719-768, as a function on strings. *)
Fixpoint join_loop (line : list byte) (ss : list (list byte)) : list byte :=
  match ss with
  | [] => line
  | s :: ss =>
      join_loop (line ++ (match line with [] => [] | _ => [32] end)
                 ++ encode s (need_quote s)) ss
  end.
Definition join (ss : list (list byte)) : list byte := join_loop [] ss.

(** shl_qstr_join as written, on a growing buffer. [oks] are the results of the
    successive realloc() calls. [None] is -ENOMEM. *)
Fixpoint join_buf_loop (b : list cell) (size len : N) (ss : list (list byte))
    (ok : bool) : res (option (list cell * N)) :=
  match ss with
  | [] => Ok (Some (b, len))
  | s :: ss =>
      let l := lenN s in
      if wrap64 (l * 2) <? l then Ok None
      else
        let need := wrap64 (l * 2) in
        if wrap64 (need + len) <? need then Ok None
        else
          let need := wrap64 (need + len) in
          if wrap64 (need + 4) <? len then Ok None
          else
            let need := wrap64 (need + 4) in
            do r <- greedy_realloc_t b size need 1 ok;
            match r with
            | None => Ok None
            | Some (b, size) =>
                do bl <- (if 0 <? len then write_all b len [32] else Ok (b, len));
                do bl <- write_all (fst bl) (snd bl) (encode s (need_quote s));
                join_buf_loop (fst bl) size (snd bl) ss ok
            end
  end.
Definition join_buf (ss : list (list byte)) (ok : bool) : res (option (list cell * N)) :=
  do r <- greedy_realloc_t [] 0 1 1 ok;
  match r with
  | None => Ok None
  | Some (b, size) =>
      do b <- mem_write b 0 [Some 0];
      do r <- join_buf_loop b size 0 ss ok;
      match r with
      | None => Ok None
      | Some (b, len) =>
          if 2 ^ 31 <=? len then Ok None
          else do b <- mem_write b len [Some 0]; Ok (Some (b, len))
      end
  end.
