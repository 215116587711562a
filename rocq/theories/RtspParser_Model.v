(** Model of the RTSP stream parser, src/shared/rtsp.c:2058-2562. The ring buffer
    is the byte queue that C01 shows it to be; pushing to it and malloc() succeed.
    [inc] stands for rtsp_incoming_message() (src/shared/rtsp.c:2754-2778) and the
    callbacks behind it: it gets and returns the rest of the world [W] and the
    bus's cookie counter, and may report an error. *)
From Verif Require Import Base Atoi_Model Text RtspMsg_Model.

Inductive pstate := SNew | SHeader | SQuote | SHeaderNl | SBody | SDataHead | SDataBody.

(** struct rtsp_parser, src/shared/rtsp.c:68-91. *)
Record parser := mkParser {
  d_m : option message; d_buf : list byte; d_buflen : N; d_state : pstate; d_last : byte;
  d_remaining : N; d_size : N; d_channel : N; d_quoted : bool }.
Definition parser_init : parser := mkParser None [] 0 SNew 0 0 0 0 false.

Definition p_m (d : parser) m := mkParser m (d_buf d) (d_buflen d) (d_state d) (d_last d) (d_remaining d) (d_size d) (d_channel d) (d_quoted d).
Definition p_buf (d : parser) b n := mkParser (d_m d) b n (d_state d) (d_last d) (d_remaining d) (d_size d) (d_channel d) (d_quoted d).
Definition p_state (d : parser) s := mkParser (d_m d) (d_buf d) (d_buflen d) s (d_last d) (d_remaining d) (d_size d) (d_channel d) (d_quoted d).
Definition p_last (d : parser) c := mkParser (d_m d) (d_buf d) (d_buflen d) (d_state d) c (d_remaining d) (d_size d) (d_channel d) (d_quoted d).
Definition p_remaining (d : parser) n := mkParser (d_m d) (d_buf d) (d_buflen d) (d_state d) (d_last d) n (d_size d) (d_channel d) (d_quoted d).
Definition p_data (d : parser) c n := mkParser (d_m d) (d_buf d) (d_buflen d) (d_state d) (d_last d) (d_remaining d) n c (d_quoted d).
Definition p_quoted (d : parser) q := mkParser (d_m d) (d_buf d) (d_buflen d) (d_state d) (d_last d) (d_remaining d) (d_size d) (d_channel d) q.

(** shl_ring_pull, shl_ring_copy; a copy of more than is there would leave
    uninitialised bytes in the destination. *)
Definition pull (d : parser) (n : N) : parser := p_buf d (dropN n (d_buf d)) 0.
Definition copy (d : parser) (n : N) : res (list byte) :=
  if n <=? lenN (d_buf d) then Ok (takeN n (d_buf d)) else UB.
(** ++dec->buflen. *)
Definition count (d : parser) : parser := p_buf d (d_buf d) (d_buflen d + 1).

Section World.
Context {W : Type} (inc : W -> N -> message -> W * N * option err).

(** Parser, cookie counter, world; and the error returned, if any. *)
Definition st : Type := parser * N * W.
Definition out : Type := res (st * option err).

(** parser_append_header, src/shared/rtsp.c:2075-2115. *)
Definition ptr_eqb (a : ptr) (b : option ptr) : bool :=
  match b with
  | Some b => Bool.eqb (p_body a) (p_body b) && (p_moves a =? p_moves b) && (p_idx a =? p_idx b)
  | None => false
  end.
Definition whole_number (t : list byte) : (N + err) * bool :=
  let a := atoi_zn t 10 in
  (match ret a with Success => inl (Atoi_Model.value a) | Erange => inr ERANGE | Einval => inr EINVAL end,
   next a =? lenN t).
Definition parser_append_header (d : parser) (m : message) (line : list byte) : res (parser * option err) :=
  do r <- append_header_line m line;
  match r with
  | (m, inr e) => Ok (p_m d (Some m), Some e)
  | (m, inl p) =>
      do h <- deref m p;
      if ptr_eqb p (m_clen m) then
        match h_tokens h with
        | [] => Ok (p_m d (Some m), Some EINVAL)
        | t :: _ =>
            match whole_number t with
            | (inl n, true) => Ok (p_remaining (p_m d (Some m)) n, None)
            | _ => Ok (p_m d (Some m), Some EINVAL)
            end
        end
      else if ptr_eqb p (m_cseq m) then
        match h_tokens h with
        | [] => Ok (p_m d (Some m), None)
        | t :: _ =>
            match whole_number t with
            | (inl n, true) =>
                Ok (p_m d (Some (if has_flag n then m else set_cookie' m (with_flag n))), None)
            | (inl _, false) => Ok (p_m d (Some m), None)
            | (inr e, _) => Ok (p_m d (Some m), Some e)
            end
        end
      else Ok (p_m d (Some m), None)
  end.

(** parser_finish_header_line, src/shared/rtsp.c:2117-2137. *)
Definition finish_line (s : st) : out :=
  let '(d, ck, w) := s in
  do l <- copy d (d_buflen d);
  let line := sanitize l in
  match d_m d with
  | None =>
      match from_head line with
      | inl m => Ok (p_m d (Some m), ck, w, None)
      | inr e => Ok (d, ck, w, Some e)
      end
  | Some m => do r <- parser_append_header d m line; Ok (fst r, ck, w, snd r)
  end.

(** Sealing and dispatching, src/shared/rtsp.c:2151-2157 and 2175-2181. *)
Definition dispatch (d : parser) (ck : N) (w : W) (m : message) : out :=
  do r <- seal ck m;
  match r with
  | (ck, _, Some e) => Ok (d, ck, w, Some e)
  | (ck, m, None) => let '(w, ck, e) := inc w ck (set_used m) in Ok (d, ck, w, e)
  end.
(** parser_submit, src/shared/rtsp.c:2139-2158. *)
Definition submit (s : st) : out :=
  let '(d, ck, w) := s in
  match d_m d with
  | None => Ok (s, None)
  | Some m => dispatch (p_m d None) ck w m
  end.
(** parser_submit_data, src/shared/rtsp.c:2160-2182. *)
Definition submit_data (s : st) (p : list byte) : out :=
  let '(d, ck, w) := s in
  match new_data (d_channel d) p with
  | inr e => Ok (s, Some e)
  | inl m => dispatch d ck w m
  end.

(** parser_feed_char_new, src/shared/rtsp.c:2184-2222. *)
Definition feed_new (s : st) (ch : byte) : out :=
  let '(d, ck, w) := s in
  if (ch =? 13) || (ch =? 10) || (ch =? 9) || (ch =? 32) then Ok (count d, ck, w, None)
  else if ch =? 36 then
    Ok (pull (p_data (p_state d SDataHead) 0 0) (d_buflen d + 1), ck, w, None)
  else
    let d := pull (p_remaining (p_state d SHeader) 0) (d_buflen d) in
    Ok (p_buf d (d_buf d) 1, ck, w, None).

(** parser_feed_char_header, src/shared/rtsp.c:2224-2335. *)
Definition feed_header (s : st) (ch : byte) : out :=
  let '(d, ck, w) := s in
  let nl := (d_last d =? 13) || (d_last d =? 10) in
  if ch =? 13 then
    if nl then
      do r <- finish_line (p_state d SHeaderNl, ck, w);
      match r with
      | (s, Some e) => Ok (s, Some e)
      | ((d, ck, w), None) =>
          let d := pull d (d_buflen d + 1) in
          if d_remaining d =? 0 then submit (d, ck, w) else Ok (d, ck, w, None)
      end
    else Ok (count d, ck, w, None)
  else if ch =? 10 then
    if d_last d =? 10 then
      do r <- finish_line s;
      match r with
      | (s, Some e) => Ok (s, Some e)
      | ((d, ck, w), None) =>
          let d := pull d (d_buflen d + 1) in
          if d_remaining d =? 0 then submit (p_state d SNew, ck, w)
          else Ok (p_state d SBody, ck, w, None)
      end
    else Ok (count d, ck, w, None)
  else if (ch =? 9) || (ch =? 32) then Ok (count d, ck, w, None)
  else
    do r <- (if nl then
               do r <- finish_line s;
               match r with
               | (s, Some e) => Ok (s, Some e)
               | ((d, ck, w), None) => Ok (pull d (d_buflen d), ck, w, None)
               end
             else Ok (s, None));
    match r with
    | (s, Some e) => Ok (s, Some e)
    | ((d, ck, w), None) =>
        let d := count d in
        Ok (if ch =? 34 then p_quoted (p_state d SQuote) false else d, ck, w, None)
    end.

(** parser_feed_char_header_quote, src/shared/rtsp.c:2337-2356. *)
Definition feed_quote (s : st) (ch : byte) : out :=
  let '(d, ck, w) := s in
  if (d_last d =? 92) && negb (d_quoted d) then Ok (p_quoted (count d) true, ck, w, None)
  else
    let d := count (p_quoted d false) in
    Ok (if ch =? 34 then p_state d SHeader else d, ck, w, None).

(** parser_feed_char_body, src/shared/rtsp.c:2358-2407. *)
Definition feed_body (s : st) (ch : byte) : out :=
  let '(d, ck, w) := s in
  if d_remaining d =? 0 then feed_new (p_state d SNew, ck, w) ch
  else
    let d := p_remaining (count d) (d_remaining d - 1) in
    if d_remaining d =? 0 then
      do r <- match d_m d with
              | None => Ok (d, ck, w, None)
              | Some m =>
                  do l <- copy d (d_buflen d);
                  do x <- append_body m l (Some 0);
                  match x with
                  | (m, Some e) => Ok (p_m d (Some m), ck, w, Some e)
                  | (m, None) => submit (p_m d (Some m), ck, w)
                  end
              end;
      let '((d, ck, w), e) := r in
      Ok (pull (p_state d SNew) (d_buflen d), ck, w, e)
    else Ok (d, ck, w, None).

(** parser_feed_char_header_nl, src/shared/rtsp.c:2409-2439. *)
Definition feed_header_nl (s : st) (ch : byte) : out :=
  let '(d, ck, w) := s in
  if ch =? 10 then
    let d := pull d (d_buflen d + 1) in
    Ok (p_state d (if d_remaining d =? 0 then SNew else SBody), ck, w, None)
  else feed_body (p_state (pull d (d_buflen d)) SBody, ck, w) ch.

(** parser_feed_char_data_head, src/shared/rtsp.c:2441-2459. *)
Definition feed_data_head (s : st) (ch : byte) : out :=
  let '(d, ck, w) := s in
  let d := count d in
  if 3 <=? d_buflen d then
    do b <- copy d 3;
    match b with
    | [c; hi; lo] =>
        let d := pull d (d_buflen d) in
        Ok (p_state (p_data d c (hi * 256 + lo)) SDataBody, ck, w, None)
    | _ => UB
    end
  else Ok (d, ck, w, None).

(** parser_feed_char_data_body, src/shared/rtsp.c:2461-2492. *)
Definition feed_data_body (s : st) (ch : byte) : out :=
  let '(d, ck, w) := s in
  let d := count d in
  if d_size d <=? d_buflen d then
    do p <- copy d (d_size d);
    do r <- submit_data (d, ck, w) p;
    let '((d, ck, w), e) := r in
    Ok (pull (p_state d SNew) (d_buflen d), ck, w, e)
  else Ok (d, ck, w, None).

(** parser_feed_char, src/shared/rtsp.c:2494-2524. *)
Definition feed_char (s : st) (ch : byte) : out :=
  match d_state (fst (fst s)) with
  | SNew => feed_new s ch
  | SHeader => feed_header s ch
  | SQuote => feed_quote s ch
  | SHeaderNl => feed_header_nl s ch
  | SBody => feed_body s ch
  | SDataHead => feed_data_head s ch
  | SDataBody => feed_data_body s ch
  end.

(** The loop of rtsp_parse_data, src/shared/rtsp.c:2549-2555. *)
Fixpoint feed_all (s : st) (l : list byte) : out :=
  match l with
  | [] => Ok (s, None)
  | c :: l =>
      do r <- feed_char s c;
      match r with
      | (s, Some e) => Ok (s, Some e)
      | ((d, ck, w), None) => feed_all (p_last d c, ck, w) l
      end
  end.

(** rtsp_parse_data, src/shared/rtsp.c:2526-2562. *)
Definition parse_data (s : st) (l : list byte) : out :=
  let '(d, ck, w) := s in
  match l with
  | [] => Ok (s, Some (EOTHER 11))
  | _ =>
      let n := lenN (d_buf d) in
      do r <- feed_all (p_buf d (d_buf d ++ l) n, ck, w) l;
      match r with
      | (s, Some e) => Ok (s, Some e)
      | ((d, ck, w), None) =>
          if d_buflen d =? lenN (d_buf d) then Ok (d, ck, w, None) else Ok (d, ck, w, Some EFAULT)
      end
  end.

(** Successive reads (rtsp_read, src/shared/rtsp.c:2780-2803) until one fails. *)
Fixpoint parse_chunks (s : st) (ls : list (list byte)) : out :=
  match ls with
  | [] => Ok (s, None)
  | l :: ls =>
      do r <- parse_data s l;
      match r with
      | (s, Some e) => Ok (s, Some e)
      | (s, None) => parse_chunks s ls
      end
  end.
End World.
