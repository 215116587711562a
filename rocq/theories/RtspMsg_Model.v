(** Model of RTSP messages, src/shared/rtsp.c:110-1398 and 1697-2056: building,
    serialising and assembling them from lines. A C string is the list of its
    bytes before the terminating 0. Memory allocation succeeds. The reference
    counts and the bus pointer are left out; the bus's cookie counter is passed
    explicitly. *)
From Coq Require Import String.
From Verif Require Import Base Align_Model Atoi_Model Qstr_Model Text.

Inductive err := EINVAL | EBUSY | ENOMEM | ENOENT | EFAULT | ERANGE | EOTHER (n : N).

(** RTSP_FLAG_REMOTE_COOKIE, src/shared/rtsp.c:47. *)
Definition remote_flag : N := 2 ^ 63.
(** cookie & ~RTSP_FLAG_REMOTE_COOKIE and cookie | RTSP_FLAG_REMOTE_COOKIE. *)
Definition without_flag (c : N) : N := c mod remote_flag.
Definition with_flag (c : N) : N := c mod remote_flag + remote_flag.
Definition has_flag (c : N) : bool := remote_flag <=? c.

(** struct rtsp_header, src/shared/rtsp.c:105-113; token_used is the length of
    [h_tokens], line_len the length of the line. *)
Record header := mkHeader {
  h_key : list byte; h_value : option (list byte);
  h_tokens : list (list byte); h_line : option (list byte) }.

(** A growing array of headers (SHL_GREEDY_REALLOC0_T, src/shared/shl_util.c:267-303):
    used elements, allocated elements, and how often realloc() has moved it. *)
Record arr := mkArr { a_used : list header; a_cnt : N; a_moves : N }.
(** A pointer to an element of one of the two arrays of a message. It dangles
    when the array has been moved since. *)
Record ptr := mkPtr { p_body : bool; p_moves : N; p_idx : N }.

(** enum rtsp_message_type and the fields that belong to the type,
    src/shared/rtsp.c:119-139. The size of the data is the payload's length. *)
Inductive start :=
| Unknown (head : list byte)
| Request (method uri : list byte)
| Reply (code : N) (phrase : list byte)
| Data (channel : N) (payload : list byte).

(** struct rtsp_message, src/shared/rtsp.c:115-175; of the transmission fields
    only raw, is_used and is_sealed. *)
Record message := mkMsg {
  m_start : start; m_cookie : N; m_major : N; m_minor : N;
  m_iter_body : bool; m_iter_header : option ptr; m_iter_token : N;
  m_headers : arr; m_clen : option ptr; m_ctype : option ptr; m_cseq : option ptr;
  m_body : option (list byte); m_body_headers : arr;
  m_raw : option (list byte); m_sealed : bool; m_used : bool }.

Definition no_arr : arr := mkArr [] 0 0.

(** rtsp_message_new, src/shared/rtsp.c:350-372. *)
Definition msg_new (s : start) : message :=
  mkMsg s 0 1 0 false None 0 no_arr None None None None no_arr None false false.

Definition set_cookie' (m : message) (c : N) : message :=
  mkMsg (m_start m) c (m_major m) (m_minor m) (m_iter_body m) (m_iter_header m) (m_iter_token m)
    (m_headers m) (m_clen m) (m_ctype m) (m_cseq m) (m_body m) (m_body_headers m) (m_raw m) (m_sealed m) (m_used m).
Definition set_version (m : message) (a b : N) : message :=
  mkMsg (m_start m) (m_cookie m) a b (m_iter_body m) (m_iter_header m) (m_iter_token m)
    (m_headers m) (m_clen m) (m_ctype m) (m_cseq m) (m_body m) (m_body_headers m) (m_raw m) (m_sealed m) (m_used m).
Definition set_iter (m : message) (b : bool) (h : option ptr) (t : N) : message :=
  mkMsg (m_start m) (m_cookie m) (m_major m) (m_minor m) b h t
    (m_headers m) (m_clen m) (m_ctype m) (m_cseq m) (m_body m) (m_body_headers m) (m_raw m) (m_sealed m) (m_used m).
Definition set_headers (m : message) (a : arr) : message :=
  mkMsg (m_start m) (m_cookie m) (m_major m) (m_minor m) (m_iter_body m) (m_iter_header m) (m_iter_token m)
    a (m_clen m) (m_ctype m) (m_cseq m) (m_body m) (m_body_headers m) (m_raw m) (m_sealed m) (m_used m).
Definition set_known (m : message) (clen ctype cseq : option ptr) : message :=
  mkMsg (m_start m) (m_cookie m) (m_major m) (m_minor m) (m_iter_body m) (m_iter_header m) (m_iter_token m)
    (m_headers m) clen ctype cseq (m_body m) (m_body_headers m) (m_raw m) (m_sealed m) (m_used m).
Definition set_body_headers (m : message) (a : arr) : message :=
  mkMsg (m_start m) (m_cookie m) (m_major m) (m_minor m) (m_iter_body m) (m_iter_header m) (m_iter_token m)
    (m_headers m) (m_clen m) (m_ctype m) (m_cseq m) (m_body m) a (m_raw m) (m_sealed m) (m_used m).
Definition set_body (m : message) (b : option (list byte)) : message :=
  mkMsg (m_start m) (m_cookie m) (m_major m) (m_minor m) (m_iter_body m) (m_iter_header m) (m_iter_token m)
    (m_headers m) (m_clen m) (m_ctype m) (m_cseq m) b (m_body_headers m) (m_raw m) (m_sealed m) (m_used m).
Definition set_raw (m : message) (r : list byte) : message :=
  mkMsg (m_start m) (m_cookie m) (m_major m) (m_minor m) (m_iter_body m) (m_iter_header m) (m_iter_token m)
    (m_headers m) (m_clen m) (m_ctype m) (m_cseq m) (m_body m) (m_body_headers m) (Some r) (m_sealed m) (m_used m).
Definition set_sealed (m : message) : message :=
  mkMsg (m_start m) (m_cookie m) (m_major m) (m_minor m) (m_iter_body m) (m_iter_header m) (m_iter_token m)
    (m_headers m) (m_clen m) (m_ctype m) (m_cseq m) (m_body m) (m_body_headers m) (m_raw m) true (m_used m).
Definition set_used (m : message) : message :=
  mkMsg (m_start m) (m_cookie m) (m_major m) (m_minor m) (m_iter_body m) (m_iter_header m) (m_iter_token m)
    (m_headers m) (m_clen m) (m_ctype m) (m_cseq m) (m_body m) (m_body_headers m) (m_raw m) (m_sealed m) true.

Definition is_data (m : message) : bool := match m_start m with Data _ _ => true | _ => false end.
Definition is_reply (m : message) : bool := match m_start m with Reply _ _ => true | _ => false end.

(** ** Helpers *)
(** code_descriptions and get_code_description, src/shared/rtsp.c:195-259. *)
Definition code_text (code : N) : list byte :=
  match code with
  | 100 => text "Continue" | 200 => text "OK" | 201 => text "Created"
  | 250 => text "Low on Storage Space"
  | 300 => text "Multiple Choices" | 301 => text "Moved Permanently" | 302 => text "Moved Temporarily"
  | 303 => text "See Other" | 304 => text "Not Modified" | 305 => text "Use Proxy"
  | 400 => text "Bad Request" | 401 => text "Unauthorized" | 402 => text "Payment Required"
  | 403 => text "Forbidden" | 404 => text "Not Found" | 405 => text "Method not Allowed"
  | 406 => text "Not Acceptable" | 407 => text "Proxy Authentication Required"
  | 408 => text "Request Time-out" | 410 => text "Gone" | 411 => text "Length Required"
  | 412 => text "Precondition Failed" | 413 => text "Request Entity Too Large"
  | 414 => text "Request-URI too Large" | 415 => text "Unsupported Media Type"
  | 451 => text "Parameter not Understood" | 452 => text "Conference not Found"
  | 453 => text "Not Enough Bandwidth" | 454 => text "Session not Found"
  | 455 => text "Method not Valid in this State" | 456 => text "Header Field not Valid for Resource"
  | 457 => text "Invalid Range" | 458 => text "Parameter is Read-only"
  | 459 => text "Aggregate Operation not Allowed" | 460 => text "Only Aggregate Operation Allowed"
  | 461 => text "Unsupported Transport" | 462 => text "Destination Unreachable"
  | 500 => text "Internal Server Error" | 501 => text "Not Implemented" | 502 => text "Bad Gateway"
  | 503 => text "Service Unavailable" | 504 => text "Gateway Time-out"
  | 505 => text "RTSP Version not Supported" | 551 => text "Option not Supported"
  | _ => text "Internal Error"
  end.

(** sanitize_line, src/shared/rtsp.c:261-333. [out] is the text written so far. *)
Fixpoint sanitize_loop (s out : list byte) (last : byte) (quoted escaped : bool) : list byte * bool :=
  match s with
  | [] => (out, quoted)
  | c :: s =>
      if escaped then
        let c := if c =? 0 then 48 else c in
        sanitize_loop s (out ++ [c]) c quoted false
      else if quoted then
        if c =? 34 then sanitize_loop s (out ++ [c]) c false false
        else if c =? 0 then sanitize_loop s out last quoted false
        else sanitize_loop s (out ++ [c]) c quoted (c =? 92)
      else if c =? 0 then sanitize_loop s out last quoted false
      else
        let c := if (c =? 13) || (c =? 10) || (c =? 9) then 32 else c in
        if (c =? 32) && (last =? 32) then sanitize_loop s out c quoted false
        else if (c =? 32) && (match out with [] => true | _ => false end) then sanitize_loop s out c quoted false
        else sanitize_loop s (out ++ [c]) c (c =? 34) false
  end.
Fixpoint drop_spaces (r : list byte) : list byte :=
  match r with 32 :: r => drop_spaces r | _ => r end.
(** Trailing spaces removed, as the loops at src/shared/rtsp.c:326-329 and 847-851 do. *)
Definition trim_end (s : list byte) : list byte := rev (drop_spaces (rev s)).
Definition sanitize (s : list byte) : list byte :=
  let '(out, quoted) := sanitize_loop s [] 0 false false in
  if quoted then out else trim_end out.

(** ** Constructors *)
(** rtsp_message_new_request(_n), src/shared/rtsp.c:398-446. *)
Definition new_request (method uri : list byte) : message + err :=
  match method, uri with
  | [], _ | _, [] => inr EINVAL
  | _, _ => inl (msg_new (Request method uri))
  end.
(** rtsp_message_new_raw_reply, src/shared/rtsp.c:448-478. *)
Definition new_raw_reply (code : N) (phrase : list byte) : message + err :=
  if code =? 2 ^ 32 - 1 then inr EINVAL
  else inl (msg_new (Reply code (match phrase with [] => code_text code | _ => phrase end))).
(** rtsp_message_new_reply, src/shared/rtsp.c:480-501. *)
Definition new_reply (cookie code : N) (phrase : list byte) : message + err :=
  if cookie =? 0 then inr EINVAL
  else match new_raw_reply code phrase with
       | inl m => inl (set_cookie' m (with_flag cookie))
       | inr e => inr e
       end.
(** rtsp_message_new_reply_for, src/shared/rtsp.c:503-524. *)
Definition new_reply_for (orig : message) (code : N) (phrase : list byte) : message + err :=
  if negb (m_used orig) || negb (has_flag (m_cookie orig)) then inr EINVAL
  else new_reply (m_cookie orig) code phrase.
(** rtsp_message_new_data, src/shared/rtsp.c:526-561. *)
Definition new_data (channel : N) (payload : list byte) : message + err :=
  if channel =? 2 ^ 32 - 1 then inr EINVAL else inl (msg_new (Data channel payload)).

(** ** Headers *)
(** Access through a pointer. *)
Definition array (m : message) (body : bool) : arr := if body then m_body_headers m else m_headers m.
Definition set_array (m : message) (body : bool) (a : arr) : message :=
  if body then set_body_headers m a else set_headers m a.
Definition deref (m : message) (p : ptr) : res header :=
  let a := array m (p_body p) in
  if p_moves p =? a_moves a then
    match nthN (a_used a) (p_idx p) with Some h => Ok h | None => UB end
  else UB.
Definition replace {A} (i : N) (x : A) (l : list A) : list A := takeN i l ++ x :: dropN (i + 1) l.
Definition store (m : message) (p : ptr) (h : header) : message :=
  let a := array m (p_body p) in
  set_array m (p_body p) (mkArr (replace (p_idx p) h (a_used a)) (a_cnt a) (a_moves a)).

(** rtsp_header_set_value, src/shared/rtsp.c:717-758; [value] is the text up to
    the terminating 0, of which the first [n] bytes are the value. The number of
    tokens fits an int. *)
Definition set_value (h : header) (value : list byte) (n : N) (force : bool) : header + err :=
  if (n =? 0) || (match value with [] => true | _ => false end) then inr EINVAL
  else if negb force && ((match h_value h with Some _ => true | None => false end)
       || (match h_tokens h with [] => false | _ => true end)
       || (match h_line h with Some _ => true | None => false end)) then inr EINVAL
  else inl (mkHeader (h_key h) (Some (takeN n value)) (tokenize value) (if force then None else h_line h)).

(** SHL_GREEDY_REALLOC0_T for one more element, src/shared/rtsp.c:775-789. *)
Definition grow (a : arr) : res arr :=
  let need := lenN (a_used a) + 1 in
  if need <=? a_cnt a then Ok a
  else do n <- align_power2 (N.max 64 need); Ok (mkArr (a_used a) n (a_moves a + 1)).

(** rtsp_message_append_header, src/shared/rtsp.c:760-818. *)
Definition append_header (m : message) (key : list byte) (value : list byte) (n : N)
  : res (message * (ptr + err)) :=
  if is_data m then Ok (m, inr EINVAL)
  else
    let b := m_iter_body m in
    do a <- grow (array m b);
    let h0 := mkHeader key None [] None in
    match (if n =? 0 then inl h0 else set_value h0 value n true) with
    | inr _ => Ok (set_array m b a, inr ENOMEM)
    | inl h =>
        let p := mkPtr b (a_moves a) (lenN (a_used a)) in
        let m := set_array m b (mkArr (a_used a ++ [h]) (a_cnt a) (a_moves a)) in
        let m :=
          if b then m
          else
            let m := if case_eq key (text "Content-Length") then set_known m (Some p) (m_ctype m) (m_cseq m) else m in
            if case_eq key (text "Content-Type") then set_known m (m_clen m) (Some p) (m_cseq m)
            else if case_eq key (text "CSeq") then set_known m (m_clen m) (m_ctype m) (Some p) else m in
        Ok (m, inl p)
    end.

(** rtsp_message_append_header_line, src/shared/rtsp.c:820-880. *)
Definition split_line (line : list byte) : list byte * list byte * N :=
  let '(k, r) := break_at 58 line in
  let key := trim_end k in
  match r with
  | Some (_ :: v) =>
      let v' := drop_spaces (trim_end v) in
      (key, drop_spaces v, lenN v')
  | _ => (key, [], 0)
  end.
Definition append_header_line (m : message) (line : list byte) : res (message * (ptr + err)) :=
  let '(key, value, n) := split_line line in
  do r <- append_header m key value n;
  match r with
  | (m, inr e) => Ok (m, inr e)
  | (m, inl p) =>
      do h <- deref m p;
      Ok (store m p (mkHeader (h_key h) (h_value h) (h_tokens h) (Some (line ++ [13; 10]))), inl p)
  end.

(** rtsp_header_append_token, src/shared/rtsp.c:882-898. *)
Definition append_token (h : header) (t : list byte) : header + err :=
  match h_line h, h_value h with
  | None, None => inl (mkHeader (h_key h) None (h_tokens h ++ [t]) None)
  | _, _ => inr EINVAL
  end.

(** rtsp_header_serialize, src/shared/rtsp.c:900-932. *)
Definition header_serialize (h : header) : header :=
  match h_line h with
  | Some _ => h
  | None =>
      let v := match h_value h with Some v => v | None => join (h_tokens h) end in
      mkHeader (h_key h) (Some v) (h_tokens h) (Some (h_key h ++ [58; 32] ++ v ++ [13; 10]))
  end.

(** ** Building *)
Definition guard (m : message) (k : res (message * option err)) : res (message * option err) :=
  if is_data m then Ok (m, Some EINVAL) else if m_sealed m then Ok (m, Some EBUSY) else k.
Definition no_ptr {A} (o : option A) : bool := match o with None => true | _ => false end.

(** rtsp_message_append_line, src/shared/rtsp.c:934-950. *)
Definition append_line (m : message) (line : list byte) : res (message * option err) :=
  guard m (
    if negb (no_ptr (m_iter_header m)) then Ok (m, Some EINVAL)
    else do r <- append_header_line m line;
         Ok (fst r, match snd r with inl _ => None | inr e => Some e end)).

(** rtsp_message_open_header, src/shared/rtsp.c:952-971. *)
Definition open_header (m : message) (name : list byte) : res (message * option err) :=
  match name with
  | [] => Ok (m, Some EINVAL)
  | _ =>
    guard m (
      if negb (no_ptr (m_iter_header m)) then Ok (m, Some EINVAL)
      else do r <- append_header m name [] 0;
           match r with
           | (m, inl p) => Ok (set_iter m (m_iter_body m) (Some p) (m_iter_token m), None)
           | (m, inr e) => Ok (m, Some e)
           end)
  end.

(** rtsp_message_close_header, src/shared/rtsp.c:973-991. *)
Definition close_header (m : message) : res (message * option err) :=
  guard m (
    match m_iter_header m with
    | None => Ok (m, Some EINVAL)
    | Some p => do h <- deref m p;
                Ok (set_iter (store m p (header_serialize h)) (m_iter_body m) None (m_iter_token m), None)
    end).

(** rtsp_message_open_body, src/shared/rtsp.c:993-1005. *)
Definition open_body (m : message) : res (message * option err) :=
  guard m (
    if negb (no_ptr (m_iter_header m)) || m_iter_body m then Ok (m, Some EINVAL)
    else Ok (set_iter m true (m_iter_header m) (m_iter_token m), None)).

(** rtsp_message_close_body, src/shared/rtsp.c:1007-1021. *)
Definition close_body (m : message) : res (message * option err) :=
  guard m (
    if negb (m_iter_body m) then Ok (m, Some EINVAL)
    else if negb (no_ptr (m_iter_header m)) then Ok (m, Some EINVAL)
    else Ok (set_iter m false (m_iter_header m) (m_iter_token m), None)).

(** The operations of rtsp_message_appendv_basic, src/shared/rtsp.c:1037-1101,
    by their type character; numbers are given as their decimal text. *)
Inductive bop :=
| BRaw (s : list byte) | BOpen (name : list byte) | BClose
| BBody | BBodyEnd | BToken (s : list byte) | BBad.
Definition append_basic (m : message) (o : bop) : res (message * option err) :=
  guard m (
    match o with
    | BRaw s =>
        match m_iter_header m with
        | Some p =>
            do h <- deref m p;
            match set_value h s (lenN s) false with
            | inl h => Ok (store m p h, None)
            | inr e => Ok (m, Some e)
            end
        | None => append_line m s
        end
    | BOpen name => open_header m name
    | BClose => close_header m
    | BBody => open_body m
    | BBodyEnd => close_body m
    | BToken s =>
        match m_iter_header m with
        | None => Ok (m, Some EINVAL)
        | Some p =>
            do h <- deref m p;
            match append_token h s with
            | inl h => Ok (store m p h, None)
            | inr e => Ok (m, Some e)
            end
        end
    | BBad => Ok (m, Some EINVAL)
    end).

(** rtsp_message_appendv, src/shared/rtsp.c:1117-1137. *)
Fixpoint append_ops (m : message) (l : list bop) : res (message * option err) :=
  match l with
  | [] => Ok (m, None)
  | o :: l =>
      do r <- append_basic m o;
      match r with
      | (m, Some e) => Ok (m, Some e)
      | (m, None) => append_ops m l
      end
  end.
Definition append (m : message) (l : list bop) : res (message * option err) :=
  guard m (append_ops m l).

(** ** Serialising *)
(** The start line, src/shared/rtsp.c:1147-1175. *)
Definition start_line (m : message) : list byte :=
  let version := text "RTSP/" ++ dec (m_major m) ++ [46] ++ dec (m_minor m) in
  match m_start m with
  | Unknown head => head ++ [13; 10]
  | Request method uri => method ++ [32] ++ uri ++ [32] ++ version ++ [13; 10]
  | Reply code phrase => version ++ [32] ++ dec code ++ [32] ++ phrase ++ [13; 10]
  | Data _ _ => []
  end.
(** The concatenated lines; every header has one. *)
Fixpoint lines (l : list header) : res (list byte) :=
  match l with
  | [] => Ok []
  | h :: l => match h_line h with Some s => do t <- lines l; Ok (s ++ t) | None => UB end
  end.

(** One of the three generated headers, src/shared/rtsp.c:1206-1275: overwrite
    the caller's or add one. *)
Definition set_known_header (m : message) (p : option ptr) (add : bool) (name v : list byte)
  : res (message * option err) :=
  match p with
  | Some p =>
      do h <- deref m p;
      match set_value h v (lenN v) true with
      | inl h => Ok (store m p (header_serialize h), None)
      | inr e => Ok (m, Some e)
      end
  | None => if add then append m [BOpen name; BToken v; BClose] else Ok (m, None)
  end.

(** rtsp_message_serialize_common, src/shared/rtsp.c:1139-1320. *)
Definition serialize_common (m : message) : res (message * option err) :=
  let head := start_line m in
  do body <- match m_body m with Some b => Ok b | None => lines (a_used (m_body_headers m)) end;
  let n := lenN body in
  do r <- match m_clen m with
          | Some _ => set_known_header m (m_clen m) true (text "Content-Length") (dec n)
          | None => set_known_header m None (negb (n =? 0)) (text "Content-Length") (dec (n mod 2 ^ 32))
          end;
  match r with
  | (m, Some e) => Ok (m, Some e)
  | (m, None) =>
    do r <- (match a_used (m_body_headers m) with
             | [] => Ok (m, None)
             | _ => set_known_header m (m_ctype m) true (text "Content-Type") (text "text/parameters")
             end);
    match r with
    | (m, Some e) => Ok (m, Some e)
    | (m, None) =>
      do r <- set_known_header m (m_cseq m) true (text "CSeq") (dec (without_flag (m_cookie m)));
      match r with
      | (m, Some e) => Ok (m, Some e)
      | (m, None) =>
        do hs <- lines (a_used (m_headers m));
        Ok (set_raw (set_body m (Some body)) (head ++ hs ++ [13; 10] ++ body), None)
      end
    end
  end.

(** rtsp_message_serialize_data, src/shared/rtsp.c:1322-1346. *)
Definition serialize_data (m : message) (channel : N) (payload : list byte) : message :=
  let n := lenN payload in
  set_raw m ([36; channel mod 256; (n / 256) mod 256; n mod 256] ++ payload).

(** rtsp_message_set_cookie, src/shared/rtsp.c:1348-1360. *)
Definition set_cookie (m : message) (c : N) : message * option err :=
  if m_sealed m then (m, Some EBUSY)
  else (set_cookie' m (if is_reply m then with_flag c else without_flag c), None).

(** The next cookie, src/shared/rtsp.c:1374. *)
Definition next_cookie (ck : N) : N :=
  let a := wrap64 (ck + 1) in if a =? 0 then 1 else a.

(** rtsp_message_seal, src/shared/rtsp.c:1362-1398; [ck] is the bus's counter. *)
Definition seal (ck : N) (m : message) : res (N * message * option err) :=
  if m_sealed m then Ok (ck, m, None)
  else if m_iter_body m || negb (no_ptr (m_iter_header m)) then Ok (ck, m, Some EINVAL)
  else
    let '(ck, m) := if m_cookie m =? 0 then (next_cookie ck, set_cookie' m (next_cookie ck)) else (ck, m) in
    let m := if is_reply m then set_cookie' m (with_flag (m_cookie m)) else m in
    do r <- match m_start m with
            | Data c p => Ok (serialize_data m c p, None)
            | _ => serialize_common m
            end;
    match r with
    | (m, Some e) => Ok (ck, m, Some e)
    | (m, None) => Ok (ck, set_sealed m, None)
    end.

(** ** Reading *)
(** rtsp_message_enter_header, src/shared/rtsp.c:1400-1430. *)
Fixpoint find_key (l : list header) (name : list byte) (i : N) : option N :=
  match l with
  | [] => None
  | h :: l => if case_eq (h_key h) name then Some i else find_key l name (i + 1)
  end.
Definition rguard {A} (m : message) (k : res (message * (A + err))) : res (message * (A + err)) :=
  if is_data m then Ok (m, inr EINVAL) else if negb (m_sealed m) then Ok (m, inr EBUSY) else k.
Definition enter_header (m : message) (name : list byte) : res (message * (list byte + err)) :=
  match name with
  | [] => Ok (m, inr EINVAL)
  | _ =>
    rguard m (
      if negb (no_ptr (m_iter_header m)) then Ok (m, inr EINVAL)
      else
        let a := array m (m_iter_body m) in
        match find_key (a_used a) name 0 with
        | Some i => Ok (set_iter m (m_iter_body m) (Some (mkPtr (m_iter_body m) (a_moves a) i)) 0, inl [])
        | None => Ok (m, inr ENOENT)
        end)
  end.
(** rtsp_message_exit_header, src/shared/rtsp.c:1432-1440. *)
Definition exit_header (m : message) : message :=
  if negb (m_sealed m) || is_data m then m
  else set_iter m (m_iter_body m) None (m_iter_token m).
(** rtsp_message_enter_body, rtsp_message_exit_body, src/shared/rtsp.c:1442-1467. *)
Definition enter_body (m : message) : res (message * (list byte + err)) :=
  rguard m (
    if negb (no_ptr (m_iter_header m)) || m_iter_body m then Ok (m, inr EINVAL)
    else Ok (set_iter m true None (m_iter_token m), inl [])).
Definition exit_body (m : message) : message :=
  if negb (m_sealed m) || is_data m then m
  else if negb (m_iter_body m) then m
  else set_iter m false None (m_iter_token m).

(** rtsp_message_readv_basic, src/shared/rtsp.c:1483-1572, by type character.
    Numbers: [scan] is what sscanf() makes of the token. *)
Inductive rop :=
| RRaw | REnter (name : list byte) | RExit | RBody | RBodyEnd
| RString | RSkip | RNumber (scan : list byte -> option (list byte)) | RBad.
Definition read_basic (m : message) (o : rop) : res (message * (list byte + err)) :=
  rguard m (
    let token (f : list byte -> list byte + err) :=
      match m_iter_header m with
      | None => Ok (m, inr EINVAL)
      | Some p =>
          do h <- deref m p;
          match nthN (h_tokens h) (m_iter_token m) with
          | None => Ok (m, inr ENOENT)
          | Some t => match f t with
                      | inl v => Ok (set_iter m (m_iter_body m) (m_iter_header m) (m_iter_token m + 1), inl v)
                      | inr e => Ok (m, inr e)
                      end
          end
      end in
    match o with
    | RRaw =>
        match m_iter_header m with
        | None => Ok (m, inr EINVAL)
        | Some p => do h <- deref m p;
                    Ok (m, inl (match h_value h with Some v => v | None => [] end))
        end
    | REnter name => enter_header m name
    | RExit => Ok (exit_header m, inl [])
    | RBody => enter_body m
    | RBodyEnd => Ok (exit_body m, inl [])
    | RString => token (fun t => inl t)
    | RSkip => token (fun _ => inl [])
    | RNumber scan => token (fun t => match scan t with Some v => inl v | None => inr EINVAL end)
    | RBad => token (fun _ => inr EINVAL)
    end).

(** ** Assembling from lines *)
(** rtsp_message_from_request, src/shared/rtsp.c:1702-1781. *)
Definition version_of (s : list byte) (stop : byte -> bool) (at_end : bool)
  : option (N * N * list byte) :=
  let a := atoi_un s 10 in
  if next a =? 0 then None
  else match dropN (next a) s with
       | 46 :: t =>
           let b := atoi_un t 10 in
           if next b =? 0 then None
           else match dropN (next b) t with
                | [] => if at_end then Some (Atoi_Model.value a, Atoi_Model.value b, []) else None
                | c :: u => if stop c then Some (Atoi_Model.value a, Atoi_Model.value b, c :: u) else None
                end
       | _ => None
       end.
Definition from_request (line : list byte) : message :=
  let error := msg_new (Unknown line) in
  match break_at 32 line with
  | ((_ :: _) as cmd, Some (_ :: r)) =>
      match break_at 32 r with
      | ((_ :: _) as url, Some (_ :: r)) =>
          if case_prefix (text "RTSP/") r then
            match version_of (dropN 5 r) (fun _ => false) true with
            | Some (major, minor, _) => set_version (msg_new (Request cmd url)) major minor
            | None => error
            end
          else error
      | _ => error
      end
  | _ => error
  end.
(** rtsp_message_from_reply, src/shared/rtsp.c:1783-1859. *)
Definition from_reply (line : list byte) : message + err :=
  let error := inl (msg_new (Unknown line)) in
  if case_prefix (text "RTSP/") line then
    match version_of (dropN 5 line) (fun c => c =? 32) false with
    | Some (major, minor, _ :: r) =>
        let a := atoi_un r 10 in
        if next a =? 0 then error
        else
          let finish phrase :=
            match new_raw_reply (Atoi_Model.value a) phrase with
            | inl m => inl (set_version m major minor)
            | inr e => inr e
            end in
          match dropN (next a) r with
          | [] => finish []
          | 32 :: phrase => finish phrase
          | _ => error
          end
    | _ => error
    end
  else error.
(** rtsp_message_from_head, src/shared/rtsp.c:1861-1872. *)
Definition from_head (line : list byte) : message + err :=
  if case_prefix (text "RTSP/") line then from_reply line else inl (from_request line).

(** rtsp__strncspn(d, len, "\r\n"), src/shared/rtsp.c:1874-1886: the bytes before
    the first CR or LF, and the rest. *)
Fixpoint cut_line (d : list byte) : list byte * list byte :=
  match d with
  | [] => ([], [])
  | c :: t => if (c =? 13) || (c =? 10) then ([], d)
              else let '(a, r) := cut_line t in (c :: a, r)
  end.

(** Loop of rtsp_message_append_body, src/shared/rtsp.c:1931-1966. [after] is the
    byte after the body in memory ([None]: the end of the object); it is looked
    at when the body ends with its first CR or LF. Only single CR and LF bytes
    are skipped. *)
Fixpoint body_loop (fuel : nat) (m : message) (d : list byte) (after : option byte)
  : res (message * option err) :=
  match fuel with
  | O => Ok (m, None)
  | S fuel =>
      match d with
      | [] => Ok (m, None)
      | _ =>
          let '(v, r) := cut_line d in
          do rest <- match r with
                     | [] => Ok []
                     | [_] => match after with Some _ => Ok [] | None => UB end
                     | _ :: t => Ok t
                     end;
          match v with
          | [] => body_loop fuel m rest after
          | _ =>
              do x <- append_header_line m (sanitize v);
              match x with
              | (m, inl _) => body_loop fuel m rest after
              | (m, inr e) => Ok (m, Some e)
              end
          end
      end
  end.
(** rtsp_message_append_body, src/shared/rtsp.c:1888-1973. *)
Definition append_body (m : message) (body : list byte) (after : option byte)
  : res (message * option err) :=
  match body with
  | [] => Ok (m, None)
  | _ =>
      do is_text <- match m_ctype m with
                    | None => Ok false
                    | Some p => do h <- deref m p;
                                Ok (match h_value h with
                                    | Some v => str_eq v (text "text/parameters") | None => false end)
                    end;
      if negb is_text then Ok (set_body m (Some body), None)
      else
        do r <- open_body m;
        match r with
        | (m, Some e) => Ok (m, Some e)
        | (m, None) =>
            do r <- body_loop (length body) m body after;
            match r with
            | (m, Some e) => Ok (m, Some e)
            | (m, None) => close_body m
            end
        end
  end.

(** rtsp_message_new_from_raw, src/shared/rtsp.c:1975-2056. *)
Fixpoint raw_loop (fuel : nat) (m : option message) (d : list byte) (after : option byte)
  : res (option message * option err) :=
  match fuel with
  | O => Ok (m, None)
  | S fuel =>
      match d with
      | [] => Ok (m, None)
      | _ =>
          let '(v, r) := cut_line d in
          let rest := match r with
                      | 13 :: 10 :: t => t
                      | _ :: t => t
                      | [] => []
                      end in
          match v with
          | [] =>
              match (match m with Some m => inl m | None => from_head [] end) with
              | inr e => Ok (m, Some e)
              | inl m => do x <- append_body m rest after; Ok (Some (fst x), snd x)
              end
          | _ =>
              match m with
              | Some m =>
                  do x <- append_header_line m (sanitize v);
                  match x with
                  | (m, inl _) => raw_loop fuel (Some m) rest after
                  | (m, inr e) => Ok (Some m, Some e)
                  end
              | None =>
                  match from_head (sanitize v) with
                  | inl m => raw_loop fuel (Some m) rest after
                  | inr e => Ok (None, Some e)
                  end
              end
          end
      end
  end.
Definition new_from_raw (ck : N) (d : list byte) (after : option byte) : res (N * (message + err)) :=
  do r <- raw_loop (length d) None d after;
  match r with
  | (_, Some e) => Ok (ck, inr e)
  | (None, None) => Ok (ck, inr EINVAL)
  | (Some m, None) =>
      do s <- seal ck m;
      match s with
      | (ck, m, None) => Ok (ck, inl m)
      | (ck, _, Some e) => Ok (ck, inr e)
      end
  end.
