(** Model of the DHCP option functions, src/dhcp/common.c:42-160,238-369. A packet
    is its 628 bytes: 240 bytes of header (struct dhcp_packet, src/dhcp/common.h:56-73)
    and 388 bytes of options. Offsets are relative to the start of the packet. *)
From Verif Require Import Base.

(** Header layout: sname at 44 (64 bytes), file at 108 (128 bytes), cookie at 236. *)
Definition HDR : N := 240.
Definition SNAME : N := 44.
Definition FILE : N := 108.
Definition OPTIONS_SIZE : N := 388.
Definition PACKET : N := 628.
(** DHCP_OPTIONS_BUFSIZE, src/dhcp/common.h:49. *)
Definition BUFSIZE : N := 308.
(** src/dhcp/common.h:90-129. *)
Definition PADDING : N := 0.
Definition END : N := 255.
Definition OVERLOAD : N := 52.
Definition MESSAGE_TYPE : N := 53.

Definition rd (p : list byte) (i : N) : res N :=
  match nthN p i with Some b => Ok b | None => UB end.

(** ** dhcp_get_option, src/dhcp/common.c:74-146 *)
(** Loop state: optionptr, rem (an int), overload. *)
Record st := mkSt { ptr : N; rem : Z; ovl : N }.
Inductive next := Goto (s : st) | Answer (r : option N).

(** [rem] is an int: going below -2^31 is undefined. *)
Definition sub_int (r : Z) (n : N) : res Z :=
  let x := (r - Z.of_N n)%Z in if (x <? - 2 ^ 31)%Z then UB else Ok x.

(** One round of the loop, lines 88-143. The comparisons with [options_end],
    which is the address of byte [plen - 1] of the packet, are comparisons of
    addresses. *)
Definition get_step (p : list byte) (plen : N) (code : N) (s : st) : res next :=
  if (rem s <=? 0)%Z && (plen <=? ptr s) then Ok (Answer None)
  else
    do c <- rd p (ptr s);
    if c =? PADDING then
      do r <- sub_int (rem s) 1;
      Ok (Goto (mkSt (ptr s + 1) r (ovl s)))
    else if c =? END then
      if N.testbit (ovl s) 0 then Ok (Goto (mkSt FILE 128 (N.clearbit (ovl s) 0)))
      else if N.testbit (ovl s) 1 then Ok (Goto (mkSt SNAME 64 (N.clearbit (ovl s) 1)))
      else Ok (Answer None)
    else if plen <=? ptr s + 1 then Ok (Answer None)
    else
      do l <- rd p (ptr s + 1);
      do r <- sub_int (rem s) (2 + l);
      if (r <? 0)%Z then Ok (Goto (mkSt (ptr s) r (ovl s)))
      else if c =? code then
        Ok (Answer (if plen <=? ptr s + 2 + l then None else Some (ptr s + 2)))
      else
        do o <- (if c =? OVERLOAD then do v <- rd p (ptr s + 2); Ok (N.lor (ovl s) v) else Ok (ovl s));
        Ok (Goto (mkSt (ptr s + 2 + l) r o)).

(** [fuel] rounds; [Ok None]: not finished after them. *)
Fixpoint get_loop (fuel : nat) (p : list byte) (plen code : N) (s : st) : res (option (option N)) :=
  match fuel with
  | O => Ok None
  | S fuel =>
      do n <- get_step p plen code s;
      match n with
      | Answer r => Ok (Some r)
      | Goto s => get_loop fuel p plen code s
      end
  end.
(** The result is the offset of the option's data. *)
Definition get_option (fuel : nat) (p : list byte) (plen code : N) : res (option (option N)) :=
  get_loop fuel p plen code (mkSt HDR 388 0).

(** ** Writing options *)
(** dhcp_end_option, src/dhcp/common.c:148-160; [opts] is the option area. One
    round per byte is enough inside it; running out of rounds is [None]. *)
Fixpoint end_loop (fuel : nat) (opts : list byte) (i : N) : res (option N) :=
  match fuel with
  | O => Ok None
  | S fuel =>
      do c <- rd opts i;
      if c =? END then Ok (Some i)
      else if c =? PADDING then end_loop fuel opts (i + 1)
      else do l <- rd opts (i + 1); end_loop fuel opts (i + l + 2 - 1 + 1)
  end.
Definition end_option (opts : list byte) : res (option N) := end_loop 400 opts 0.

(** dhcp_add_binary_option, src/dhcp/common.c:242-258. *)
Definition add_binary (p : list byte) (addopt : list byte) : res (option (list byte)) :=
  do e <- end_option (dropN HDR p);
  match e with
  | None => Ok None
  | Some e =>
      do l <- rd addopt 1;
      let n := 2 + l in
      if BUFSIZE <=? e + n + 1 then Ok (Some p)
      else
        do d <- mem_read addopt 0 n;
        do p <- mem_write p (HDR + e) d;
        do p <- mem_write p (HDR + e + n) [END];
        Ok (Some p)
  end.

(** client_options, src/dhcp/common.c:43-60: code and data length of the type
    (dhcp_option_lengths, src/dhcp/common.h:165-171); check_option,
    src/dhcp/common.c:281-297, and dhcp_get_code_type, 62-72. *)
Definition client_options : list (N * N) :=
  [(0x01, 4); (0x03, 4); (0x06, 4); (0x0c, 1); (0x0f, 1); (0x2a, 4); (0x33, 4); (0x32, 4);
   (0x35, 1); (0x36, 4); (0x39, 2); (0x3c, 1); (0x3d, 1); (0xfc, 1)].
Definition check_option (code data_len : N) : bool :=
  match find (fun x => fst x =? code) client_options with
  | None => false
  | Some (_, l) => l =? data_len
  end.

(** The local buffer of six bytes of the typed functions; the unused rest stays
    out of the copy. *)
Definition add_sized (p : list byte) (code : N) (data : list byte) : res (option (list byte)) :=
  if check_option code (lenN data) then add_binary p (code :: lenN data :: data) else Ok (Some p).
(** dhcp_add_option_uint32, _uint16, _uint8, src/dhcp/common.c:299-348. *)
Definition add_u32 (p : list byte) (code data : N) :=
  add_sized p code [data / 2 ^ 24; data / 2 ^ 16 mod 256; data / 2 ^ 8 mod 256; data mod 256].
Definition add_u16 (p : list byte) (code data : N) := add_sized p code [data / 256; data mod 256].
Definition add_u8 (p : list byte) (code data : N) := add_sized p code [data].

(** dhcp_init_header, src/dhcp/common.c:350-369: op, htype, hlen, zeros, cookie,
    end marker. DHCPOFFER 2, DHCPACK 5, DHCPNAK 6. *)
Definition init_header (type : N) : res (option (list byte)) :=
  let op := if (type =? 2) || (type =? 5) || (type =? 6) then 2 else 1 in
  let p := [op; 1; 6] ++ repeat 0 233 ++ [0x63; 0x82; 0x53; 0x63] ++ [END] ++ repeat 0 387 in
  add_u8 p MESSAGE_TYPE type.

Inductive addop :=
| AddBinary (code : N) (data : list byte)
| AddU32 (code v : N)
| AddU16 (code v : N)
| AddU8 (code v : N).
Definition add_op (p : list byte) (o : addop) : res (option (list byte)) :=
  match o with
  | AddBinary c d => add_binary p (c :: lenN d :: d)
  | AddU32 c v => add_u32 p c v
  | AddU16 c v => add_u16 p c v
  | AddU8 c v => add_u8 p c v
  end.
Fixpoint add_ops (p : list byte) (ops : list addop) : res (option (list byte)) :=
  match ops with
  | [] => Ok (Some p)
  | o :: ops =>
      do r <- add_op p o;
      match r with Some p => add_ops p ops | None => Ok None end
  end.
(** A packet of a message type with options. *)
Definition build (type : N) (ops : list addop) : res (option (list byte)) :=
  do r <- init_header type;
  match r with Some p => add_ops p ops | None => Ok None end.
