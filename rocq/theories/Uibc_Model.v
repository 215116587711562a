(** Model of the user input encoder, src/uibc/miracle-uibcctl.c:163-247,291-368,
    591-624. Strings are byte lists without their NUL. Scaling ratios are 1, as in
    the only caller. Stores into the packet are recorded, so that stores outside
    the allocation can be talked about. *)
From Verif Require Import Base.

Definition COMMA : N := 44.

(** strsep over the whole string: one field more than there are commas. *)
Fixpoint fields (s : list byte) : list (list byte) :=
  match s with
  | [] => [[]]
  | c :: s =>
      if c =? COMMA then [] :: fields s
      else match fields s with f :: fs => (c :: f) :: fs | [] => [[c]] end
  end.
Definition commas (s : list byte) : N := lenN (filter (N.eqb COMMA) s).
(** str_split, src/uibc/miracle-uibcctl.c:591-624: the array has one slot per
    comma, and one for the trailing token if the last byte is not a comma. *)
Definition ends_with_comma (s : list byte) : bool :=
  match rev s with c :: _ => c =? COMMA | [] => false end.
Definition slots (s : list byte) : N := commas s + (if ends_with_comma s then 0 else 1).
Definition str_split (s : list byte) : res (list (list byte)) :=
  if lenN (fields s) <=? slots s then Ok (fields s) else UB.

(** atoi of the C library: white space, sign, digits; overflow is undefined. *)
Definition is_space (c : N) : bool := (c =? 32) || ((9 <=? c) && (c <=? 13)).
Definition is_digit (c : N) : bool := (48 <=? c) && (c <=? 57).
Fixpoint skip_space (s : list byte) : list byte :=
  match s with c :: s' => if is_space c then skip_space s' else s | [] => [] end.
Fixpoint digits (s : list byte) (acc : N) : N :=
  match s with c :: s' => if is_digit c then digits s' (10 * acc + (c - 48)) else acc | [] => acc end.
Definition int (z : Z) : res Z := if (- 2 ^ 31 <=? z)%Z && (z <? 2 ^ 31)%Z then Ok z else UB.
Definition atoi (s : list byte) : res Z :=
  match skip_space s with
  | c :: s' =>
      if c =? 45 then int (- Z.of_N (digits s' 0))
      else if c =? 43 then int (Z.of_N (digits s' 0))
      else int (Z.of_N (digits (c :: s') 0))
  | [] => Ok 0%Z
  end.

Definition tok (toks : list (list byte)) (i : N) : res (list byte) :=
  match nthN toks i with Some t => Ok t | None => UB end.
(** [temp & 0xFF] and [(temp >> 8) & 0xFF]. *)
Definition lo (z : Z) : N := Z.to_N (z mod 256).
Definition hi (z : Z) : N := Z.to_N ((z / 256) mod 256).

Definition store : Type := N * byte.
(** Consecutive stores from an offset on. *)
Fixpoint stores (off : N) (l : list byte) : list store :=
  match l with [] => [] | b :: l => (off, b) :: stores (off + 1) l end.

(** The loop over the pointers, lines 211-232: [m] rounds from round [i] on. *)
Fixpoint points (toks : list (list byte)) (m : nat) (i : N) : res (list store) :=
  match m with
  | O => Ok []
  | S m =>
      do t0 <- tok toks (2 + i * 3); do id <- atoi t0;
      do t1 <- tok toks (2 + i * 3 + 1); do x <- atoi t1;
      do t2 <- tok toks (2 + i * 3 + 2); do y <- atoi t2;
      do r <- points toks m (i + 1);
      Ok (stores (8 + i * 5) [lo id; hi x; lo x; hi y; lo y] ++ r)
  end.

(** A packet: allocated length and the stores made. *)
Record packet := mkPacket { plen : N; pstores : list store }.

(** getUIBCGenericTouchPacket, src/uibc/miracle-uibcctl.c:163-247; [None]: bad
    input event, no packet. Allocations of 2^63 bytes or more fail and the NULL
    pointer is written to. *)
Definition touch (s : list byte) : res (option packet) :=
  do toks <- str_split s;
  if (lenN toks <? 5) || negb ((lenN toks - 5) mod 3 =? 0) then Ok None
  else
    do t0 <- tok toks 0; do type <- atoi t0;
    do t1 <- tok toks 1; do n <- atoi t1;
    do n5 <- int (n * 5);
    do glen <- int (n5 + 1);
    do blen0 <- int (glen + 7);
    let blen1 := Z.to_N (blen0 mod 2 ^ 64) in
    let blen := if blen1 mod 2 =? 0 then blen1 else wrap64 (blen1 + 1) in
    if 2 ^ 63 <=? blen then UB
    else
      let header := stores 0 [0; 0; lo (Z.shiftr (Z.of_N blen) 8); lo (Z.of_N blen); lo type;
                              hi glen; lo glen; lo n] in
      do pts <- points toks (Z.to_nat n) 0;
      let offset := if (0 <? n)%Z then 8 + 5 * Z.to_N n else 0 in
      (* while (offset <= uibcBodyLen) outData[offset++] = 0x00 *)
      let tail := stores offset (repeat 0 (N.to_nat (blen + 1 - offset))) in
      Ok (Some (mkPacket blen (header ++ pts ++ tail))).

(** Bytes of the packet after the stores; stores outside do not change them.
    [None] is a byte never written. *)
Definition apply_store (m : list cell) (w : store) : list cell :=
  if fst w <? lenN m then takeN (fst w) m ++ Some (snd w) :: dropN (fst w + 1) m else m.
Definition contents (p : packet) : list cell :=
  fold_left apply_store (pstores p) (fresh (plen p)).

(** getUIBCGenericKeyPacket, src/uibc/miracle-uibcctl.c:291-368. [scan t] is what
    sscanf finds in token [t]; 13 bytes are allocated and 12 sent. *)
Definition key (scan : list byte -> option Z) (s : list byte) : res (option packet) :=
  do toks <- str_split s;
  if negb (lenN toks mod 3 =? 0) then Ok None
  else
    do t0 <- tok toks 0; do type <- atoi t0;
    do t1 <- tok toks 1;
    let k1 := match scan t1 with Some k => k | None => 0%Z end in
    do t2 <- tok toks 2;
    let k2 := match scan t2 with Some k => k | None => k1 end in
    Ok (Some (mkPacket 12 (stores 0 [0; 0; 0; 12; lo type; 0; 5; 0; hi k1; lo k1; hi k2; lo k2]))).
