(** Model of miracle-uibcctl as a program, src/uibc/miracle-uibcctl.c:3-83,106-160:
    what it reads from its standard input, and what it writes to the connection;
    and of the gestures it has functions for, 370-588. The socket is there; what
    write gives is an oracle. The string of the C library is what comes before its
    NUL. Printing is left out. *)
From Verif Require Import Base Uibc_Model.

(** fgets: at most [n] bytes, up to and with a line feed; and what is left. *)
Fixpoint fgets (n : nat) (s : list byte) : list byte * list byte :=
  match n, s with
  | O, _ => ([], s)
  | S _, [] => ([], [])
  | S n, c :: s => if c =? 10 then ([c], s) else let '(l, r) := fgets n s in (c :: l, r)
  end.
Fixpoint cstr (s : list byte) : list byte :=
  match s with c :: s => if c =? 0 then [] else c :: cstr s | [] => [] end.
Definition room : nat := N.to_nat 254.

(** sscanf with " 0x%04X", lines 332 and 344, as in the GNU C library: the field has
    four bytes, a sign and a further 0x among them. *)
Definition hex_of (c : byte) : option N :=
  if (48 <=? c) && (c <=? 57) then Some (c - 48)
  else if (65 <=? c) && (c <=? 70) then Some (c - 55)
  else if (97 <=? c) && (c <=? 102) then Some (c - 87) else None.
Fixpoint hexes (w : nat) (s : list byte) (acc : N) : N :=
  match w, s with
  | S w, c :: s => match hex_of c with Some d => hexes w s (16 * acc + d) | None => acc end
  | _, _ => acc
  end.
Definition is_x (c : byte) : bool := (c =? 120) || (c =? 88).
Definition field (w : nat) (s : list byte) : option N :=
  match s with
  | [] => None
  | c :: t =>
      match hex_of c with
      | None => None
      | Some _ => match t with
                  | x :: u => if (c =? 48) && is_x x then Some (hexes (w - 2) u 0) else Some (hexes w s 0)
                  | [] => Some (hexes w s 0)
                  end
      end
  end.
Definition scan (s : list byte) : option Z :=
  match skip_space s with
  | z :: x :: s =>
      if (z =? 48) && (x =? 120) then
        match skip_space s with
        | c :: t =>
            if c =? 45 then match field 3 t with Some v => Some (- Z.of_N v)%Z | None => None end
            else match (if c =? 43 then field 3 t else field 4 (c :: t)) with Some v => Some (Z.of_N v) | None => None end
        | [] => None
        end
      else None
  | _ => None
  end.

(** buildUibcMessage, 121-159, for what main asks for; no packet: no bytes. *)
Definition packet_of (p : option packet) : list cell := match p with Some p => contents p | None => [] end.
Definition build (line : list byte) : res (option (list cell)) :=
  match line with
  | [] => Ok None
  | t :: _ =>
      if (t =? 48) || (t =? 49) then do p <- touch line; Ok (Some (packet_of p))
      else if (t =? 51) || (t =? 52) then do p <- key scan line; Ok (Some (packet_of p))
      else Ok None
  end.

(** main, 50-82: [w k] is what the write number [k] takes, [None]: it fails. Gives
    what is written and whether the input was read to its end. *)
Fixpoint session (fuel : nat) (w : nat -> option N) (k : nat) (s : list byte) : oc (list cell * bool) :=
  match fuel with
  | O => Endless
  | S fuel =>
      let '(chunk, rest) := fgets room s in
      match cstr chunk with
      | [] => Ret ([], true)
      | line =>
          match build line with
          | UB => Undef
          | Ok None => session fuel w k rest
          | Ok (Some m) =>
              match w k with
              | None => Ret ([], false)
              | Some n => let* r := session fuel w (S k) rest in Ret (takeN n m ++ fst r, snd r)
              end
          end
      end
  end.
Definition uibcctl (w : nat -> option N) (s : list byte) : oc (list cell * bool) := session (S (length s)) w 0 s.

(** getUIBCGenericZoomPacket, 371-439, getUIBCGenericScalePacket, 442-526, and
    getUIBCGenericRotatePacket, 529-588: the loop ends at a null pointer in the array
    of fields, which has none. [null]: whether the word after the array happens to be
    zero. A message has its bytes, if any, and its length; the buffer with the event
    is never put into it. Numbers that are no int are undefined, as in atoi. *)
Inductive gesture := Zoom | Scroll | Rotate.
Definition body (g : gesture) : N := match g with Zoom => 6 | _ => 2 end.
Definition numbers_read (g : gesture) : N := match g with Zoom => 5 | Scroll => 4 | Rotate => 3 end.
Fixpoint read_fields (g : gesture) (i : N) (fs : list (list byte)) : res unit :=
  match fs with
  | [] => Ok tt
  | f :: fs => if i <? numbers_read g then do _ <- atoi f; read_fields g (i + 1) fs else read_fields g (i + 1) fs
  end.
Definition gesture_packet (null : bool) (g : gesture) (s : list byte) : res (option (list byte) * N) :=
  do fs <- str_split s; do _ <- read_fields g 0 fs;
  if null then Ok (None, body g + 7) else UB.
(** sendUibcMessage, 106-119: writing from no buffer. *)
Definition send_null (m : option (list byte) * N) : option (list byte) :=
  match m with (Some d, n) => Some (takeN n d) | (None, n) => if n =? 0 then Some [] else None end.
