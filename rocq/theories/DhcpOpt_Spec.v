(** DHCP packets as option lists (RFC 2132), and well-formed received packets. *)
From Verif Require Import Base DhcpOpt_Model.

Definition bytes (l : list byte) : Prop := Forall (fun b => b < 256) l.

(** An option is a code and its data. *)
Definition opt : Type := N * list byte.
Definition enc (o : opt) : list byte := fst o :: lenN (snd o) :: snd o.
Definition encs (os : list opt) : list byte := flat_map enc os.
(** Options among padding ([None]). *)
Definition padded (l : list (option opt)) : list byte := flat_map (fun o => match o with Some o => enc o | None => [0] end) l.

(** Big-endian numbers. *)
Definition be16 (v : N) : list byte := [v / 256; v mod 256].
Definition be32 (v : N) : list byte := be16 (v / 65536) ++ be16 (v mod 65536).

(** The option each addition asks for. Typed additions are for the options of
    that type only. *)
Definition wanted (o : addop) : option opt :=
  match o with
  | AddBinary c d => Some (c, d)
  | AddU32 c v =>
      if existsb (N.eqb c) [1; 3; 6; 42; 50; 51; 54] then Some (c, be32 v) else None
  | AddU16 c v => if c =? 57 then Some (c, be16 v) else None
  | AddU8 c v =>
      if existsb (N.eqb c) [12; 15; 53; 60; 61; 252] then Some (c, [v]) else None
  end.
(** An option is added iff it leaves room: 307 bytes with the end marker. *)
Definition add_opt (os : list opt) (o : addop) : list opt :=
  match wanted o with
  | None => os
  | Some x => if lenN (encs os) + lenN (enc x) + 1 <=? 307 then os ++ [x] else os
  end.
Definition options_of (type : N) (ops : list addop) : list opt :=
  fold_left add_opt ops [(53, [type])].

(** The packet carrying a list of options. *)
Definition header (type : N) : list byte :=
  [(if (type =? 2) || (type =? 5) || (type =? 6) then 2 else 1); 1; 6]
  ++ repeat 0 233 ++ [0x63; 0x82; 0x53; 0x63].
Definition packet_with (hdr : list byte) (os : list opt) : list byte :=
  hdr ++ encs os ++ [255] ++ repeat 0 (N.to_nat (387 - lenN (encs os))).
Definition packet (type : N) (os : list opt) : list byte := packet_with (header type) os.

(** A real option code, not the overload option, at most 255 bytes. *)
Definition good_opt (o : opt) : Prop := fst o <> 0 /\ fst o <> 255 /\ fst o <> 52 /\ lenN (snd o) <= 255.
(** Binary options: a real option code, not the overload option (which no caller
    adds), at most 255 bytes. *)
Definition good_add (o : addop) : Prop :=
  match o with
  | AddBinary c d => c <> 0 /\ c <> 255 /\ c <> 52 /\ lenN d <= 255
  | _ => True
  end.

Definition first (code : N) (os : list opt) : option (list byte) :=
  option_map snd (find (fun o => fst o =? code) os).

(** ** Received packets *)
(** The options from offset [i] on are well-formed: each lies inside the option
    area, none is the overload option. *)
Inductive well_formed (p : list byte) : N -> Prop :=
| WfEnd : well_formed p 628
| WfStop i : nthN p i = Some 255 -> well_formed p i
| WfPad i : nthN p i = Some 0 -> well_formed p (i + 1) -> well_formed p i
| WfOpt i c l : nthN p i = Some c -> c <> 0 -> c <> 255 -> c <> 52 ->
    nthN p (i + 1) = Some l -> i + 2 + l <= 628 -> well_formed p (i + 2 + l) -> well_formed p i
| WfCut : well_formed p 627.

(** Walking over well-formed options reaches one that claims more data than the
    option area has, and whose length byte was received. *)
Inductive overruns (p : list byte) (plen code : N) : N -> Prop :=
| OvHere i c l : nthN p i = Some c -> c <> 0 -> c <> 255 ->
    nthN p (i + 1) = Some l -> i + 1 < plen -> 628 < i + 2 + l -> overruns p plen code i
| OvPad i : nthN p i = Some 0 -> overruns p plen code (i + 1) -> overruns p plen code i
| OvOpt i c l : nthN p i = Some c -> c <> 0 -> c <> 255 -> c <> 52 -> c <> code ->
    nthN p (i + 1) = Some l -> i + 1 < plen -> i + 2 + l <= 628 ->
    overruns p plen code (i + 2 + l) -> overruns p plen code i.

(** ** Overload (RFC 2132, 9.3) *)
(** The values of all overload options together; bit 0: the file field has options,
    bit 1: the sname field. *)
Definition overloads (os : list opt) : N :=
  fold_right (fun o v => if fst o =? 52 then N.lor (hd 0 (snd o)) v else v) 0 os.
Definition any_opt (o : opt) : Prop := fst o <> 0 /\ fst o <> 255 /\ lenN (snd o) <= 255 /\ (fst o = 52 -> snd o <> []).
(** A packet with options in its option area, its file field and its sname field, each
    ended by a marker. *)
Definition overloaded (p : list byte) (os fs ss : list opt) : Prop :=
  exists h xs xf cookie xo, p = h ++ (encs ss ++ 255 :: xs) ++ (encs fs ++ 255 :: xf) ++ cookie ++ (encs os ++ 255 :: xo)
  /\ lenN h = 44 /\ lenN (encs ss ++ 255 :: xs) = 64 /\ lenN (encs fs ++ 255 :: xf) = 128 /\ lenN cookie = 4 /\ lenN (encs os ++ 255 :: xo) = 388.
