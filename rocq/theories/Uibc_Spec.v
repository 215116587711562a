(** UIBC generic input messages (Wi-Fi Display specification) and the text form
    of events: decimal numbers separated by commas. *)
From Verif Require Import Base Uibc_Model.

Fixpoint join (toks : list (list byte)) : list byte :=
  match toks with
  | [] => []
  | [t] => t
  | t :: toks => t ++ COMMA :: join toks
  end.

(** Value of a digit string. *)
Fixpoint dec (ds : list byte) (acc : N) : N :=
  match ds with [] => acc | d :: ds => dec ds (acc * 10 + (d - 48)) end.
Definition digit (c : byte) : Prop := 48 <= c <= 57.
Definition blank (c : byte) : Prop := c = 32 \/ 9 <= c <= 13.
(** A token denotes a number: white space, perhaps a plus sign, digits, anything that is no
    digit. *)
Definition denotes (t : list byte) (v : N) : Prop :=
  exists ws sign ds rest, t = ws ++ sign ++ ds ++ rest /\ Forall blank ws /\ In sign [[]; [43]]
  /\ ds <> [] /\ Forall digit ds /\ dec ds 0 = v
  /\ match rest with c :: _ => ~ digit c | [] => True end.

(** An event: type and pointers (id, x, y). *)
Definition pointer : Type := N * N * N.
Definition numbers (type : N) (ps : list pointer) : list N :=
  type :: lenN ps :: flat_map (fun p => match p with (i, x, y) => [i; x; y] end) ps.
(** A text describing the event. *)
Definition describes (s : list byte) (type : N) (ps : list pointer) : Prop :=
  exists toks, s = join toks /\ Forall (fun t => ~ In COMMA t) toks
    /\ Forall2 denotes toks (numbers type ps).

Definition be16 (v : N) : list byte := [v / 256 mod 256; v mod 256].
Definition even_up (n : N) : N := n + n mod 2.
(** The message: header of 4 bytes with the total length, generic body with type,
    length and pointers, padding to an even length. *)
Definition touch_message (type : N) (ps : list pointer) : list byte :=
  let glen := 1 + 5 * lenN ps in
  [0; 0] ++ be16 (even_up (7 + glen)) ++ [type mod 256] ++ be16 glen ++ [lenN ps mod 256]
  ++ flat_map (fun p => match p with (i, x, y) => i mod 256 :: be16 x ++ be16 y end) ps
  ++ repeat 0 (N.to_nat ((7 + glen) mod 2)).
