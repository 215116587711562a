(** What miracle-uibcctl is to do with its input, and what gstplayer prints. *)
From Coq Require Import String.
From Verif Require Import Base Text Uibc_Model Uibc_Spec.
Local Open Scope list_scope.
Local Open Scope N_scope.

(** A key event: type and codes. *)
Definition key_message (type k1 k2 : N) : list byte :=
  [0; 0] ++ Uibc_Spec.be16 12 ++ [type mod 256] ++ Uibc_Spec.be16 5 ++ [0] ++ Uibc_Spec.be16 k1 ++ Uibc_Spec.be16 k2.
(** Digits of base 16, upper case. *)
Definition hexdigit (d : N) : byte := if d <? 10 then 48 + d else 55 + d.
Fixpoint hexn (k : nat) (n : N) : list byte :=
  match k with O => [] | S k => hexn k (n / 16) ++ [hexdigit (n mod 16)] end.
(** "%04X": no more digits than needed, four at least. *)
Definition hex4 (n : N) : list byte := hexn (Nat.max 4 (N.to_nat (N.log2 n / 4 + 1))) n.

(** A line of input and the bytes it stands for: touches with types 0, 1 and 2, keys with 3
    and 4; lines that start with no digit of these stand for nothing. *)
Inductive stands : list byte -> list byte -> Prop :=
| STouch c s type ps (HC : c = 48 \/ c = 49 \/ c = 50) (H : describes (c :: s) type ps) (HB : 1 <= lenN ps)
    (HV : Forall (fun v => v < 2 ^ 31) (numbers type ps)) : stands (c :: s) (touch_message type ps)
| SKey t k1 k2 (HT : t = 3 \/ t = 4) (H1 : k1 < 65536) (H2 : k2 < 65536) :
    stands (Text.dec t ++ text ",0x" ++ hexn 4 k1 ++ text ",0x" ++ hexn 4 k2 ++ [10]) (key_message t k1 k2)
| SNone c s (HC : c < 48 \/ 52 < c) : stands (c :: s) [].
(** A line: its line feed is the last byte, and it has no NUL. *)
Definition is_line (l : list byte) : Prop := exists s, l = s ++ [10] /\ ~ In 10 s /\ ~ In 0 s.

(** What gstplayer prints, res/gstplayer:134-164. *)
Inductive event := Mouse (press : bool) (x y : N) | Key (code : N).
Definition print (e : event) : list byte :=
  match e with
  | Mouse press x y => Text.dec (if press then 0 else 1) ++ text ",1,0," ++ Text.dec x ++ text "," ++ Text.dec y ++ [10]
  | Key code => text "3,0x" ++ hex4 code ++ text ",0x0000" ++ [10]
  end.
Definition means (e : event) : list byte :=
  match e with
  | Mouse press x y => touch_message (if press then 0 else 1) [(0, x, y)]
  | Key code => key_message 3 code 0
  end.
(** All that is written is taken. *)
Definition takes_all (w : nat -> option N) : Prop := forall k, exists n, w k = Some n /\ 2 ^ 16 <= n.
(** Moves of a pointer. *)
Definition moves (l : list byte) : Prop := exists s, l = 50 :: s.
(** Events there can be. *)
Definition small_event (e : event) : Prop := match e with Mouse _ x y => x < 2 ^ 31 /\ y < 2 ^ 31 | Key code => code < 2 ^ 32 end.
(** What arrives: of a code with more than four digits, the first four. *)
Definition arrives (e : event) (m : list byte) : Prop :=
  match e with
  | Mouse _ _ _ => m = means e
  | Key code => (code < 65536 /\ m = means e) \/ (exists top low k, code = top * 16 ^ k + low /\ low < 16 ^ k /\ 4096 <= top < 65536 /\ 65536 <= code /\ m = key_message 3 top 0)
  end.
