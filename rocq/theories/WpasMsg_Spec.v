(** What is expected of supplicant messages. *)
From Coq Require Import String.
From Verif Require Import Base Text Qstr_Model WpasMsg_Model.
Local Open Scope list_scope.

(** Words that are sent as they are. *)
Definition plain (s : list byte) : Prop := s <> [] /\ Forall (fun c => 33 <= c /\ c <> 34 /\ c <> 39 /\ c <> 92) s.
Fixpoint spaced (l : list (list byte)) : list byte :=
  match l with
  | [] => []
  | [s] => s
  | s :: l => s ++ [32] ++ spaced l
  end.
(** Strings that can be sent at all: not empty, without NUL, with an apostrophe
    only if there is white space too. *)
Definition sendable (s : list byte) : Prop := s <> [] /\ ~ In 0 s /\ ((exists c, In c s /\ In c [32; 9; 10; 11]) \/ ~ In 39 s).

(** Arguments and what should be read back. *)
Definition arg_type (a : arg) : rtype :=
  match a with AString _ => TString | AInt32 _ => TInt32 | AUint32 _ => TUint32 | ADict _ _ => TDict | AOther => TOther end.
Definition carries (a : arg) (v : value) : Prop :=
  match a, v with
  | AString (Some s), VString t => s = t /\ sendable s
  | AInt32 z, VInt32 y => z = y /\ (- 2 ^ 31 <= z < 2 ^ 31)%Z
  | AUint32 n, VUint32 k => n = k /\ n < 2 ^ 32
  | ADict (Some k) (Some w), VString t => w = t /\ ~ In 61 k /\ sendable (k ++ [61] ++ w)
  | _, _ => False
  end.

(** A request made with the API: the text that is sent. *)
Definition sealed_request (name : list byte) (args : list arg) : option wmsg :=
  match new_wrequest name with
  | inr _ => None
  | inl m => match wappend m args with
             | (m, Some _) => None
             | (m, None) => match wseal m with (m, None) => Some m | _ => None end
             end
  end.
Definition sealed_event (name : list byte) (level : N) (args : list arg) : option wmsg :=
  match new_event name level with
  | inr _ => None
  | inl m => match wappend m args with
             | (m, Some _) => None
             | (m, None) => match wseal m with (m, None) => Some m | _ => None end
             end
  end.
Definition raw_text (m : wmsg) : list byte := match w_raw m with Some r => r | None => [] end.
(** What sendto() is given, src/shared/wpas.c:1314-1319. *)
Definition sent_text (m : wmsg) : list byte := takeN (w_rawlen m) (raw_text m).

(** Digits in a text. *)
Definition digit_count (s : list byte) : N := lenN (filter (fun c => (48 <=? c) && (c <=? 57)) s).
(** A text that starts with a number: white space, a sign or none, digits up to
    something else. *)
Definition white (c : byte) : Prop := c = 32 \/ 9 <= c <= 13.
Definition numeral (c : byte) : Prop := 48 <= c <= 57.
Definition decimal (ds : list byte) : N := fold_left (fun a c => 10 * a + (c - 48)) ds 0.
Definition starts_with_number (s : list byte) (neg : bool) (n : N) : Prop :=
  exists ws sign ds rest, s = ws ++ sign ++ ds ++ rest /\ Forall white ws
  /\ In (sign, neg) [([], false); ([43], false); ([45], true)]
  /\ ds <> [] /\ Forall numeral ds /\ decimal ds = n
  /\ (rest = [] \/ exists c t, rest = c :: t /\ ~ numeral c).
Definition with_sign (neg : bool) (n : N) : Z := if neg then (- Z.of_N n)%Z else Z.of_N n.
Definition is_entry (name e : list byte) : Prop := exists v, e = name ++ [61] ++ v.

(** The texts of arguments. *)
Definition says (a : arg) (t : list byte) : Prop :=
  match a with
  | AString s => s = Some t
  | AInt32 z => t = if (z <? 0)%Z then 45 :: dec (Z.to_N (- z)) else dec (Z.to_N z)
  | AUint32 n => t = dec n
  | ADict k v => exists x y, k = Some x /\ v = Some y /\ t = x ++ 61 :: y
  | AOther => False
  end.
Definition texts (args : list arg) (ts : list (list byte)) : Prop := Forall2 says args ts.
(** Names that are not taken for an interface prefix. *)
Definition prefix_free (name : list byte) : Prop := takeN 7 name <> text "IFNAME=".
(** The same message with another text and an interface name. *)
Definition set_source (m : wmsg) (raw n : list byte) : wmsg :=
  mkWmsg (w_type m) (w_name m) (w_level m) (w_argv m) (w_iter m) (Some raw) (w_rawlen m) (Some n) (w_sealed m) (w_peer m).
