(** DHCPv6 messages as RFC 3315 writes them, and what should be read. *)
From Verif Require Import Base Dhcp6_Model.

Definition is_byte (c : N) : Prop := c < 256.
Definition bytes (l : list N) : Prop := Forall is_byte l.
Definition be16 (n : N) : list byte := [n / 256; n mod 256].
Definition be32 (n : N) : list byte := [n / 16777216; n / 65536 mod 256; n / 256 mod 256; n mod 256].

(** ** Options *)
Record option6 := mkOpt { o_code : N; o_data : list byte }.
Definition opt_ok (o : option6) : Prop := o_code o < 65536 /\ lenN (o_data o) < 65532 /\ bytes (o_data o).
Definition enc (o : option6) : list byte := be16 (o_code o) ++ be16 (lenN (o_data o)) ++ o_data o.
Definition encs (os : list option6) : list byte := concat (map enc os).
(** Type, transaction, options. *)
Definition message (t : N) (xid : list byte) (os : list option6) : list byte := t :: xid ++ encs os.
Definition with_code (code : N) (os : list option6) : list option6 := filter (fun o => o_code o =? code) os.
Definition last_of {A} (l : list A) : option A := match rev l with x :: _ => Some x | [] => None end.
(** What is left when no whole option is left: nothing, less than a header, an option
    that is too long for the rest, an option that is too long for any message. *)
Inductive rest : Type := RNone | RStub (s : list byte) | RShort (code len : N) (s : list byte) | RHuge (code len : N) (s : list byte).
Definition rest_ok (r : rest) : Prop :=
  match r with
  | RNone => True
  | RStub s => 1 <= lenN s <= 3
  | RShort c l s => c < 65536 /\ lenN s < l < 65532
  | RHuge c l s => c < 65536 /\ 65532 <= l < 65536
  end.
Definition rest_bytes (r : rest) : list byte :=
  match r with RNone => [] | RStub s => s | RShort c l s | RHuge c l s => be16 c ++ be16 l ++ s end.
(** The last option with the code was found, or none. *)
Definition finds (code : N) (os : list option6) (f : option (list byte * N)) : Prop :=
  match last_of (with_code code os) with
  | None => f = None
  | Some o => exists r, f = Some (o_data o ++ r, lenN (o_data o))
  end.

(** What looking for an option gives, after [os] and the [rest]. *)
Definition outcome (code : N) (os : list option6) (r : rest) (x : oc (option (list byte * N) * N)) : Prop :=
  match r with
  | RNone | RShort _ _ _ => exists f, x = Ret (f, lenN (with_code code os)) /\ finds code os f
  | RStub _ => x = Undef
  | RHuge _ _ _ => x = Ret (None, 0)
  end.

(** ** Identity associations *)
Inductive sub := SAddr (a : list byte) (preferred valid : N) (more : list byte) | SStatus (code : N) (txt : list byte)
| SPrefix (preferred valid plen : N) (a more : list byte) | SOther (code : N) (d : list byte).
Definition sub_opt (s : sub) : option6 :=
  match s with
  | SAddr a p v more => mkOpt 5 (a ++ be32 p ++ be32 v ++ more)
  | SStatus c t => mkOpt 13 (be16 c ++ t)
  | SPrefix p v n a more => mkOpt 26 (be32 p ++ be32 v ++ [n] ++ a ++ more)
  | SOther c d => mkOpt c d
  end.
Definition sub_ok (s : sub) : Prop :=
  opt_ok (sub_opt s) /\
  match s with
  | SAddr a p v _ => lenN a = 16 /\ p < 2 ^ 32 /\ v < 2 ^ 32
  | SStatus c _ => c < 65536
  | SPrefix p v n a _ => lenN a = 16 /\ p < 2 ^ 32 /\ v < 2 ^ 32 /\ n < 256
  | SOther c _ => c <> 5 /\ c <> 13 /\ c <> 26
  end.
(** The value of an IA_NA, IA_PD (with times) or IA_TA. *)
Definition timed (code : N) : bool := (code =? 3) || (code =? 25).
Definition ia_data (code iaid t1 t2 : N) (ss : list sub) : list byte :=
  be32 iaid ++ (if timed code then be32 t1 ++ be32 t2 else []) ++ encs (map sub_opt ss).
Definition addresses (ss : list sub) : list (list byte * N * N) :=
  flat_map (fun s => match s with SAddr a p v _ => [(a, p, v)] | _ => [] end) ss.
Definition statuses (ss : list sub) : list N := flat_map (fun s => match s with SStatus c _ => [c] | _ => [] end) ss.
Definition prefixes (ss : list sub) : list (list byte * N * N * N) :=
  flat_map (fun s => match s with SPrefix p v n a _ => [(a, n, p, v)] | _ => [] end) ss.
(** Those with a life, RFC 3633 ch. 10. *)
Definition live (ps : list (list byte * N * N * N)) : list (list byte * N * N * N) := filter (fun x => snd (fst x) <? snd x) ps.
Definition prefix_value (x : list byte * N * N * N) : value := let '(a, n, p, v) := x in VPrefix a n p v.
Definition or_else {A} (x : option A) (d : A) : A := match x with Some a => a | None => d end.
(** The lease ends when the first prefix ends. *)
Definition ends_first (ps : list (list byte * N * N * N)) (e : N) : Prop :=
  (exists x, In x ps /\ snd x = e) /\ forall x, In x ps -> e <= snd x.

(** ** Names *)
Definition label_ok (l : list byte) : Prop := 1 <= lenN l <= 63 /\ Forall (fun c => 0 < c < 256) l.
Definition enc_name (ls : list (list byte)) : list byte := concat (map (fun l => lenN l :: l) ls) ++ [0].
Definition name_ok (ls : list (list byte)) : Prop := Forall label_ok ls /\ lenN (enc_name ls) <= 255.
Fixpoint dotted (ls : list (list byte)) : list byte :=
  match ls with [] => [] | [l] => l | l :: ls => l ++ 46 :: dotted ls end.

(** ** Messages *)
Definition starts (p d : list byte) : Prop := exists r, d = p ++ r.
(** The message is for this client and this transaction. *)
Definition for_client (k : client) (xid : list byte) (os : list option6) : Prop :=
  be xid = k_xid k /\ exists o, last_of (with_code 1 os) = Some o /\ o_data o = k_duid k.
(** It names exactly one server, the one of the client if it has one. *)
Definition from_server (k : client) (os : list option6) : Prop :=
  exists o, with_code 2 os = [o] /\ o_data o <> [] /\ (forall s, k_server k = Some s -> o_data o = s).
(** The type of the message is one the client waits for. *)
Definition due (ph : phase) (t : N) : Prop := t = 7 \/ (t = 2 /\ ph = Solicitation).
Definition heard (t : N) : told := if t =? 2 then Advertise else Reply.
(** The status of the message, RFC 3315 22.13: success if it has none. *)
Definition status_of (os : list option6) : N :=
  match last_of (with_code 13 os) with Some o => be (takeN 2 (o_data o)) | None => 0 end.
Definition statuses_ok (os : list option6) : Prop := Forall (fun o => 2 <= lenN (o_data o)) (with_code 13 os).
(** Servers are 16 bytes each; names are encoded one after the other. *)
Inductive shows : N -> list byte -> list value -> Prop :=
| ShServers c l : c = 23 \/ c = 31 -> Forall (fun a => lenN a = 16) l -> shows c (concat l) (map VAddr l)
| ShNames ns : Forall name_ok ns -> Forall (fun ls => ls <> []) ns -> shows 24 (concat (map enc_name ns)) (map (fun ls => VName (dotted ls)) ns).
(** What the message says for a code: nothing, or what its last option says. *)
Definition says (os : list option6) (c : N) (v : list value) : Prop :=
  match last_of (with_code c os) with None => v = [] | Some o => shows c (o_data o) v end.
