(** What a DHCPv6 client should send, RFC 3315. *)
From Coq Require Import ZArith Permutation.
From Verif Require Import Base Dhcp6_Spec Dhcp6Send_Model.
Local Open Scope N_scope.

Definition address (a : list byte) : Prop := lenN a = 16 /\ bytes a.
Definition uint32 (n : N) : Prop := n < 4294967296.
Definition uint32_if (t : option N) : Prop := match t with Some t => uint32 t | None => True end.
Definition is_mac (m : list byte) : Prop := lenN m = 6 /\ bytes m.
(** An option that will be sent; options that are small enough to be written down. *)
Definition small (o : option6) : Prop := o_code o < 65536 /\ lenN (o_data o) < 65536 /\ bytes (o_data o).
Definition stored (o : option6) : N * list byte := (o_code o, enc o).
(** The table holds one value for each code. *)
Definition tidy (c : client) (os : list option6) : Prop := c_sends c = map stored os /\ NoDup (map o_code os) /\ Forall small os.
Definition other (code : N) (os : list option6) : list option6 := filter (fun o => negb (o_code o =? code)) os.
(** The identity: the one that was set, or the last four bytes of the address. *)
Definition identity (c : client) (mac : option (list byte)) (i : N) : Prop :=
  (c_iaid c <> 0 /\ i = c_iaid c) \/ (c_iaid c = 0 /\ exists a b m, mac = Some (a :: b :: m) /\ lenN m = 4 /\ i = get32 m).
(** The client is sane. *)
Definition sane (c : client) : Prop :=
  uint32 (c_iaid c) /\ address (c_na c) /\ Forall (fun r => r < 65536) (c_requests c) /\ NoDup (c_requests c)
  /\ (match c_duid c with Some d => lenN d < 65536 /\ bytes d | None => True end) /\ (match c_server c with Some d => lenN d < 65536 /\ bytes d | None => True end) /\ c_xid c < 16777216.
(** The options that belong to what is requested. *)
Definition requested (c : client) (time : N) (code : N) : list option6 :=
  match code with
  | 1 => match c_duid c with Some d => [mkOpt 1 d] | None => [] end
  | 2 => match c_server c with Some d => [mkOpt 2 d] | None => [] end
  | 14 => [mkOpt 14 []]
  | 8 => [mkOpt 8 (be16 time)]
  | _ => []
  end.
(** Calls. *)
Inductive call :=
| SetIa (mac : list byte) (code : N) (t1 t2 : option N) (add : bool) (ia_na : option (option (list byte)))
| SetIas (mac : list byte) (code : N) (t1 t2 : option N) (l : list (option (list byte)))
| SetPd (t1 t2 : option N) (l : list (N * list byte))
| SetOro (l : list N)
| SetRequest (code : N)
| Again (b : bool)
| Send (type id : N) (now : Z * Z).
Definition all_addresses (l : list (option (list byte))) : Prop := Forall (fun a => match a with Some a => address a | None => True end) l.
Definition call_ok (x : call) : Prop :=
  match x with
  | SetIa mac code t1 t2 _ ia_na => is_mac mac /\ uint32_if t1 /\ uint32_if t2 /\ (match ia_na with Some (Some a) => address a | _ => True end)
  | SetIas mac code t1 t2 l => is_mac mac /\ code < 65536 /\ uint32_if t1 /\ uint32_if t2 /\ all_addresses l /\ lenN l < 10000000
  | SetPd t1 t2 l => uint32_if t1 /\ uint32_if t2 /\ Forall (fun x => address (snd x)) l
  | SetOro l => True
  | SetRequest code => code < 65536
  | Again _ => True
  | Send type id _ => type < 256 /\ id < 2147483648
  end.
Definition again (b : bool) (c : client) : client := mkClient (c_iaid c) (c_na c) (c_requests c) (c_sends c) (c_duid c) (c_server c) b (c_xid c) (c_start c).
Definition does (order : list (list byte) -> list (list byte)) (x : call) (c : client) : oc (client * list (list byte)) :=
  match x with
  | SetIa mac code t1 t2 add a => let* r := set_ia (Some mac) code t1 t2 add a c in Ret (fst r, [])
  | SetIas mac code t1 t2 l => let* r := set_ias (Some mac) code t1 t2 l c in Ret (fst r, [])
  | SetPd t1 t2 l => let* r := set_pd t1 t2 l c in Ret (fst r, [])
  | SetOro l => let* r := set_oro l c in Ret (fst r, [])
  | SetRequest code => Ret (set_request code c, [])
  | Again b => Ret (again b c, [])
  | Send type id now => let* r := send_msg type id now order c in Ret (fst r, [snd r])
  end.
Fixpoint calls (order : list (list byte) -> list (list byte)) (l : list call) (c : client) : oc (client * list (list byte)) :=
  match l with
  | [] => Ret (c, [])
  | x :: l => let* r := does order x c in let* q := calls order l (fst r) in Ret (fst q, snd r ++ snd q)
  end.
(** A message as it should be: options, each of them whole and once, in at most 1500 bytes. *)
Definition proper (p : list byte) : Prop := exists t xid os, p = message t xid os /\ t < 256 /\ lenN xid = 3 /\ bytes xid /\ Forall opt_ok os /\ NoDup (map o_code os) /\ lenN p <= 1500.
(** Codes that are for the table. *)
Definition table_code (o : option6) : Prop := In (o_code o) [3; 4; 6; 25].
(** Times in microseconds. *)
Definition micros (t : Z * Z) : Z := (1000000 * fst t + snd t)%Z.
Definition time_ok (t : Z * Z) : Prop := (0 <= fst t /\ 0 <= snd t < 1000000)%Z.
(** Hundredths of a second, as RFC 3315 ch. 22.9 wants them, to less than one. *)
Definition hundredths (us : Z) (n : N) : Prop := n < 65536 /\ (10000 * (Z.of_N n - 1) < us)%Z /\ (n = 65535 \/ (us < 10000 * (Z.of_N n + 1))%Z).
(** The address to ask for: one that was given, else the last one. *)
Definition unspecified (a : list byte) : Prop := Forall (fun b => b = 0) a.
Inductive wished (c : client) : bool -> option (option (list byte)) -> option (list byte) -> Prop :=
| w_no a : wished c false a None
| w_bad : wished c true (Some None) None
| w_new a : wished c true (Some (Some a)) (Some a)
| w_none : unspecified (c_na c) -> wished c true None None
| w_last : ~ unspecified (c_na c) -> wished c true None (Some (c_na c)).
(** The table holds [o] and what it held of other codes, and [o] is requested. *)
Definition asks (o : option6) (c : client) (os : list option6) (c' : client) : Prop :=
  tidy c' (o :: other (o_code o) os) /\ (forall r, In r (c_requests c') <-> r = o_code o \/ In r (c_requests c)).
(** What does not change but by sending. *)
Definition kept (c c' : client) : Prop := c_duid c' = c_duid c /\ c_server c' = c_server c /\ c_again c' = c_again c /\ c_xid c' = c_xid c /\ c_start c' = c_start c.
(** [a] holds some of [b], in order. *)
Inductive some_of {A} : list A -> list A -> Prop :=
| so_nil : some_of [] []
| so_take x a b : some_of a b -> some_of (x :: a) (x :: b)
| so_skip x a b : some_of a b -> some_of a (x :: b).
Definition xid_of (p : list byte) : list byte := takeN 3 (dropN 1 p).
(** The value of the option for the time: nothing at first; while it is sent again, the time since. *)
Definition time_told (c : client) (now : Z * Z) (n : N) : Prop :=
  if c_again c then time_ok (c_start c) -> time_ok now -> (micros (c_start c) <= micros now)%Z -> (fst now - fst (c_start c) < 21474836)%Z -> hundredths (micros now - micros (c_start c)) n else n = 0.
(** What a client is like between calls. *)
Definition inv (c : client) : Prop := sane c /\ exists os, tidy c os /\ Forall table_code os.
(** A client that was made just now. *)
Definition fresh : client := mkClient 0 (repeat 0 16) [] [] None None false 0 (0%Z, 0%Z).

(** RFC 8415, 7.3. *)
Definition types : list (kind * N) := [(Solicit, 1); (Request, 3); (Confirm, 4); (Renew, 5); (Rebind, 6); (Release, 8); (Decline, 9); (Information, 11)].
