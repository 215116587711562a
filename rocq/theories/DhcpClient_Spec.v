(** What is expected of a DHCP client, in terms of what it does. *)
From Verif Require Import Base DhcpClient_Model.

Definition history := list (N * event).
(** Started with success and not stopped since. *)
Definition running_step (b : bool) (e : N * event) : bool :=
  match snd e with Start ok => ok | Stop => false | _ => b end.
Definition running (h : history) : bool := fold_left running_step h false.
(** The last thing it did was to report that there is no lease. *)
Definition gave_up_step (b : bool) (e : N * event) : bool :=
  match snd e with NoLease => true | Lost | NotFound => b | _ => false end.
Definition gave_up (h : history) : bool := fold_left gave_up_step h false.
(** The end of the lease the user was told of and that is not lost or given back. *)
Definition deadline_step (d : option N) (e : N * event) : option N :=
  match snd e with Available _ l => Some (fst e + l * 1000) | Lost | Stop => None | _ => d end.
Definition deadline (h : history) : option N := fold_left deadline_step h None.
(** DISCOVER messages. *)
Definition discovers (h : history) : N := lenN (filter (fun e => match snd e with Discover _ => true | _ => false end) h).

(** No timer is due: the main loop is waiting. *)
Definition caught_up (c : client) : Prop := Forall (fun s => now c < s_due s) (srcs c).

(** Histories of a new client in which every step is of a certain kind. *)
Definition rule := client -> bool -> reaction -> op -> Prop.
Inductive runs (P : rule) : list op -> client -> Prop :=
| runs_new : runs P [] fresh_client
| runs_step os c fuel sock r o c' :
    runs P os c -> P c sock r o -> step fuel sock r o c = Ret c' -> runs P (os ++ [o]) c'.
(** Callbacks do not call back, and a client is started only if it is not running. *)
Definition proper : rule := fun c sock r o =>
  r = Nothing /\ match o with OStart _ => running (log c) = false | _ => True end.
(** Sockets can be made. *)
Definition sockets : rule := fun _ sock _ _ => sock = true.
Definition is_nak (o : op) : bool :=
  match o with ORecv p => match p_type p with Some t => t =? 6 | None => false end | _ => false end.
(** No NAK is received while a lease is held. *)
Definition no_nak : rule := fun c _ _ o => deadline (log c) <> None -> is_nak o = false.
Definition both (P Q : rule) : rule := fun c sock r o => P c sock r o /\ Q c sock r o.
(** NAKs since the client was last stopped. *)
Definition naks (os : list op) : N :=
  fold_left (fun n o => match o with OStop => 0 | _ => if is_nak o then n + 1 else n end) os 0.
(** Steps without a user and without an answer. *)
Definition alone (o : op) : Prop := match o with OFire _ _ | OWait _ | OError => True | _ => False end.
Definition alone_steps (os : list (bool * reaction * op)) : Prop := Forall (fun x => snd (fst x) = Nothing /\ alone (snd x)) os.
