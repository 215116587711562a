(** What is expected of the RTSP bus. *)
From Verif Require Import Base RtspMsg_Model RtspBus_Model.

(** All bytes put on the wire. *)
Definition wire_bytes (log : list obs) : list byte :=
  flat_map (fun o => match o with Wire l => l | _ => [] end) log.
(** The bytes of a call's message. *)
Definition raw_of (b : bus) (id : nat) : list byte := match get b id with Some c => c_raw c | None => [] end.
(** What of the first message of the queue has been written. *)
Definition current (b : bus) : list byte :=
  match b_out b with
  | [] => []
  | id :: _ => match get b id with Some c => takeN (c_sent c) (c_raw c) | None => [] end
  end.
(** Events that can take a message out of the queue other than by writing it. *)
Definition dropping (e : event) : bool :=
  match e with
  | ECancel _ _ _ | ETimer _ _ => true
  | EIncoming m _ _ => is_reply m
  | _ => false
  end.

(** What happened to a call: completions and cancellations, each with whether the
    message was still in the queue untouched. *)
Definition hits (id : nat) (log : list obs) : list bool :=
  flat_map (fun o => match o with
                     | Callback i _ q | Cancelled i q => if Nat.eqb i id then [q] else []
                     | _ => [] end) log.
Definition callbacks (id : nat) (log : list obs) : list (option message) :=
  flat_map (fun o => match o with Callback i r _ => if Nat.eqb i id then [r] else [] | _ => [] end) log.

(** Calls are made with cookies that no waiting message has. *)
Definition distinct (b : bus) (e : event) : Prop :=
  match e with
  | ECall m _ => forall ck m' e', seal (b_ck b) m = Ok (ck, m', e') ->
                 forall id c, get b id = Some c -> c_wait c = true -> c_cookie c <> m_cookie m'
  | _ => True
  end.
Fixpoint distinct_run (b : bus) (es : list event) : Prop :=
  match es with
  | [] => True
  | e :: es => distinct b e /\ match step b e with Ok (b', _) => distinct_run b' es | UB => True end
  end.

(** A lost connection. *)
Definition is_hup (e : event) : bool := match e with EHup => true | _ => false end.
Definition losses (log : list obs) : nat :=
  length (filter (fun o => match o with Forward None => true | _ => false end) log).
(** Messages sealed on the bus one after the other, [ck] being its counter. *)
Inductive seals : N -> list message -> list message -> Prop :=
| SealsNil ck : seals ck [] []
| SealsCons ck ck' m m' ms ms' : seal ck m = Ok (ck', m', None) -> seals ck' ms ms' -> seals ck (m :: ms) (m' :: ms').
(** Whether the connection is lost and whether the bus is attached to an event loop
    after the events. *)
Definition attached1 (s : bool * bool) (e : event) : bool * bool :=
  match e with
  | EAttach => if fst s then s else (false, true)
  | EDetach => (fst s, false)
  | EHup => (true, false)
  | _ => s
  end.
Definition attached (es : list event) : bool := snd (fold_left attached1 es (false, false)).
