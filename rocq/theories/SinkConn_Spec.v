(** What the user of a sink may rely on, in terms of what can be seen: the results of
    ctl_sink_is_connecting, _is_connected and _is_closed, the callbacks, the descriptors. *)
From Verif Require Import Base SinkConn_Model.

(** ** The life of a connection *)
Inductive life := Idle | Trying | Up.

(** What may happen next, and what it leads to. Descriptors are not looked at. *)
Definition advance (x : obs) (l : life) : option life :=
  match x, l with
  | Attempt _ true, Idle => Some Trying
  | Attempt _ false, Idle => Some Idle
  | Connected, Trying => Some Up
  | Disconnected, Trying | Disconnected, Up => Some Idle
  | Given_up, Trying | Given_up, Up => Some Idle
  | Opened _ _, l | Closed _ _, l => Some l
  | _, _ => None
  end.
Fixpoint lives (log : list obs) (l : life) : option life :=
  match log with
  | [] => Some l
  | x :: r => match advance x l with Some l' => lives r l' | None => None end
  end.

(** The three questions give one answer. *)
Definition answer {U} (w : world U) (l : life) : Prop :=
  is_closed w = (match l with Idle => true | _ => false end) /\
  is_connecting w = (match l with Trying => true | _ => false end) /\
  is_connected w = (match l with Up => true | _ => false end).

(** Calls that have nothing to do with the sink; calls that open no descriptor. *)
Definition apart (c : ucall) : Prop := match c with UFile => True | _ => False end.
Definition opens_nothing (c : ucall) : Prop := match c with UClose => True | _ => False end.

(** The user leaves the sink alone while told that it is connected. *)
Definition leaves_alone (u : script) : Prop := Forall (Forall apart) (u_connected u).
(** The user opens no descriptor while told of a lost connection or of a message. *)
Definition opens_later (u : script) : Prop :=
  Forall (Forall opens_nothing) (u_disconnected u) /\ Forall (Forall opens_nothing) (u_message u).

(** ** Descriptors *)
(** Files of the user are theirs: nobody else closes them. *)
Definition files_kept (log : list obs) : Prop := forall fd n, ~ In (Closed fd (Some (File n))) log.
(** No descriptor is closed that is not open. *)
Definition no_bad_close (log : list obs) : Prop := forall fd, ~ In (Closed fd None) log.

(** The socket of an open sink is open. *)
Definition socket_open {U} (w : world U) : Prop :=
  forall fd, s_fd (w_sink w) = Some fd -> exists n, In (fd, Socket n) (k_open (w_kern w)).
(** No other socket of the sink is. *)
Definition no_leak {U} (w : world U) : Prop :=
  forall fd n, In (fd, Socket n) (k_open (w_kern w)) -> s_fd (w_sink w) = Some fd.

(** Inputs with which no connection comes about, and no bus is made for one. *)
Definition no_connection (i : input) : Prop :=
  match i with
  | Event (EIo true _ p) => match p with PGetsockopt | PError | POpen => True | _ => False end
  | _ => True
  end.
