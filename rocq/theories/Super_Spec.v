(** What is expected of the supervision of wpa_supplicant. *)
From Verif Require Import Base Super_Model.
From Verif Require Setup_Model.
From Coq Require Import Sorted.

Definition managed (v : sup) : Prop := v_pid v <> Unmanaged.
Definition ready (v : sup) : Prop := Setup_Model.u_run (v_setup v) = true.
(** Something will happen by itself: the timer is set or a request is unanswered. *)
Definition waiting (v : sup) : Prop :=
  (exists t, v_timer v = Some (Some t)) \/ v_glob v = Some true \/ v_dev v = Own true \/ Setup_Model.u_wait (v_setup v) <> [].
(** Setup requests that were unanswered when their connection ended. *)
Fixpoint abandoned (v : sup) (es : list (N * event)) : N :=
  match es with
  | [] => 0
  | e :: es => (match v_glob (step v e) with None => lenN (Setup_Model.u_wait (v_setup v)) | Some _ => 0 end) + abandoned (step v e) es
  end.

(** Clock readings in microseconds: non-decreasing, not 0, no overflow for 200 s. *)
Definition clock (es : list (N * event)) : Prop :=
  Sorted N.le (map fst es) /\ Forall (fun e => 0 < fst e /\ fst e + 200 * 1000 * 1000 < 2 ^ 64) es.

Definition is_start (e : N * event) : bool := match snd e with Start _ _ _ => true | _ => false end.
(** Launches between [x] and [x + d]. *)
Fixpoint launches_in (x d : N) (l : list act) : N :=
  match l with
  | [] => 0
  | a :: l => (match a with Launch _ t => if (x <=? t) && (t <=? x + d) then 1 else 0 | _ => 0 end) + launches_in x d l
  end.
(** Failures counted. *)
Fixpoint failures (l : list act) : N := match l with [] => 0 | a :: l => (match a with Failure _ _ => 1 | _ => 0 end) + failures l end.

(** The events that tell of the end of a process or of a connection. *)
Definition ends (v : sup) (e : event) : bool :=
  match e with
  | Exit => match v_child v with Some _ => true | None => false end
  | GlobalHup => match v_glob v with Some _ => true | None => false end
  | DevHup => match v_dev v with Own _ => true | _ => false end
  | GlobalAttach Refused | GlobalAttach Broken => match v_glob v with Some true => true | _ => false end
  | DevAttach false => match v_dev v with Own true => true | _ => false end
  | _ => false
  end.

(** Nothing is left of a supplicant. *)
Definition nothing (v : sup) : Prop :=
  v_timer v = None /\ v_child v = None /\ v_glob v = None /\ v_dev v = NoDev /\ v_conf v = false /\ v_ctrl v = false /\ ~ ready v.

(** Ends of a process that supplicant_child_fn learns of; answers without P2P. *)
Definition by_exit (e : N * event) : Prop :=
  match snd e with
  | Start _ _ l => l_watch l = true
  | Tick l _ => l_watch l = true
  | Exit | Answer _ | GlobalAttach NoSocket | GlobalAttach Sent | DevAttach true => True
  | _ => False
  end.
Definition no_p2p (e : N * event) : Prop := match snd e with Answer a => Setup_Model.a_p2p a = false | _ => True end.

(** Processes that were launched, sent a signal, waited for. *)
Definition launched (p : N) (l : list act) : Prop := exists t, In (Launch p t) l.
Definition signalled (p : N) (l : list act) : Prop := exists t, In (Kill p t) l.
Definition reaped (p : N) (l : list act) : Prop := exists t, In (Reap p t) l.
(** A record, latest first: a process is launched when all others got their signal; only
    a process that was launched and not waited for gets a signal, and only one. *)
Fixpoint proper (l : list act) : Prop :=
  match l with
  | [] => True
  | Launch p _ :: l => ~ launched p l /\ (forall q, launched q l -> signalled q l) /\ proper l
  | Kill p _ :: l => launched p l /\ ~ signalled p l /\ ~ reaped p l /\ proper l
  | Reap p _ :: l => signalled p l /\ ~ reaped p l /\ proper l
  | Failure _ _ :: l => proper l
  end.
