(** What miracle-sinkctl is to do, in terms of what it does: it says which peer it runs on, tries
    to connect to it, starts and stops the player, asks for scans. *)
From Verif Require Import Base SinkConn_Model SinkConn_Spec SinkCtl_Model.

(** ** One peer after the other *)
(** Idle; waiting for the time of the next attempt, after some failed ones; waiting for an answer;
    connected; done with this peer. *)
Inductive session := SIdle | SWait (at_least failed : N) | STry (failed : N) | SUp | SOver.

(** The attempts: one second after the start; if the first fails, two seconds later; if the
    second fails, three seconds later; no fourth. *)
Definition failed (t f : N) : session :=
  if f =? 2 then SOver else SWait (t + (f + 2) * 1000000) (f + 1).
Definition move (x : N * act) (s : session) : option session :=
  match snd x, s with
  | Serve _, SIdle => Some (SWait (fst x + 1000000) 0)
  | Leave _, SIdle => None
  | Leave _, _ => Some SIdle
  | Try _ ok, SWait e f => if fst x <? e then None else Some (if ok then STry f else failed (fst x) f)
  | Try _ ok, STry f => Some (if ok then STry f else failed (fst x) f)
  | Up, STry _ => Some SUp
  | Down, SUp => Some SOver
  | Spawn _, SUp => Some SUp
  | Kill _ _, s | Scan _ _, s | Join _, s => Some s
  | _, _ => None
  end.
Fixpoint moves (l : list (N * act)) (s : session) : option session :=
  match l with
  | [] => Some s
  | x :: r => match move x s with Some s' => moves r s' | None => None end
  end.

(** What the state of the sink, the timer and the running peer are then. *)
Definition tells (s : session) (w : W) : Prop :=
  let c := w_user w in
  match s with
  | SIdle => c_rpeer c = None /\ is_closed w = true /\ c_sinkt c = None
  | SWait e f => c_rpeer c <> None /\ is_closed w = true /\ c_sinkt c = Some e
  | STry f => c_rpeer c <> None /\ is_connecting w = true /\ c_sinkt c = None
  | SUp => c_rpeer c <> None /\ is_connected w = true /\ c_sinkt c = None
  | SOver => c_rpeer c <> None /\ is_closed w = true /\ c_sinkt c = None
  end.

(** Attempts no two of which are closer than a second. *)
Definition attempts (l : list (N * act)) : list N :=
  flat_map (fun x => match snd x with Try _ _ => [fst x] | _ => [] end) l.
Fixpoint spaced (l : list N) : Prop :=
  match l with
  | a :: (b :: _) as r => a + 1000000 <= b /\ spaced r
  | _ => True
  end.

(** ** Players *)
(** One at a time; the one that is killed is the one that was started. *)
Fixpoint players (l : list (N * act)) (now : option N) : option (option N) :=
  match l with
  | [] => Some now
  | (_, Spawn p) :: r => match now with None => players r (Some p) | Some _ => None end
  | (_, Kill p _) :: r => match now with Some q => if p =? q then players r None else None | None => None end
  | _ :: r => players r now
  end.
(** Signals go to our own processes. *)
Definition kills_ours (l : list (N * act)) : Prop := forall t p o, In (t, Kill p o) l -> o = Some true.

(** ** Scans *)
(** What was asked for last on a link. *)
Definition asked (l : N) (tr : list (N * act)) : option bool :=
  fold_left (fun v x => match snd x with Scan l' b => if l' =? l then Some b else v | _ => v end) tr None.

(** Scanning is asked for between two states, or is known to go on. *)
Definition rescans (l : N) (c d : ctl) : Prop := exists m, c_trace d = c_trace c ++ m /\
  (In (c_now c, Scan l true) m \/ exists k, fetch l (c_links c) = Some k /\ l_scan k = true).

(** ** Inputs *)
(** No peer stops being a Wi-Fi Display device, messages about new peers are whole, the program
    goes on. *)
Definition steady (x : inp * oracle) : Prop :=
  match fst x with
  | IPeer _ _ n whole => whole = true
  | IProps _ n => n_wfd n <> Some false
  | IQuit => False
  | _ => True
  end.
(** The player does not end by itself. *)
Fixpoint lasting (l : list (inp * oracle)) (w : W) : Prop :=
  match l with
  | [] => True
  | x :: r => (forall p, fst x = IExit p -> c_pid (w_user w) <> Some p) /\ lasting r (step x w)
  end.
(** The parts of [steady], one by one. *)
Definition whole_messages (x : inp * oracle) : Prop := match fst x with IPeer _ _ _ whole => whole = true | _ => True end.
Definition displays (x : inp * oracle) : Prop := match fst x with IProps _ n => n_wfd n <> Some false | _ => True end.
Definition goes_on (x : inp * oracle) : Prop := fst x <> IQuit.

(** ** Pointers *)
(** Links and peers that are remembered are there; the running peer is connected, it and the
    pending peer are displays of the running link. *)
Definition settled (c : ctl) : Prop :=
  c_bad c = false /\
  (forall p, c_rpeer c = Some p -> exists q, fetch p (c_peers c) = Some q /\ p_conn q = true /\ p_wfd q = true /\ c_rlink c = Some (p_link q)) /\
  (forall p, c_ppeer c = Some p -> exists q, fetch p (c_peers c) = Some q /\ p_wfd q = true /\ c_rlink c = Some (p_link q)) /\
  (forall l, c_rlink c = Some l -> fetch l (c_links c) <> None).
Definition no_peer (c : ctl) : Prop := c_rpeer c = None /\ c_ppeer c = None.

(** ** An ordinary session, for examples *)
Definition fine_answers : answers := {| a_dup := true; a_socket := true; a_connect := true; a_add := true |}.
Definition usual : oracle := {| o_ans := fine_answers; o_res := true; o_pid := Some 100 |}.
Definition display : props := {| n_wfd := Some true; n_conn := None; n_addr := Some (Some 9) |}.
Definition joins : props := {| n_wfd := None; n_conn := Some true; n_addr := None |}.
Definition parts : props := {| n_wfd := None; n_conn := Some false; n_addr := None |}.
Definition no_display : props := {| n_wfd := Some false; n_conn := None; n_addr := None |}.
Definition usually (l : list inp) : list (inp * oracle) := map (fun i => (i, usual)) l.
(** A link, the program runs on it, a peer joins. *)
Definition meet : list inp := [ILink 1 false; IRun 1; IScanning 1 true; IPeer 2 1 display true; IGoNeg 2; IProps 2 joins].
Definition attempt : list inp := [ITime 1000000; ISinkTimer].
Definition session_on : list inp := meet ++ attempt ++ [ISink (EIo true false PFine); ISink (EMsgs 1)].
