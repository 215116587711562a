(** Model of the supplicant control channel, src/shared/wpas.c:838-1530: the queue
    of outgoing messages and the matching of replies. A run is a list of events in
    any order; the user's callbacks run last in the functions below, so what they
    do to the channel are the following events. Each accepted message has a
    number, its place in [q_calls]. A message can be accepted again only with
    wpas_send after it was cancelled unsent; it then gets another number. Memory
    allocation succeeds. The passing of time, reference counts and the list of
    matches are not modelled. *)
From Verif Require Import Base WpasMsg_Model.

(** The queue part of struct wpas_message, src/shared/wpas.c:52-80. [k_cookie]: 0 for
    messages sent with wpas_send. *)
Record call := mkCall { k_msg : wmsg; k_cookie : N; k_cb : bool; k_sent : bool; k_queued : bool; k_removed : bool }.
(** struct wpas, src/shared/wpas.c:90-112. *)
Record chan := mkChan { q_server : bool; q_dead : bool; q_cookies : N; q_calls : list call; q_list : list nat }.
Definition chan_open (server : bool) : chan := mkChan server false 0 [] [].

Definition get (b : chan) (id : nat) : option call := nth_error (q_calls b) id.
Fixpoint put_nth (l : list call) (id : nat) (c : call) : list call :=
  match l, id with
  | [], _ => []
  | _ :: l, O => c :: l
  | x :: l, S id => x :: put_nth l id c
  end.
Definition put (b : chan) (id : nat) (c : call) : chan :=
  mkChan (q_server b) (q_dead b) (q_cookies b) (put_nth (q_calls b) id c) (q_list b).
Definition set_list (b : chan) (l : list nat) : chan := mkChan (q_server b) (q_dead b) (q_cookies b) (q_calls b) l.
Definition k_set_sent (c : call) : call := mkCall (k_msg c) (k_cookie c) (k_cb c) true (k_queued c) (k_removed c).
Definition k_set_queued (c : call) (q : bool) : call := mkCall (k_msg c) (k_cookie c) (k_cb c) (k_sent c) q (k_removed c).
Definition k_set_removed (c : call) : call := mkCall (k_msg c) (k_cookie c) (k_cb c) (k_sent c) (k_queued c) true.

(** What can be observed. [Got]: a reply was received. *)
Inductive obs :=
| Datagram (id : nat) (text : list byte)
| Got (a : wmsg)
| Callback (id : nat) (a : wmsg)
| Cancelled (id : nat)
| Forward (a : option wmsg).

Definition set_peer (m : wmsg) : wmsg :=
  mkWmsg (w_type m) (w_name m) (w_level m) (w_argv m) (w_iter m) (w_raw m) (w_rawlen m) (w_ifname m) (w_sealed m) true.
(** wpas__link_message, src/shared/wpas.c:877-883. *)
Definition link (b : chan) (m : wmsg) (cookie cookies : N) (cb : bool) : chan :=
  mkChan (q_server b) (q_dead b) cookies (q_calls b ++ [mkCall m cookie cb false true false]) (q_list b ++ [length (q_calls b)]).
(** wpas__unlink_message, src/shared/wpas.c:885-891. *)
Definition unlink (b : chan) (id : nat) (c : call) : chan :=
  put (set_list b (remove Nat.eq_dec id (q_list b))) id (k_set_queued c false).

(** ++w->cookies ? : ++w->cookies, src/shared/wpas.c:1242. *)
Definition next_cookie (c : N) : N := let a := wrap64 (c + 1) in if a =? 0 then 1 else a.
(** wpas_call_async, src/shared/wpas.c:1215-1250, for a message of this channel that
    is not queued and was not sent. The message is returned, too. *)
Definition call_async (b : chan) (m : wmsg) (cb : bool) : chan * wmsg * option err :=
  if q_server b || match w_type m with WRequest => false | _ => true end || w_peer m then (b, m, Some EINVAL)
  else match wseal (set_peer m) with
       | (m, Some e) => (b, m, Some e)
       | (m, None) => (link b m (next_cookie (q_cookies b)) (next_cookie (q_cookies b)) cb, m, None)
       end.
(** wpas_send, src/shared/wpas.c:1274-1305. *)
Definition send (b : chan) (m : wmsg) : chan * wmsg * option err :=
  if negb (w_peer m) && q_server b then (b, m, Some EINVAL)
  else match wseal (set_peer m) with
       | (m, Some e) => (b, m, Some e)
       | (m, None) => (link b m 0 (q_cookies b) false, m, None)
       end.
(** wpas_call_async_cancel, src/shared/wpas.c:1252-1272. *)
Fixpoint find_cookie (b : chan) (l : list nat) (cookie : N) : option nat :=
  match l with
  | [] => None
  | id :: l => match get b id with
               | Some c => if k_cookie c =? cookie then Some id else find_cookie b l cookie
               | None => find_cookie b l cookie
               end
  end.
Definition cancel (b : chan) (cookie : N) : chan * list obs :=
  if cookie =? 0 then (b, [])
  else match find_cookie b (q_list b) cookie with
       | None => (b, [])
       | Some id => match get b id with
                    | None => (b, [])
                    | Some c => (if k_sent c then put b id (k_set_removed c) else unlink b id c, [Cancelled id])
                    end
       end.

Inductive send_result := Sent | Again | Broken.
(** wpas__hup, src/shared/wpas.c:1097-1106. *)
Definition hup (b : chan) : chan * list obs :=
  if q_dead b then (b, [])
  else (mkChan (q_server b) true (q_cookies b) (q_calls b) (q_list b), [Forward None]).
(** wpas__send and wpas__write, src/shared/wpas.c:1307-1350. *)
Definition write (b : chan) (r : send_result) : chan * list obs :=
  match q_list b with
  | [] => (b, [])
  | id :: _ =>
      match get b id with
      | None => (b, [])
      | Some c =>
          if k_sent c then (b, [])
          else
            let '(ok, o) := if w_rawlen (k_msg c) =? 0 then (true, [])
                            else match r with
                                 | Sent => (true, [Datagram id (takeN (w_rawlen (k_msg c)) (match w_raw (k_msg c) with Some r => r | None => [] end))])
                                 | _ => (false, []) end in
            if ok : bool then
              let c := k_set_sent c in
              (if k_cookie c =? 0 then unlink b id c else put b id c, o)
            else (b, [])
      end
  end.
(** wpas__read, src/shared/wpas.c:1381-1412, of a parsed message. *)
Definition read (b : chan) (a : wmsg) : chan * list obs :=
  match w_type a with
  | WReply =>
      match q_list b with
      | [] => (b, [Got a])
      | id :: _ =>
          match get b id with
          | None => (b, [Got a])
          | Some c =>
              if k_sent c then (unlink b id c, Got a :: if k_removed c || negb (k_cb c) then [] else [Callback id a])
              else (b, [Got a])
          end
      end
  | _ => (b, [Forward (Some a)])
  end.
(** wpas_timer_fn, src/shared/wpas.c:1503-1529. *)
Definition timer (b : chan) : chan * list obs := match q_list b with [] => (b, []) | _ => hup b end.

Inductive event :=
| ECall (m : wmsg) (cb : bool) | ESend (m : wmsg) | ECancel (cookie : N)
| EWrite (r : send_result) | ERead (a : wmsg) | ETimer | EHup.
(** After the hangup the socket is closed and nothing is read, written or timed. *)
Definition step (b : chan) (e : event) : chan * list obs :=
  match e with
  | ECall m cb => (fst (fst (call_async b m cb)), [])
  | ESend m => (fst (fst (send b m)), [])
  | ECancel cookie => cancel b cookie
  | EWrite r => if q_dead b then (b, []) else write b r
  | ERead a => if q_dead b then (b, []) else read b a
  | ETimer => if q_dead b then (b, []) else timer b
  | EHup => hup b
  end.
Fixpoint run (b : chan) (es : list event) : chan * list obs :=
  match es with
  | [] => (b, [])
  | e :: es => let '(b, o) := step b e in let '(b, o') := run b es in (b, o ++ o')
  end.
