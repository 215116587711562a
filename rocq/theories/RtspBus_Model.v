(** Model of the RTSP bus, src/shared/rtsp.c:2564-3274: queueing and writing
    messages, matching replies, timeouts and cancelling. A run is a list of
    events in any order: a callback of the user runs last in the functions below,
    so what it does to the bus are the following events. Each accepted message
    (a call) has a number, its place in [b_calls]. Memory allocation and the
    sd_event functions succeed. The passing of time is not modelled: an armed
    timer can fire at any moment. *)
From Verif Require Import Base RtspMsg_Model.

(** The transmission part of struct rtsp_message, src/shared/rtsp.c:160-175.
    [c_cb]: a callback is set. [c_timer]: a time source exists and is enabled.
    [c_user]: somebody outside the bus holds a reference; with the queues'
    references the message is freed when nobody does. *)
Record call := mkCall {
  c_msg : message; c_cb : bool; c_sent : N;
  c_out : bool; c_wait : bool; c_sending : bool; c_timer : bool; c_user : bool }.
Definition c_cookie (c : call) : N := m_cookie (c_msg c).
Definition c_raw (c : call) : list byte := match m_raw (c_msg c) with Some r => r | None => [] end.
Definition live (c : call) : bool := c_user c || c_wait c || c_out c.

(** struct rtsp, src/shared/rtsp.c:49-95, without the parser and the match list.
    [b_table]: the messages in the hash table of waiting messages. *)
Record bus := mkBus {
  b_ck : N; b_dead : bool; b_event : bool;
  b_calls : list call; b_out : list nat; b_table : list nat }.
(** rtsp_open, src/shared/rtsp.c:2919-2939. *)
Definition bus_open : bus := mkBus 0 false false [] [] [].

Definition get (b : bus) (id : nat) : option call := nth_error (b_calls b) id.
Fixpoint put_nth (l : list call) (id : nat) (c : call) : list call :=
  match l, id with
  | [], _ => []
  | _ :: l, O => c :: l
  | x :: l, S id => x :: put_nth l id c
  end.
Definition set_calls (b : bus) (l : list call) : bus := mkBus (b_ck b) (b_dead b) (b_event b) l (b_out b) (b_table b).
Definition put (b : bus) (id : nat) (c : call) : bus := set_calls b (put_nth (b_calls b) id c).
Definition set_out (b : bus) (l : list nat) : bus := mkBus (b_ck b) (b_dead b) (b_event b) (b_calls b) l (b_table b).
Definition set_table (b : bus) (l : list nat) : bus := mkBus (b_ck b) (b_dead b) (b_event b) (b_calls b) (b_out b) l.

Definition c_set_wait (c : call) (w t : bool) : call :=
  mkCall (c_msg c) (c_cb c) (c_sent c) (c_out c) w (c_sending c) t (c_user c).
Definition c_set_out (c : call) (o s : bool) : call :=
  mkCall (c_msg c) (c_cb c) (c_sent c) o (c_wait c) s (c_timer c) (c_user c).
Definition c_set_sent (c : call) (n : N) : call :=
  mkCall (c_msg c) (c_cb c) n (c_out c) (c_wait c) (c_sending c) (c_timer c) (c_user c).
Definition c_set_timer (c : call) (t : bool) : call :=
  mkCall (c_msg c) (c_cb c) (c_sent c) (c_out c) (c_wait c) (c_sending c) t (c_user c).
Definition c_set_user (c : call) (u : bool) : call :=
  mkCall (c_msg c) (c_cb c) (c_sent c) (c_out c) (c_wait c) (c_sending c) (c_timer c) u.

(** What can be observed. [queued]: the message was still in the queue of
    outgoing messages and no attempt to write it had been made. *)
Inductive obs :=
| Wire (l : list byte)
| Callback (id : nat) (reply : option message) (queued : bool)
| Cancelled (id : nat) (queued : bool)
| Forward (m : option message).
Definition queued (c : call) : bool := c_out c && negb (c_sending c).

(** ** The table of waiting messages *)
(** shl_htable_lookup_u64 and shl_htable_remove_u64: which of several elements
    with the same cookie is found depends on the hash table's past; [pick] tells.
    The cookie is compared in the element itself, which must not be freed. *)
Definition matches (b : bus) (cookie : N) (id : nat) : bool :=
  match get b id with Some c => c_cookie c =? cookie | None => false end.
Definition table_find (b : bus) (cookie : N) (pick : nat) : res (option nat) :=
  match filter (matches b cookie) (b_table b) with
  | [] => Ok None
  | x :: l =>
      let id := nth pick (x :: l) x in
      match get b id with
      | Some c => if live c then Ok (Some id) else UB
      | None => UB
      end
  end.
Definition table_remove (b : bus) (cookie : N) (pick : nat) : res bus :=
  do r <- table_find b cookie pick;
  Ok (match r with None => b | Some id => set_table b (remove Nat.eq_dec id (b_table b)) end).

(** rtsp_unlink_waiting, src/shared/rtsp.c:2719-2731. *)
Definition unlink_waiting (b : bus) (id : nat) (pick : nat) : res (bus * bool) :=
  match get b id with
  | None => UB
  | Some c =>
      if c_wait c then
        do b <- table_remove b (c_cookie c) pick;
        Ok (put b id (c_set_wait c false false), true)
      else Ok (b, false)
  end.
(** rtsp_unlink_outgoing, src/shared/rtsp.c:2741-2752. *)
Definition unlink_outgoing (b : bus) (id : nat) : res (bus * bool) :=
  match get b id with
  | None => UB
  | Some c =>
      if c_out c then
        Ok (put (set_out b (remove Nat.eq_dec id (b_out b))) id (c_set_out c false false), true)
      else Ok (b, false)
  end.
(** rtsp_drop_message, src/shared/rtsp.c:3246-3259. *)
Definition drop (b : bus) (id : nat) (pick : nat) : res bus :=
  match get b id with
  | None => UB
  | Some c =>
      do r <- (if c_sending c then Ok (b, false) else unlink_outgoing b id);
      match r with
      | (b, true) => Ok b
      | (b, false) => do r <- unlink_waiting b id pick; Ok (fst r)
      end
  end.

(** rtsp_call_reply (with rtsp_call_message), src/shared/rtsp.c:2579-2618. *)
Definition call_reply (b : bus) (reply : message) (pick pick' : nat) : res (bus * list obs) :=
  do r <- table_find b (without_flag (m_cookie reply)) pick;
  match r with
  | None => Ok (b, [])
  | Some id =>
      match get b id with
      | None => UB
      | Some c =>
          do b <- drop b id pick';
          Ok (b, if c_cb c then [Callback id (Some reply) (queued c)] else [])
      end
  end.
(** rtsp_incoming_message, src/shared/rtsp.c:2754-2778. *)
Definition incoming (b : bus) (m : message) (pick pick' : nat) : res (bus * list obs) :=
  match m_start m with
  | Reply _ _ => call_reply b m pick pick'
  | _ => Ok (b, [Forward (Some m)])
  end.
(** rtsp_timer_fn, src/shared/rtsp.c:2663-2678. *)
Definition timer (b : bus) (id : nat) (pick : nat) : res (bus * list obs) :=
  match get b id with
  | None => Ok (b, [])
  | Some c =>
      if c_timer c then
        do b <- drop (put b id (c_set_timer c false)) id pick;
        Ok (b, if c_cb c then [Callback id None (queued c)] else [])
      else Ok (b, [])
  end.

(** ** Sending *)
(** What send() did: wrote [n] bytes, EAGAIN or EINTR, another error. *)
Inductive send_result := Sent (n : N) | Again | Broken.
(** rtsp_write_message and rtsp_write, src/shared/rtsp.c:2805-2848. *)
Definition write (b : bus) (r : send_result) (pick : nat) : res (bus * list obs) :=
  match b_out b with
  | [] => Ok (b, [])
  | id :: _ =>
      match get b id with
      | None => UB
      | Some c =>
          let c := c_set_out c (c_out c) true in
          let b := put b id c in
          match r with
          | Again | Broken => Ok (b, [])
          | Sent n =>
              let n := N.min n (lenN (c_raw c) - c_sent c) in
              let bytes := takeN n (dropN (c_sent c) (c_raw c)) in
              let c := c_set_sent c (c_sent c + n) in
              let b := put b id c in
              if lenN (c_raw c) <=? c_sent c then
                do r <- (if c_cb c then Ok (b, false) else unlink_waiting b id pick);
                match r with
                | (b, true) => Ok (b, [Wire bytes])
                | (b, false) => do r <- unlink_outgoing b id; Ok (fst r, [Wire bytes])
                end
              else Ok (b, [Wire bytes])
          end
      end
  end.

(** rtsp_call_async (and rtsp_send, [cb = false]), src/shared/rtsp.c:3192-3244, with
    rtsp_link_waiting and rtsp_link_outgoing, src/shared/rtsp.c:2680-2717 and
    2733-2739. The message belongs to this bus and is not in its queues unless it
    is used. *)
Definition call_async (b : bus) (m : message) (cb : bool) : res (bus * message * option err) :=
  if b_dead b || (m_cookie m =? 0) then Ok (b, m, Some EINVAL)
  else if m_used m then Ok (b, m, Some EINVAL)
  else
    do r <- seal (b_ck b) m;
    let '(ck, m, e) := r in
    let b := mkBus ck (b_dead b) (b_event b) (b_calls b) (b_out b) (b_table b) in
    match e with
    | Some e => Ok (b, m, Some e)
    | None =>
        match m_raw m with
        | None => Ok (b, m, Some EINVAL)
        | Some _ =>
            let m := set_used m in
            if (if has_flag (m_cookie m)
                then match m_start m with Unknown _ | Reply _ _ => true | _ => false end
                else negb (is_reply m)) then
              let id := length (b_calls b) in
              let c := mkCall m cb 0 true true false (b_event b && cb) true in
              Ok (mkBus (b_ck b) (b_dead b) (b_event b) (b_calls b ++ [c]) (b_out b ++ [id]) (b_table b ++ [id]), m, None)
            else Ok (b, m, Some EINVAL)
        end
    end.
(** rtsp_call_async_cancel, src/shared/rtsp.c:3261-3274. *)
Definition cancel (b : bus) (cookie : N) (pick pick' : nat) : res (bus * list obs) :=
  if cookie =? 0 then Ok (b, [])
  else
    do r <- table_find b cookie pick;
    match r with
    | None => Ok (b, [])
    | Some id =>
        match get b id with
        | None => UB
        | Some c => do b <- drop b id pick'; Ok (b, [Cancelled id (queued c)])
        end
    end.

(** The loops over the waiting messages in rtsp_attach_event and
    rtsp_detach_event, src/shared/rtsp.c:3066-3084 and 3100-3103. *)
Fixpoint set_timers (b : bus) (l : list nat) (on : bool) : res bus :=
  match l with
  | [] => Ok b
  | id :: l =>
      match get b id with
      | None => UB
      | Some c =>
          if live c then
            set_timers (if on && negb (c_cb c) then b else put b id (c_set_timer c on)) l on
          else UB
      end
  end.
Definition set_event (b : bus) (e dead : bool) : bus :=
  mkBus (b_ck b) dead e (b_calls b) (b_out b) (b_table b).
(** rtsp_attach_event, src/shared/rtsp.c:3026-3091. *)
Definition attach (b : bus) : res bus :=
  if b_dead b || b_event b then Ok b else set_timers (set_event b true false) (b_table b) true.
(** rtsp_detach_event, src/shared/rtsp.c:3093-3109. *)
Definition detach (b : bus) : res bus :=
  if b_event b then
    do b <- set_timers b (b_table b) false; Ok (set_event b false (b_dead b))
  else Ok b.
(** rtsp_hup, src/shared/rtsp.c:2653-2661. *)
Definition hup (b : bus) : res (bus * list obs) :=
  if b_dead b then Ok (b, [])
  else do b <- detach b; Ok (set_event b (b_event b) true, [Forward None]).
(** The user drops the reference to a message. *)
Definition user_unref (b : bus) (id : nat) : bus :=
  match get b id with Some c => put b id (c_set_user c false) | None => b end.

(** ** Runs *)
Inductive event :=
| ECall (m : message) (cb : bool)
| ECancel (cookie : N) (pick pick' : nat)
| EUnref (id : nat)
| EIncoming (m : message) (pick pick' : nat)
| ETimer (id : nat) (pick : nat)
| EWrite (r : send_result) (pick : nat)
| EAttach | EDetach | EHup.
Definition step (b : bus) (e : event) : res (bus * list obs) :=
  match e with
  | ECall m cb => do r <- call_async b m cb; Ok (fst (fst r), [])
  | ECancel cookie pick pick' => cancel b cookie pick pick'
  | EUnref id => Ok (user_unref b id, [])
  | EIncoming m pick pick' => incoming b m pick pick'
  | ETimer id pick => timer b id pick
  | EWrite r pick => write b r pick
  | EAttach => do b <- attach b; Ok (b, [])
  | EDetach => do b <- detach b; Ok (b, [])
  | EHup => hup b
  end.
Fixpoint run (b : bus) (es : list event) : res (bus * list obs) :=
  match es with
  | [] => Ok (b, [])
  | e :: es =>
      do r <- step b e;
      do r' <- run (fst r) es;
      Ok (fst r', snd r ++ snd r')
  end.
