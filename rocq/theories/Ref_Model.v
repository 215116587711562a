(** Model of the reference counts of both buses and their messages: rtsp_message_new,
    rtsp_message_ref, rtsp_message_unref, the links of messages, rtsp_ref and rtsp_unref,
    src/shared/rtsp.c:350-372, 563-605, 2680-2752 and 2941-3019. The supplicant bus,
    src/shared/wpas.c:118-237, 877-891 and 1153-1213, is the case in which no message
    waits and no message is being parsed: its queue is the list of outgoing messages.
    Matches, buffers and timers are left out, counters do not wrap, and a message
    that waits can be found in the table (C64 is about the opposite). *)
From Verif Require Import Base.

(** A message in memory: its address, its count, and how many of the references
    belong to users (which the program does not store). *)
Record msg := mkMsg { g_id : N; g_ref : N; g_user : N }.
(** The bus: if it is in memory, its count, the references that belong to users
    (not stored), the outgoing and the waiting messages with their counters, the message that
    is being parsed; the messages in memory; the next unused address. *)
Record st := mkSt { s_alive : bool; s_ref : N; s_ext : N; s_out : list N; s_outc : N; s_wait : list N; s_waitc : N;
  s_parser : option N; s_msgs : list msg; s_next : N }.
(** rtsp_open_fd, src/shared/rtsp.c:2910-2939. *)
Definition init : st := mkSt true 1 1 [] 0 [] 0 None [] 0.

Definition set_bus (s : st) (alive : bool) (ref : N) : st :=
  mkSt alive ref (s_ext s) (s_out s) (s_outc s) (s_wait s) (s_waitc s) (s_parser s) (s_msgs s) (s_next s).
Definition set_ext (s : st) (ext : N) : st :=
  mkSt (s_alive s) (s_ref s) ext (s_out s) (s_outc s) (s_wait s) (s_waitc s) (s_parser s) (s_msgs s) (s_next s).
Definition set_out (s : st) (out : list N) (n : N) : st :=
  mkSt (s_alive s) (s_ref s) (s_ext s) out n (s_wait s) (s_waitc s) (s_parser s) (s_msgs s) (s_next s).
Definition set_wait (s : st) (wait : list N) (n : N) : st :=
  mkSt (s_alive s) (s_ref s) (s_ext s) (s_out s) (s_outc s) wait n (s_parser s) (s_msgs s) (s_next s).
Definition set_parser (s : st) (p : option N) : st :=
  mkSt (s_alive s) (s_ref s) (s_ext s) (s_out s) (s_outc s) (s_wait s) (s_waitc s) p (s_msgs s) (s_next s).
Definition set_msgs (s : st) (ms : list msg) : st :=
  mkSt (s_alive s) (s_ref s) (s_ext s) (s_out s) (s_outc s) (s_wait s) (s_waitc s) (s_parser s) ms (s_next s).
Definition at_ (s : st) (id : N) : option msg := find (fun m => g_id m =? id) (s_msgs s).
Definition put (s : st) (id : N) (f : msg -> msg) : st := set_msgs s (map (fun m => if g_id m =? id then f m else m) (s_msgs s)).
Definition del (s : st) (id : N) : st := set_msgs s (filter (fun m => negb (g_id m =? id)) (s_msgs s)).
Definition without (id : N) (l : list N) : list N := filter (fun x => negb (x =? id)) l.
Definition is_in (id : N) (l : list N) : bool := existsb (fun x => x =? id) l.
Definition bit (b : bool) : N := if b then 1 else 0.
Definition parsing (s : st) : bool := match s_parser s with Some _ => true | None => false end.

(** The loops of rtsp_unref, src/shared/rtsp.c:2969-2987: all linked messages have a
    single reference. *)
Fixpoint single (s : st) (l : list N) : oc bool :=
  match l with
  | [] => Ret true
  | id :: l => match at_ s id with None => Undef | Some m => if 1 <? g_ref m then Ret false else single s l end
  end.

(** rtsp_message_unref, src/shared/rtsp.c:571-605, rtsp_unref, 2949-3019, and its loops
    that drop the links, 2989-3001; the unlinking is rtsp_unlink_outgoing, 2742-2752, and
    rtsp_unlink_waiting, 2718-2731. *)
Fixpoint msg_unref (n : nat) (s : st) (id : N) {struct n} : oc st :=
  match n with
  | O => Endless
  | S n =>
      match at_ s id with
      | None => Undef
      | Some m =>
          if g_ref m =? 0 then Ret s
          else
            let s := put s id (fun m => mkMsg (g_id m) (g_ref m - 1) (g_user m)) in
            if 0 <? g_ref m - 1 then Ret s
            else
              let* s := bus_unref n s in
              match at_ s id with None => Undef | Some _ => Ret (del s id) end
      end
  end
with bus_unref (n : nat) (s : st) {struct n} : oc st :=
  match n with
  | O => Endless
  | S n =>
      if negb (s_alive s) then Undef
      else if s_ref s =? 0 then Ret s
      else
        let refs := s_outc s + s_waitc s + 1 + bit (parsing s) in
        let* q := if s_ref s <=? refs then single s (s_out s ++ s_wait s) else Ret false in
        let* s := if q then drain n s else Ret s in
        if negb (s_alive s) then Undef
        else if s_ref s =? 0 then Ret s
        else Ret (set_bus s (0 <? s_ref s - 1) (s_ref s - 1))
  end
with drain (n : nat) (s : st) {struct n} : oc st :=
  match n with
  | O => Endless
  | S n =>
      match s_out s, s_wait s, s_parser s with
      | id :: out, _, _ => let* s := msg_unref n (set_out s out (s_outc s - 1)) id in drain n s
      | [], id :: wait, _ => let* s := msg_unref n (set_wait s wait (s_waitc s - 1)) id in drain n s
      | [], [], Some id => let* s := msg_unref n s id in Ret (set_parser s None)
      | [], [], None => Ret s
      end
  end.
Definition fuel (s : st) : nat := (length (s_out s) + length (s_wait s) + 10)%nat.

(** What users, the event loop (a user that takes a reference without having one) and
    the parser do. *)
Inductive op :=
| BusRef | BusUnref | Enter
| New | MsgRef (id : N) | MsgUnref (id : N)
| EnterMsg (id : N)
| LinkOut (id : N) | LinkWait (id : N) | UnlinkOut (id : N) | UnlinkWait (id : N)
| ParserNew | ParserDone.
Definition users (s : st) (id : N) : N := match at_ s id with Some m => g_user m | None => 0 end.
(** Users use only what they have a reference of. *)
Definition holds (s : st) : bool := (0 <? s_ext s) || existsb (fun m => 0 <? g_user m) (s_msgs s).
Definition allowed (s : st) (o : op) : bool :=
  match o with
  | BusRef | New => holds s
  | BusUnref => 0 <? s_ext s
  | Enter => s_alive s
  | MsgRef id | MsgUnref id => 0 <? users s id
  | EnterMsg id => is_in id (s_wait s)
  | LinkOut id => (0 <? users s id) && negb (is_in id (s_out s))
  | LinkWait id => (0 <? users s id) && negb (is_in id (s_wait s))
  | UnlinkOut id => holds s && is_in id (s_out s)
  | UnlinkWait id => holds s && is_in id (s_wait s)
  | ParserNew => (0 <? s_ext s) && negb (parsing s)
  | ParserDone => 0 <? s_ext s
  end.
(** rtsp_ref, src/shared/rtsp.c:2941-2947. *)
Definition bus_ref (s : st) : oc st :=
  if negb (s_alive s) then Undef else if s_ref s =? 0 then Ret s else Ret (set_bus s true (s_ref s + 1)).
(** rtsp_message_ref, src/shared/rtsp.c:563-569. *)
Definition msg_ref (s : st) (id : N) : oc st :=
  match at_ s id with
  | None => Undef
  | Some m => if g_ref m =? 0 then Ret s else Ret (put s id (fun m => mkMsg (g_id m) (g_ref m + 1) (g_user m)))
  end.
Definition add_user (s : st) (id : N) : st := put s id (fun m => mkMsg (g_id m) (g_ref m) (g_user m + 1)).
Definition sub_user (s : st) (id : N) : st := put s id (fun m => mkMsg (g_id m) (g_ref m) (g_user m - 1)).
(** rtsp_message_new, src/shared/rtsp.c:350-372. *)
Definition new (s : st) (user : N) : oc (st * N) :=
  let* s := bus_ref s in
  Ret (mkSt (s_alive s) (s_ref s) (s_ext s) (s_out s) (s_outc s) (s_wait s) (s_waitc s) (s_parser s)
    (s_msgs s ++ [mkMsg (s_next s) 1 user]) (s_next s + 1), s_next s).
Definition step (s : st) (o : op) : oc st :=
  if negb (allowed s o) then Ret s
  else match o with
  | BusRef | Enter => let* s := bus_ref s in Ret (set_ext s (s_ext s + 1))
  | BusUnref => bus_unref (fuel s) (set_ext s (s_ext s - 1))
  | New => let* p := new s 1 in Ret (fst p)
  | MsgRef id | EnterMsg id => let* s := msg_ref s id in Ret (add_user s id)
  | MsgUnref id => msg_unref (fuel s) (sub_user s id) id
  | LinkOut id => if negb (s_alive s) then Undef else msg_ref (set_out s (s_out s ++ [id]) (s_outc s + 1)) id
  | LinkWait id => if negb (s_alive s) then Undef else msg_ref (set_wait s (s_wait s ++ [id]) (s_waitc s + 1)) id
  | UnlinkOut id => if negb (s_alive s) then Undef else msg_unref (fuel s) (set_out s (without id (s_out s)) (s_outc s - 1)) id
  | UnlinkWait id => if negb (s_alive s) then Undef else msg_unref (fuel s) (set_wait s (without id (s_wait s)) (s_waitc s - 1)) id
  | ParserNew => let* p := new s 0 in Ret (set_parser (fst p) (Some (snd p)))
  | ParserDone =>
      match s_parser s with
      | None => Ret s
      | Some id => Ret (add_user (set_parser s None) id)
      end
  end.
Fixpoint run (s : st) (os : list op) : oc st :=
  match os with [] => Ret s | o :: os => let* s := step s o in run s os end.
