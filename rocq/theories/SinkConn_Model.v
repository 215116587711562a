(** Model of the connection of the sink to its source: src/ctl/ctl-sink.c 380-627, with the part
    of the RTSP bus that owns the socket, src/shared/rtsp.c 2850-2899 and 2919-3019.

    Not modelled: the messages (units RtspMsg, Sink), other references to the bus than those of
    the sink and of rtsp_io_fn (unit RtspRef; queued messages that keep a bus alive are the flag
    [b_stuck]), ctl_sink_new and ctl_sink_free (the sink exists all the time), the text form of
    addresses ([None] is a target that is NULL or that inet_pton refuses). *)
From Verif Require Import Base.

(** ** Descriptors of the process *)
(** Who opened what a descriptor stands for; the number tells the objects apart. *)
Inductive object := Socket (n : N) | File (n : N).

(** What can be seen from outside, in order. *)
Inductive obs :=
| Opened (fd : N) (o : object)
| Closed (fd : N) (o : option object)   (* close(fd); None: EBADF *)
| Attempt (addr : N) (ok : bool)        (* ctl_sink_connect got as far as sink_connect; its result *)
| Connected | Disconnected              (* ctl_fn_sink_connected, ctl_fn_sink_disconnected *)
| Given_up.                             (* ctl_sink_close by the user on an open sink *)

Record kern := { k_open : list (N * object); k_next : N }.

(** The kernel hands out the lowest free number; 0 to 2 are in use. *)
Definition taken (fd : N) (l : list (N * object)) : bool := existsb (fun p => fst p =? fd) l.
Fixpoint lowest (fuel : nat) (fd : N) (l : list (N * object)) : N :=
  match fuel with
  | O => fd
  | S f => if taken fd l then lowest f (fd + 1) l else fd
  end.
Definition free_fd (l : list (N * object)) : N := lowest (S (length l)) 3 l.

Definition object_at (fd : N) (l : list (N * object)) : option object :=
  match find (fun p => fst p =? fd) l with Some p => Some (snd p) | None => None end.
Definition without (fd : N) (l : list (N * object)) : list (N * object) :=
  filter (fun p => negb (fst p =? fd)) l.

(** ** The sink *)
(** struct rtsp, rtsp.c 49-95: the descriptor, whether it is attached to the event loop, whether
    queued messages keep it from being freed. *)
Record bus := { b_fd : N; b_attached : bool; b_stuck : bool }.

(** struct ctl_sink, ctl-sink.h 52-78, the members of the connection. [s_src]: the event source
    of the descriptor and whether it is enabled. *)
Record sink := { s_fd : option N; s_conn : bool; s_hup : bool; s_bus : option bus;
                 s_src : option bool; s_addr : option N }.

Definition sink0 : sink :=
  {| s_fd := None; s_conn := false; s_hup := false; s_bus := None; s_src := None; s_addr := None |}.

(** [w_inside]: rtsp_io_fn is running and holds a reference to the bus; [w_dying]: the bus was
    released meanwhile, its descriptor is closed when rtsp_io_fn returns. *)
Record world (U : Type) := { w_kern : kern; w_sink : sink; w_inside : bool; w_dying : option N;
                             w_log : list obs; w_user : U }.
Arguments w_kern {U}. Arguments w_sink {U}. Arguments w_inside {U}. Arguments w_dying {U}.
Arguments w_log {U}. Arguments w_user {U}.

(** The user of the sink: what they do in the callbacks. *)
Record handlers (U : Type) := { h_connected : world U -> world U; h_disconnected : world U -> world U;
                                h_message : world U -> world U }.
Arguments h_connected {U}. Arguments h_disconnected {U}. Arguments h_message {U}.

(** What the kernel and the libraries answer in the course of ctl_sink_connect: strdup, socket,
    connect (0 and EINPROGRESS are success), sd_event_add_io. *)
Record answers := { a_dup : bool; a_socket : bool; a_connect : bool; a_add : bool }.

(** The same for sink_connected: getsockopt fails, SO_ERROR is set, rtsp_open, rtsp_attach_event
    or rtsp_add_match fails, all is well. *)
Inductive probe := PGetsockopt | PError | POpen | PAttach | PMatch | PFine.

Section with_user.
Context {U : Type}.
Notation world := (world U).

Definition note (x : obs) (w : world) : world :=
  {| w_kern := w_kern w; w_sink := w_sink w; w_inside := w_inside w; w_dying := w_dying w;
     w_log := w_log w ++ [x]; w_user := w_user w |}.
Definition put (s : sink) (w : world) : world :=
  {| w_kern := w_kern w; w_sink := s; w_inside := w_inside w; w_dying := w_dying w;
     w_log := w_log w; w_user := w_user w |}.
Definition put_kern (k : kern) (w : world) : world :=
  {| w_kern := k; w_sink := w_sink w; w_inside := w_inside w; w_dying := w_dying w;
     w_log := w_log w; w_user := w_user w |}.
Definition put_user (u : U) (w : world) : world :=
  {| w_kern := w_kern w; w_sink := w_sink w; w_inside := w_inside w; w_dying := w_dying w;
     w_log := w_log w; w_user := u |}.
Definition frame (inside : bool) (dying : option N) (w : world) : world :=
  {| w_kern := w_kern w; w_sink := w_sink w; w_inside := inside; w_dying := dying;
     w_log := w_log w; w_user := w_user w |}.

(** open/socket and close. *)
Definition k_new (mk : N -> object) (w : world) : N * world :=
  let k := w_kern w in
  let fd := free_fd (k_open k) in
  let o := mk (k_next k) in
  (fd, note (Opened fd o) (put_kern {| k_open := (fd, o) :: k_open k; k_next := k_next k + 1 |} w)).
Definition k_close (fd : N) (w : world) : world :=
  let k := w_kern w in
  note (Closed fd (object_at fd (k_open k)))
    (put_kern {| k_open := without fd (k_open k); k_next := k_next k |} w).

Definition with_fd (fd : option N) (s : sink) : sink :=
  {| s_fd := fd; s_conn := s_conn s; s_hup := s_hup s; s_bus := s_bus s; s_src := s_src s; s_addr := s_addr s |}.
Definition with_conn (b : bool) (s : sink) : sink :=
  {| s_fd := s_fd s; s_conn := b; s_hup := s_hup s; s_bus := s_bus s; s_src := s_src s; s_addr := s_addr s |}.
Definition with_hup (b : bool) (s : sink) : sink :=
  {| s_fd := s_fd s; s_conn := s_conn s; s_hup := b; s_bus := s_bus s; s_src := s_src s; s_addr := s_addr s |}.
Definition with_bus (b : option bus) (s : sink) : sink :=
  {| s_fd := s_fd s; s_conn := s_conn s; s_hup := s_hup s; s_bus := b; s_src := s_src s; s_addr := s_addr s |}.
Definition with_src (b : option bool) (s : sink) : sink :=
  {| s_fd := s_fd s; s_conn := s_conn s; s_hup := s_hup s; s_bus := s_bus s; s_src := b; s_addr := s_addr s |}.
Definition with_addr (a : option N) (s : sink) : sink :=
  {| s_fd := s_fd s; s_conn := s_conn s; s_hup := s_hup s; s_bus := s_bus s; s_src := s_src s; s_addr := a |}.

(** rtsp_unref (rtsp.c 2949-3019) by the sink. *)
Definition bus_unref (w : world) : world :=
  match s_bus (w_sink w) with
  | None => w
  | Some b => if b_stuck b then w
              else if w_inside w then frame true (Some (b_fd b)) w
              else k_close (b_fd b) w
  end.

(** sink_close, ctl-sink.c 518-535; ctl_sink_close, 606-612. *)
Definition sink_close (w : world) : world :=
  match s_fd (w_sink w) with
  | None => w
  | Some fd =>
      let w := bus_unref w in
      let w := put (with_src None (with_bus None (w_sink w))) w in
      let w := k_close fd w in
      put (with_hup false (with_conn false (with_fd None (w_sink w)))) w
  end.

(** sink_connect, ctl-sink.c 475-516. *)
Definition sink_connect (a : answers) (w : world) : world * bool :=
  match s_fd (w_sink w), s_addr (w_sink w) with
  | Some _, _ => (w, true)
  | None, None => (w, false)
  | None, Some addr =>
      if a_socket a then
        let '(fd, w) := k_new Socket w in
        if a_connect a && a_add a then
          (note (Attempt addr true) (put (with_fd (Some fd) (with_src (Some true) (w_sink w))) w), true)
        else (note (Attempt addr false) (k_close fd w), false)
      else (note (Attempt addr false) w, false)
  end.

(** ctl_sink_connect, ctl-sink.c 578-604. *)
Definition ctl_sink_connect (target : option N) (a : answers) (w : world) : world * bool :=
  match s_fd (w_sink w), target with
  | None, Some addr => if a_dup a then sink_connect a (put (with_addr (Some addr) (w_sink w)) w) else (w, false)
  | _, _ => (w, false)
  end.

(** The same by the user: closing an open sink is their decision. *)
Definition ctl_sink_close (w : world) : world :=
  match s_fd (w_sink w) with None => w | Some _ => sink_close (note Given_up w) end.

(** ctl_sink_is_connecting, _is_connected, _is_closed, ctl-sink.c 614-627. *)
Definition is_connecting (w : world) : bool :=
  match s_fd (w_sink w) with Some _ => negb (s_conn (w_sink w)) | None => false end.
Definition is_connected (w : world) : bool := s_conn (w_sink w).
Definition is_closed (w : world) : bool := match s_fd (w_sink w) with Some _ => false | None => true end.

Variable h : handlers U.

(** sink_connected, ctl-sink.c 403-448. *)
Definition sink_connected (p : probe) (w : world) : world :=
  if s_conn (w_sink w) || s_hup (w_sink w) then w
  else
    let w := put (with_src (match s_src (w_sink w) with Some _ => Some false | None => None end) (w_sink w)) w in
    let failed w := put (with_hup true (w_sink w)) w in
    match p with
    | PGetsockopt | PError | POpen => failed w
    | PAttach | PMatch | PFine =>
        match s_fd (w_sink w) with
        | None => failed w      (* rtsp_open refuses a negative descriptor *)
        | Some fd =>
            let att := match p with PAttach => false | _ => true end in
            let w := put (with_bus (Some {| b_fd := fd; b_attached := att; b_stuck := false |}) (w_sink w)) w in
            match p with
            | PFine => h_connected h (note Connected (put (with_conn true (w_sink w)) w))
            | _ => failed w
            end
        end
    end.

(** The end of sink_io and of sink_rtsp_fn, ctl-sink.c 460-463 and 391-394. *)
Definition sink_lost (w : world) : world :=
  if s_hup (w_sink w) then h_disconnected h (note Disconnected (sink_close w)) else w.

(** sink_io, ctl-sink.c 450-464: [out] is EPOLLOUT, [hup] EPOLLHUP or EPOLLERR. *)
Definition sink_io (out hup : bool) (p : probe) (w : world) : world :=
  let w := if out then sink_connected p w else w in
  let w := if hup then put (with_hup true (w_sink w)) w else w in
  sink_lost w.

(** sink_rtsp_fn, ctl-sink.c 380-397: [false] is a message, [true] the end of the connection. *)
Definition sink_rtsp (hup : bool) (w : world) : world :=
  sink_lost (if hup then put (with_hup true (w_sink w)) w else h_message h w).

(** rtsp_io_fn, rtsp.c 2850-2899: the callbacks [l] run while the bus is held and the match is
    there, then the reference is dropped. *)
Fixpoint callbacks (l : list bool) (w : world) : world :=
  match l with
  | [] => w
  | x :: r => match s_bus (w_sink w) with Some _ => callbacks r (sink_rtsp x w) | None => w end
  end.
Definition rtsp_io (l : list bool) (w : world) : world :=
  let w := callbacks l (frame true None w) in
  let d := w_dying w in
  let w := frame false None w in
  match d with Some fd => k_close fd w | None => w end.

(** ** What happens to the sink *)
Inductive ev :=
| EIo (out hup : bool) (p : probe)      (* the descriptor of the sink is ready *)
| EMsgs (n : nat)                       (* data: this many messages *)
| EHup                                  (* the connection is over *)
| EQueue (stuck : bool).                (* messages are queued, or gone *)

(** The event loop delivers only what is registered and enabled. *)
Definition event (e : ev) (w : world) : world :=
  match e with
  | EIo out hup p => match s_src (w_sink w) with Some true => sink_io out hup p w | _ => w end
  | EMsgs n => match s_bus (w_sink w) with
               | Some b => if b_attached b then rtsp_io (repeat false n) w else w
               | None => w
               end
  | EHup => match s_bus (w_sink w) with
            | Some b => if b_attached b then rtsp_io [true] w else w
            | None => w
            end
  | EQueue q => match s_bus (w_sink w) with
                | Some b => put (with_bus (Some {| b_fd := b_fd b; b_attached := b_attached b; b_stuck := q |}) (w_sink w)) w
                | None => w
                end
  end.
End with_user.
Arguments k_new {U}. Arguments k_close {U}.

(** ** Users that do as they are told *)
(** Calls of the user; [UFile] opens a descriptor of their own. *)
Inductive ucall := UClose | UConnect (target : option N) (a : answers) | UFile.

Definition ucall_do {U} (c : ucall) (w : world U) : world U :=
  match c with
  | UClose => ctl_sink_close w
  | UConnect t a => fst (ctl_sink_connect t a w)
  | UFile => snd (k_new File w)
  end.
Definition ucalls_do {U} (l : list ucall) (w : world U) : world U := fold_left (fun w c => ucall_do c w) l w.

(** What they do in the callbacks yet to come. *)
Record script := { u_connected : list (list ucall); u_disconnected : list (list ucall); u_message : list (list ucall) }.

Definition user : handlers script :=
  {| h_connected := fun w => match u_connected (w_user w) with
       | [] => w
       | l :: r => ucalls_do l (put_user {| u_connected := r; u_disconnected := u_disconnected (w_user w); u_message := u_message (w_user w) |} w)
       end;
     h_disconnected := fun w => match u_disconnected (w_user w) with
       | [] => w
       | l :: r => ucalls_do l (put_user {| u_connected := u_connected (w_user w); u_disconnected := r; u_message := u_message (w_user w) |} w)
       end;
     h_message := fun w => match u_message (w_user w) with
       | [] => w
       | l :: r => ucalls_do l (put_user {| u_connected := u_connected (w_user w); u_disconnected := u_disconnected (w_user w); u_message := r |} w)
       end |}.

Inductive input := Call (c : ucall) | Event (e : ev).
Definition input_do (i : input) (w : world script) : world script :=
  match i with Call c => ucall_do c w | Event e => event user e w end.
Definition run (l : list input) (w : world script) : world script := fold_left (fun w i => input_do i w) l w.

Definition start (u : script) : world script :=
  {| w_kern := {| k_open := []; k_next := 0 |}; w_sink := sink0; w_inside := false; w_dying := None;
     w_log := []; w_user := u |}.
