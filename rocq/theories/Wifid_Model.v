(** Model of the start and the end of miracle-wifid, src/wifi/wifid.c:189-208, 240-486 and
    644-688, wifid-dbus.c:897-956. The links are those of unit Link. *)
From Coq Require Import String.
From Verif Require Import Base Text Setup_Model Link_Model.
Local Open Scope list_scope.

(** ** The name of the machine *)
(** The answer of hostname1: an error, or something that is no text in a variant; a text; a
    variant whose text cannot be read. *)
Inductive host := HFails | HText (t : list byte) | HUnread.
Definition WARNING : N := 4.
(** manager_read_name, wifid.c:371-417; [level]: log_max_sev. The log message for an empty
    name has m->friendly_name for "%s". Memory can be allocated. *)
Definition read_name (level : N) (h : host) (old : option (list byte)) : res (option (list byte)) :=
  match h with
  | HFails => Ok old
  | HText [] => if WARNING <=? level then match old with Some _ => Ok old | None => UB end else Ok old
  | HText t => Ok (Some t)
  | HUnread => Ok (Some (text "undefined"))
  end.

(** ** The links that are there *)
(** A device of the list: that it can still be opened; IFINDEX as a number; INTERFACE; the tag;
    that wpa_supplicant can be started. *)
Record dev := mkDev { d_there : bool; d_ix : N; d_name : option (list byte); d_tag : bool; d_ok : bool }.
(** manager_add_udev_link, wifid.c:85-134: link_new refuses an index that is known. *)
Definition add_dev (c : mgr) (d : dev) (ls : list lnk) : res (list lnk) :=
  if d_ix d =? 0 then Ok ls
  else match Link_Model.find ls (d_ix d) with
       | Some _ => match d_name d with None => Ok ls | Some _ => do b <- chosen c (d_name d); Ok ls end
       | None => add_link c (d_ix d) (d_name d) (d_tag d) (d_ok d) ls
       end.
(** The loop of manager_read_links, wifid.c:443-452. *)
Fixpoint read_links (c : mgr) (ds : list dev) (ls : list lnk) : res (list lnk) :=
  match ds with
  | [] => Ok ls
  | d :: ds => if d_there d then do ls <- add_dev c d ls; read_links c ds ls else Ok ls
  end.

(** ** Signals and the exit status *)
Inductive sig := INT | TERM | QUIT | HUP | PIPE | CHLD.
(** manager_signal_fn, wifid.c:189-208: whether the loop ends. *)
Definition signal_fn (s : sig) : bool := match s with CHLD | PIPE => false | _ => true end.
(** manager_run, wifid.c:483-486: sd_event_loop returns what sd_event_exit was given. [None]:
    it still runs. *)
Fixpoint loop (ss : list sig) : option Z :=
  match ss with [] => None | s :: ss => if signal_fn s then Some 0%Z else loop ss end.
(** The calls of manager_new, 240-369, with manager_dbus_connect, and of manager_startup,
    462-481, whose failure ends the program, in this order, with their results. *)
Inductive call :=
| EventDefault | Watchdog | SystemBus | AttachBus | AddSignal (n : N) | UdevNew | Monitor | Filter | Receive | AddIo
| ManagerTable | Enumerator | LinkTable | PeerTable | ObjectManager | RequestName | RunMiracle | RunWifi | Notify.
Definition calls : list call :=
  [EventDefault; Watchdog; SystemBus; AttachBus; AddSignal 0; AddSignal 1; AddSignal 2; AddSignal 3; AddSignal 4; AddSignal 5;
   UdevNew; Monitor; Filter; Receive; AddIo; ManagerTable; Enumerator; LinkTable; PeerTable; ObjectManager; RequestName; RunMiracle; RunWifi; Notify].
Fixpoint set_up (f : call -> Z) (cs : list call) : Z * list call :=
  match cs with
  | [] => (0%Z, [])
  | c :: cs => if (f c <? 0)%Z then (f c, [c]) else let '(r, done) := set_up f cs in (r, c :: done)
  end.
Definition EACCES := 13%Z.
(** What was called; the exit status, which has 8 bits. *)
Definition status (r : Z) : N := Z.to_N (Z.abs r mod 256).
(** main, wifid.c:644-688; [parse]: the result of parse_argv; [root]: getuid() == 0. *)
Definition wifid (parse : Z) (root : bool) (f : call -> Z) (ss : list sig) : list call * option N :=
  if (parse <? 0)%Z then ([], Some 1)
  else if (parse =? 0)%Z then ([], Some 0)
  else if root then
    let '(r, done) := set_up f calls in
    if (r <? 0)%Z then (done, Some (status r))
    else (done, option_map status (loop ss))
  else ([], Some (status EACCES)).
