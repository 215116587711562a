(** Model of the life of a DHCP server: g_dhcp_server_new, start, ref, stop, unref and
    destroy_lease_table, src/dhcp/server.c:297-315, 352-416, 765-798, 836-877; the beginning of
    listener_event, lines 660-668; and manager_free, src/dhcp/dhcp.c:426-430; with the sources of
    the main loop of GLib. A channel is closed with its source, as nothing else refers to it
    (lines 787-793). Memory is only lacking where g_try_new0 is used. Sources are numbered from
    1; numbers are not used again. *)
From Verif Require Import Base.

Record server := Server { ref_count : N; started : bool; watch : N }.
(** The main loop: sources by number, each with the socket it watches; None for sources of other
    parts of the program. [warned]: removals of sources that do not exist (GLib logs them as
    critical). *)
Record source := Src { s_id : N; s_sock : option N }.
Record world := World {
  srv : option server; srcs : list source; next_id : N; opened : list N; closed : list N; next_fd : N; warned : list N }.
Definition guint_max : N := 4294967295.

Definition set_srv x w := World x (srcs w) (next_id w) (opened w) (closed w) (next_fd w) (warned w).
Definition sockof (s : source) : list N := match s_sock s with Some f => [f] | None => [] end.
(** The source ends, and its socket is closed. *)
Definition drop_source (id : N) (w : world) : world :=
  let mine := filter (fun s => s_id s =? id) (srcs w) in
  World (srv w) (filter (fun s => negb (s_id s =? id)) (srcs w)) (next_id w) (opened w)
    (closed w ++ flat_map sockof mine) (next_fd w) (warned w).
Definition warn (id : N) (w : world) : world := World (srv w) (srcs w) (next_id w) (opened w) (closed w) (next_fd w) (warned w ++ [id]).
(** g_source_remove. *)
Definition source_remove (id : N) (w : world) : world :=
  if existsb (fun s => s_id s =? id) (srcs w) then drop_source id w else warn id w.
(** A source with a new socket, or one of another part of the program. *)
Definition add_watch (w : world) : world :=
  World (srv w) (srcs w ++ [Src (next_id w) (Some (next_fd w))]) (next_id w + 1) (opened w ++ [next_fd w]) (closed w) (next_fd w + 1) (warned w).
Definition add_other (w : world) : world :=
  World (srv w) (srcs w ++ [Src (next_id w) None]) (next_id w + 1) (opened w) (closed w) (next_fd w) (warned w).

(** ** Functions; no server any more is undefined behaviour *)
(** What g_dhcp_server_new finds out. *)
Record found := Found { f_memory : bool; f_name : bool; f_up : bool; f_address : N }.
Inductive error := NONE | INVALID_INDEX | NOMEM | INTERFACE_UNAVAILABLE | INTERFACE_DOWN | IP_ADDRESS_INVALID.
(** Lines 352-416; listener_watch is a guint and set to -1. *)
Definition server_new (f : found) (ifindex : Z) (w : world) : world * error :=
  if (ifindex <? 0)%Z then (w, INVALID_INDEX)
  else if negb (f_memory f) then (w, NOMEM)
  else if negb (f_name f) then (w, INTERFACE_UNAVAILABLE)
  else if negb (f_up f) then (w, INTERFACE_DOWN)
  else if f_address f =? 0 then (w, IP_ADDRESS_INVALID)
  else (set_srv (Some (Server 1 false guint_max)) w, NONE).
(** g_dhcp_server_start, lines 765-798; [sock]: the socket can be opened. 5 is EIO. *)
Definition server_start (sock : bool) (w : world) : res (world * Z) :=
  match srv w with
  | None => UB
  | Some s =>
      if started s then Ok (w, 0%Z)
      else if negb sock then Ok (w, (-5)%Z)
      else Ok (set_srv (Some (Server (ref_count s) true (next_id w))) (add_watch w), 0%Z)
  end.
(** g_dhcp_server_stop, lines 846-859. *)
Definition server_stop (w : world) : res world :=
  match srv w with
  | None => UB
  | Some s =>
      if 0 <? watch s then Ok (set_srv (Some (Server (ref_count s) false 0)) (source_remove (watch s) w))
      else Ok (set_srv (Some (Server (ref_count s) false (watch s))) w)
  end.
(** g_dhcp_server_ref, lines 836-844, and g_dhcp_server_unref, lines 861-877. *)
Definition server_ref (w : world) : res world :=
  match srv w with None => UB | Some s => Ok (set_srv (Some (Server (ref_count s + 1) (started s) (watch s))) w) end.
Definition server_unref (w : world) : res world :=
  match srv w with
  | None => UB
  | Some s =>
      if negb (ref_count s =? 1) then Ok (set_srv (Some (Server (ref_count s - 1) (started s) (watch s))) w)
      else do w <- server_stop (set_srv (Some (Server 0 (started s) (watch s))) w); Ok (set_srv None w)
  end.
(** manager_free, src/dhcp/dhcp.c:426-430. *)
Definition manager_free (w : world) : res world := do w <- server_stop w; server_unref w.
(** listener_event on an error, lines 660-668. *)
Definition listener_error (id : N) (w : world) : res world :=
  match srv w with
  | None => UB
  | Some s => Ok (drop_source id (set_srv (Some (Server (ref_count s) (started s) 0)) w))
  end.

(** ** Histories *)
Inductive op := OStart (sock : bool) | OStop | ORef | OUnref | OError (id : N) | OOther | OEndOther (id : N).
Definition step (o : op) (w : world) : res world :=
  match o with
  | OStart sock => do x <- server_start sock w; Ok (fst x)
  | OStop => server_stop w
  | ORef => server_ref w
  | OUnref => server_unref w
  | OError id =>
      match find (fun s => s_id s =? id) (srcs w) with Some (Src _ (Some _)) => listener_error id w | _ => Ok w end
  | OOther => Ok (add_other w)
  | OEndOther id =>
      match find (fun s => s_id s =? id) (srcs w) with Some (Src _ None) => Ok (drop_source id w) | _ => Ok w end
  end.
Fixpoint run (os : list op) (w : world) : res world :=
  match os with [] => Ok w | o :: os => do w <- step o w; run os w end.
