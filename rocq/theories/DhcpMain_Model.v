(** Model of miracle-dhcp as a program, src/dhcp/dhcp.c, and of how wifid starts it,
    src/wifi/wifid-supplicant.c:354-495. What the program "ip" does, finding the interface,
    signals and sockets succeed or fail as given; messages to wifid can be sent. The
    DHCP client is seen through its events. *)
From Coq Require Import String.
From Verif Require Import Base Text Settings_Model.
From Verif Require Comm_Model DhcpClient_Model WpasMsg_Model.
Local Open Scope list_scope.

(** ** inet_pton and inet_ntop of glibc, for AF_INET *)
Fixpoint pton (s : list byte) (tp : N) (saw : bool) (octets : N) (done : list N) : option (list N) :=
  match s with
  | [] => if octets <? 4 then None else Some (done ++ [tp])
  | c :: s =>
      if is_dec c then
        let new := tp * 10 + (c - 48) in
        if saw && (tp =? 0) then None
        else if 255 <? new then None
        else if saw then pton s new true octets done
        else if 4 <? octets + 1 then None else pton s new true (octets + 1) done
      else if (c =? 46) && saw then if octets =? 4 then None else pton s 0 false octets (done ++ [tp])
      else None
  end.
Definition inet_pton (s : list byte) : option (list N) := pton s 0 false 0 [].
Fixpoint inet_ntop (q : list N) : list byte :=
  match q with [] => [] | [a] => dec a | a :: q => dec a ++ 46 :: inet_ntop q end.
(** The number in host order. *)
Definition host (q : list N) : N := fold_left (fun n b => n * 256 + b) q 0.

(** make_address and make_subnet, src/dhcp/dhcp.c:700-743: what is left in the buffer. *)
Definition INET_ADDRSTRLEN : N := 16.
Definition make_address (prefix : option (list byte)) (suffix : list byte) : option (list byte) :=
  let buf := or prefix (text "192.168.77") ++ 46 :: suffix in
  if INET_ADDRSTRLEN <=? lenN buf then None
  else match inet_pton buf with Some q => Some (inet_ntop q) | None => None end.
Definition make_subnet (subnet : list byte) : option (list byte) :=
  match inet_pton subnet with Some q => Some (inet_ntop q) | None => None end.

(** ** The command line, src/dhcp/dhcp.c:773-924 *)
Definition dhcp_longs : longs :=
  [(text "help", (false, OHelp)); (text "version", (false, OVersion)); (text "log-level", (true, OLogLevel)); (text "log-time", (false, OLogTime));
   (text "log-date-time", (false, OLogDateTime)); (text "netdev", (true, ONetdev)); (text "ip-binary", (true, OIp)); (text "comm-fd", (true, OCommFd));
   (text "server", (false, OServer)); (text "prefix", (true, OPrefix)); (text "local", (true, OLocal)); (text "gateway", (true, OGateway));
   (text "dns", (true, ODns)); (text "subnet", (true, OSubnet)); (text "from", (true, OFrom)); (text "to", (true, OTo))].
(** "hs:", line 819; the loop has no case for 's'. *)
Definition dhcp_shorts : shorts := [(104, (false, OHelp)); (115, (true, OLetterS))].
(** The variables of src/dhcp/dhcp.c:73-82 and 816-817; without a path of ip the one of the build is used. *)
Record dset := mkD {
  d_level : N; d_date : bool; d_time : bool; d_netdev : option (list byte); d_ip : option (list byte); d_comm : Z; d_server : bool;
  d_prefix : option (list byte); d_local : option (list byte); d_gateway : option (list byte); d_dns : option (list byte);
  d_subnet : option (list byte); d_from : option (list byte); d_to : option (list byte) }.
Definition d_start : dset := mkD NOTICE false false None None (-1) false None None None None None None None.
Definition dhcp_opt (e : gev) (s : dset) : res (flow dset) :=
  let '(mkD l d t n i c sv p lo g dn su f o) := s in
  match e with
  | GBad => Ok Refuse
  | GOpt x arg =>
      match x with
      | OHelp | OVersion => Ok Finish
      | OLogLevel => Ok (Go (mkD (level arg) d t n i c sv p lo g dn su f o))
      | OLogTime => Ok (Go (mkD l d true n i c sv p lo g dn su f o))
      | OLogDateTime => Ok (Go (mkD l true t n i c sv p lo g dn su f o))
      | ONetdev => Ok (Go (mkD l d t (Some arg) i c sv p lo g dn su f o))
      | OIp => Ok (Go (mkD l d t n (Some arg) c sv p lo g dn su f o))
      | OCommFd => do z <- WpasMsg_Model.atoi arg; Ok (Go (mkD l d t n i z sv p lo g dn su f o))
      | OServer => Ok (Go (mkD l d t n i c true p lo g dn su f o))
      | OPrefix => Ok (Go (mkD l d t n i c sv (Some arg) lo g dn su f o))
      | OLocal => Ok (Go (mkD l d t n i c sv p (Some arg) g dn su f o))
      | OGateway => Ok (Go (mkD l d t n i c sv p lo (Some arg) dn su f o))
      | ODns => Ok (Go (mkD l d t n i c sv p lo g (Some arg) su f o))
      | OSubnet => Ok (Go (mkD l d t n i c sv p lo g dn (Some arg) f o))
      | OFrom => Ok (Go (mkD l d t n i c sv p lo g dn su (Some arg) o))
      | OTo => Ok (Go (mkD l d t n i c sv p lo g dn su f (Some arg)))
      | _ => Ok (Go s)
      end
  end.
Record addrs := mkA { a_local : list byte; a_gateway : list byte; a_dns : list byte; a_subnet : list byte; a_from : list byte; a_to : list byte }.
Record config := mkCfg { f_netdev : list byte; f_ip : option (list byte); f_comm : Z; f_level : N; f_serve : option addrs }.
Definition is_none {A} (x : option A) : bool := match x with None => true | Some _ => false end.
Definition make_all (s : dset) : option addrs :=
  match make_address (d_prefix s) (or (d_local s) (text "1")), make_address (d_prefix s) (or (d_gateway s) (text "1")),
        make_address (d_prefix s) (or (d_dns s) (text "1")), make_subnet (or (d_subnet s) (text "255.255.255.0")),
        make_address (d_prefix s) (or (d_from s) (text "100")), make_address (d_prefix s) (or (d_to s) (text "199")) with
  | Some a, Some b, Some c, Some d, Some e, Some f => Some (mkA a b c d e f)
  | _, _, _, _, _, _ => None
  end.
(** After the loop, src/dhcp/dhcp.c:874-917; [access]: whether the program ip may be executed. *)
Definition settle (access : option (list byte) -> bool) (ops : list (list byte)) (s : dset) : flow config :=
  match ops, d_netdev s with
  | [], Some n =>
      if negb (access (d_ip s)) then Refuse
      else if negb (d_server s) then
        if is_none (d_prefix s) && is_none (d_local s) && is_none (d_gateway s) && is_none (d_dns s) && is_none (d_subnet s) && is_none (d_from s) && is_none (d_to s)
        then Go (mkCfg n (d_ip s) (d_comm s) (d_level s) None) else Refuse
      else match make_all s with Some a => Go (mkCfg n (d_ip s) (d_comm s) (d_level s) (Some a)) | None => Refuse end
  | _, _ => Refuse
  end.
Definition parse_argv (access : option (list byte) -> bool) (argv : list (list byte)) : res (flow config) :=
  let '(es, ops) := getopt dhcp_shorts dhcp_longs argv [] in
  do x <- rounds dhcp_opt es d_start;
  Ok match x with Go s => settle access ops s | Finish => Finish | Refuse => Refuse end.

(** ** How wifid starts it: the words after argv[0]. The name for the journal goes into 128 bytes. *)
Definition with_ip (ip : option (list byte)) : list (list byte) := match ip with Some p => [text "--ip-binary"; p] | None => [] end.
Definition journal (ifname : list byte) : res (list byte) :=
  let s := text "miracle-dhcp-" ++ ifname in if lenN s + 1 <=? 128 then Ok s else UB.
(** supplicant_group_spawn_dhcp_server, src/wifi/wifid-supplicant.c:354-426. *)
Definition server_argv (ifname : list byte) (subnet lvl : N) (fd : N) (ip : option (list byte)) : res (list (list byte)) :=
  do j <- journal ifname;
  Ok ([text "--server"; text "--prefix"; text "192.168." ++ dec subnet; text "--log-level"; dec lvl; text "--netdev"; ifname; text "--comm-fd"; dec fd] ++ with_ip ip).
(** supplicant_group_spawn_dhcp_client, src/wifi/wifid-supplicant.c:428-495. *)
Definition client_argv (ifname : list byte) (lvl : N) (fd : N) (ip : option (list byte)) : res (list (list byte)) :=
  do j <- journal ifname;
  Ok ([text "--log-level"; dec lvl; text "--netdev"; ifname; text "--comm-fd"; dec fd] ++ with_ip ip).

(** ** The run of the program *)
(** What it does: "ip addr flush" and "ip addr add", whether they worked; a message to wifid;
    a server with its range and options, a client; that it is stopped. *)
Inductive out := Flush (ok : bool) | Add (a : list byte) (ok : bool) | Tell (m : list byte) | Serve (a b : N) (opts : list (N * list byte)) | Seek | Halt.
(** Errors, 0 for none: finding the interface; signals; flush and add; making the client or
    the server; if it starts; if the last flush works. *)
Record env := mkEnv { e_index : bool; e_signals : N; e_flush : N; e_add : N; e_new : N; e_start : bool; e_last : bool }.
Inductive ev := Lease (l : Comm_Model.lease) (flush add : bool) | NoLease | Remote (mac : list N) (ip : list byte) | Signal.
Definition EINVAL : N := 22.
Definition EFAULT : N := 14.
Definition ENXIO : N := 6.
(** client_lease_fn, src/dhcp/dhcp.c:278-358: with what happens to the interface. *)
Definition lease_fn (c : Comm_Model.client) (l : Comm_Model.lease) (flush add : bool) : Comm_Model.client * list out :=
  let a := match Comm_Model.l_addr l with Some x => Some (x ++ 47 :: match Comm_Model.l_subnet l with s :: _ => s | [] => text "24" end) | None => None end in
  let ops := match a with
             | None => []
             | Some a => if Comm_Model.same (Comm_Model.c_addr c) a then [] else Flush flush :: if flush then [Add a add] else []
             end in
  let '(c', ms) := Comm_Model.lease_fn c l flush add in (c', ops ++ map Tell ms).
(** The main loop with client_no_lease_fn, server_event_fn and manager_signal_fn,
    src/dhcp/dhcp.c:360-407: whether it has ended. *)
Fixpoint client_loop (c : Comm_Model.client) (l : list ev) : Comm_Model.client * list out * bool :=
  match l with
  | [] => (c, [], false)
  | Lease x f a :: l =>
      let '(c, o) := lease_fn c x f a in
      if Comm_Model.c_runs c then let '(c, o', b) := client_loop c l in (c, o ++ o', b) else (c, o, true)
  | NoLease :: _ | Signal :: _ => (c, [], true)
  | Remote _ _ :: l => client_loop c l
  end.
Fixpoint server_loop (l : list ev) : list out * bool :=
  match l with
  | [] => ([], false)
  | Remote m ip :: l => let '(o, b) := server_loop l in (Tell (Comm_Model.server_event m ip) :: o, b)
  | Signal :: _ => ([], true)
  | _ :: l => server_loop l
  end.
(** g_dhcp_server_set_option and _set_ip_range, src/dhcp/server.c:800-825 and 880-896; the
    texts come from inet_ntop, for which inet_aton is as inet_pton. *)
Definition set_up (a : addrs) : option out :=
  match inet_pton (a_subnet a), inet_pton (a_gateway a), inet_pton (a_dns a), inet_pton (a_from a), inet_pton (a_to a) with
  | Some _, Some _, Some _, Some f, Some t => Some (Serve (host f) (host t) [(1, a_subnet a); (3, a_gateway a); (6, a_dns a)])
  | _, _, _, _, _ => None
  end.
(** manager_new, manager_run, manager_free and main, src/dhcp/dhcp.c:409-698 and
    926-948: what is done, and the exit status if the program has ended; error numbers
    are below 256. *)
Definition run_server (e : env) (a : addrs) (l : list ev) : list out * option N :=
  let addr := a_local a ++ 47 :: a_subnet a in
  let gone := [Flush (e_last e)] in
  if negb (e_flush e =? 0) then (Flush false :: gone, Some (e_flush e))
  else if negb (e_add e =? 0) then ([Flush true; Add addr false] ++ gone, Some (e_add e))
  else
    let up := [Flush true; Add addr true] in
    if negb (e_new e =? 0) then (up ++ gone, Some (e_new e))
    else match set_up a with
         | None => (up ++ Halt :: gone, Some ENXIO)
         | Some s =>
             if negb (e_start e) then (up ++ s :: Halt :: gone, Some EFAULT)
             else let '(o, b) := server_loop l in
                  let o := up ++ s :: Tell (Comm_Model.server_up (a_local a)) :: o in
                  if b then (o ++ Halt :: gone, Some 0) else (o, None)
         end.
Definition run_client (e : env) (l : list ev) : list out * option N :=
  if negb (e_new e =? 0) then ([], Some (e_new e))
  else if negb (e_start e) then ([Halt], Some EFAULT)
  else
    let '(c, o, b) := client_loop Comm_Model.new_client l in
    if b then (Seek :: o ++ Halt :: (if is_none (Comm_Model.c_addr c) then [] else [Flush (e_last e)]), Some 0) else (Seek :: o, None).
Definition run (e : env) (f : config) (l : list ev) : list out * option N :=
  if negb (e_index e) then ([], Some EINVAL)
  else if negb (e_signals e =? 0) then ([], Some (e_signals e))
  else match f_serve f with Some a => run_server e a l | None => run_client e l end.

(** The callbacks that are registered, src/dhcp/dhcp.c:563-568, by what the client of DhcpClient_Model calls:
    [text_of] is the lease that is read back then. *)
Definition heard (text_of : N -> Comm_Model.lease) (l : list (N * DhcpClient_Model.event)) : list ev :=
  flat_map (fun x => match snd x with DhcpClient_Model.Available ip _ => [Lease (text_of ip) true true] | DhcpClient_Model.NoLease => [NoLease] | _ => [] end) l.
