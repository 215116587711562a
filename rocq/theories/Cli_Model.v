(** Model of the command lines of miracle-sinkctl and miracle-wifictl: src/ctl/ctl-cli.c:144-255
    (commands), 328-632 (completion), the commands in src/ctl/sinkctl.c:109-355 and 438-449 and
    in src/ctl/wifictl.c:70-426, the events of links in sinkctl.c:748-775 and
    wifictl.c:476-494, the end in wifictl.c:521-547 and sinkctl.c:845-874, and what they use of
    src/ctl/ctl-wifi.c:250-312, 525-755 and 1219-1400.
    The picture of wifid is that of Mirror_Model. Texts are lists of characters, without 0.
    Pointers to links are their labels. Output is a list of lines; the columns of list, the
    colours and the prompt are left out. Memory can be allocated. *)
From Coq Require Import String ZArith.
From Verif Require Import Base Text Atoi_Model Qstr_Model Mirror_Model.
Local Open Scope list_scope.

(** ** What is asked of wifid, and printed *)
Inductive call :=
| AskName (link t : list byte) | AskWfd (link t : list byte) | AskManaged (link : list byte) (b : bool) | AskScan (link : list byte) (b : bool)
| AskConnect (peer prov pin : list byte) | AskDisconnect (peer : list byte).
Inductive out :=
| Line (t : list byte) | Warn (t : list byte)
| LinkRow (label ifname name : list byte) (managed : bool) | PeerRow (link label name : list byte) (connected : bool) | Totals (peers links : N)
| HelpRow (name : list byte)
| Ask (c : call) | Refused (c : call) (r : Z)
| Leave.                                  (* cli_exit *)
(** The picture; selected_link or running_link; bound_link; the links with have_p2p_scan. *)
Record st := mkSt { links : client; cur : option (list byte); bound : option (list byte); scans : list (list byte) }.
Definition with_cur (x : option (list byte)) (s : st) : st := mkSt (links s) x (bound s) (scans s).
Definition reply := (Z * list out * st)%type.
Definition EAGAIN : Z := 11.
Definition EINVAL : Z := 22.

(** ** Searching, ctl-wifi.c:1219-1400 *)
Definition is_text (o : option (list byte)) (t : list byte) : bool := match o with Some x => case_eq x t | None => false end.
Definition search_link (c : client) (t : list byte) : option clink :=
  match t with
  | [] => None
  | _ =>
      match find_link c t with
      | Some l => Some l
      | None =>
          match find (fun l => is_text (cl_ifname l) t) c with
          | Some l => Some l
          | None => find (fun l => is_text (cl_name l) t) c
          end
      end
  end.
(** shl_startswith, shl_util.h:104-110. *)
Fixpoint strip (p s : list byte) : option (list byte) :=
  match p, s with
  | [], _ => Some s
  | x :: p, y :: s => if x =? y then strip p s else None
  | _ :: _, [] => None
  end.
Definition starts (t label : list byte) : bool := match strip t label with Some (x :: _) => x =? 64 | _ => false end.
Fixpoint nth_N {A} (l : list A) (n : N) : option A :=
  match l with [] => None | x :: l => if n =? 0 then Some x else nth_N l (n - 1) end.
(** The four loops, over the peers of one link or of all. *)
Definition pick (ps : list (clink * cpeer)) (t : list byte) : option (clink * cpeer) :=
  match find (fun x => starts t (cp_label (snd x))) ps with
  | Some p => Some p
  | None =>
      match find (fun x => is_text (cp_name (snd x)) t) ps with
      | Some p => Some p
      | None =>
          match find (fun x => is_text (cp_iface (snd x)) t) ps with
          | Some p => Some p
          | None =>
              let a := atoi_un t 10 in
              match ret a with
              | Success => if next a =? lenN t then nth_N ps (value a) else None
              | _ => None
              end
          end
      end
  end.
Definition peers_of (l : clink) : list (clink * cpeer) := map (pair l) (cl_peers l).
Definition find_pair (c : client) (t : list byte) : option (clink * cpeer) :=
  match t with
  | [] => None
  | _ => match link_of c t with Some l => match link_peer (cl_peers l) t with Some p => Some (l, p) | None => None end | None => None end
  end.
Definition search_peer (c : client) (t : list byte) : option (clink * cpeer) :=
  match t with
  | [] => None
  | _ =>
      match find_pair c t with
      | Some p => Some p
      | None =>
          let here :=
            match break_at 64 t with
            | (name, Some (_ :: rest)) => match search_link c rest with Some l => pick (peers_of l) name | None => None end
            | _ => None
            end in
          match here with Some p => Some p | None => pick (flat_map peers_of c) t end
      end
  end.

(** ** Asking wifid, ctl-wifi.c:250-312 and 525-755 *)
Section Commands.
(** What wifid answers; below 0 is an error. *)
Variable ans : call -> Z.
Definition ask (c : call) : Z * list out := let r := ans c in if (r <? 0)%Z then (r, [Ask c; Refused c r]) else (0%Z, [Ask c]).
(** strcmp of what may be NULL. *)
Definition same_as (o : option (list byte)) (t : list byte) : res bool := match o with Some x => Ok (str_eq x t) | None => UB end.
Definition set_friendly_name (l : clink) (t : list byte) (s : st) : res reply :=
  do same <- same_as (cl_name l) t;
  if same : bool then Ok (0%Z, [], s) else let '(r, o) := ask (AskName (cl_label l) t) in Ok (r, o, s).
Definition set_wfd (l : clink) (t : list byte) (s : st) : res reply :=
  do same <- same_as (cl_wfd l) t;
  if same : bool then Ok (0%Z, [], s) else let '(r, o) := ask (AskWfd (cl_label l) t) in Ok (r, o, s).
Definition set_managed (l : clink) (b : bool) (s : st) : res reply :=
  if Bool.eqb (cl_managed l) b then Ok (0%Z, [], s)
  else let '(r, o) := ask (AskManaged (cl_label l) b) in
       Ok (r, o, if (r <? 0)%Z then s else mkSt (c_put (link_prop l (Managed b)) (links s)) (cur s) (bound s) (scans s)).
Definition set_scanning (l : clink) (b : bool) (s : st) : res reply :=
  if Bool.eqb (cl_scan l) b then Ok (0%Z, [], s)
  else let '(r, o) := ask (AskScan (cl_label l) b) in
       Ok (r, o, if (r <? 0)%Z || negb b then s else mkSt (links s) (cur s) (bound s) (cl_label l :: scans s)).

(** ** Commands *)
(** args[i]: there is nothing after the last. *)
Definition arg (args : list (list byte)) (i : nat) : res (list byte) := match nth_error args i with Some t => Ok t | None => UB end.
(** What selected_link or running_link points to. *)
Definition deref (s : st) (label : list byte) : res clink :=
  match find (fun l => str_eq (cl_label l) label) (links s) with Some l => Ok l | None => UB end.
Definition done (o : list out) (s : st) : res reply := Ok (0%Z, o, s).
Definition or_unknown (o : option (list byte)) : list byte := match o with Some (x :: t) => x :: t | _ => text "<unknown>" end.

(** cmd_list, sinkctl.c:109-160, wifictl.c:70-121. *)
Definition cmd_list (s : st) : res reply :=
  done (map (fun l => LinkRow (cl_label l) (or_unknown (cl_ifname l)) (or_unknown (cl_name l)) (cl_managed l)) (links s)
        ++ map (fun x => PeerRow (cl_label (fst x)) (cp_label (snd x)) (or_unknown (cp_name (snd x))) (cp_conn (snd x))) (flat_map peers_of (links s))
        ++ [Totals (lenN (flat_map peers_of (links s))) (lenN (links s))]) s.
Definition field (name : list byte) (o : option (list byte)) : list out := match o with Some (x :: t) => [Line (name ++ x :: t)] | _ => [] end.
Definition flag (name : list byte) (b : bool) : list out := [Line (name ++ if b then [49] else [48])].
Definition show_link (l : clink) : list out :=
  [Line (text "Link=" ++ cl_label l)] ++ (if 0 <? cl_index l then [Line (text "InterfaceIndex=" ++ dec (cl_index l))] else [])
  ++ field (text "InterfaceName=") (cl_ifname l) ++ field (text "FriendlyName=") (cl_name l) ++ flag (text "P2PScanning=") (cl_scan l)
  ++ field (text "WfdSubelements=") (cl_wfd l) ++ flag (text "Managed=") (cl_managed l).
Definition show_peer (p : cpeer) : list out :=
  [Line (text "Peer=" ++ cp_label p)] ++ field (text "P2PMac=") (cp_mac p) ++ field (text "FriendlyName=") (cp_name p)
  ++ flag (text "Connected=") (cp_conn p) ++ field (text "Interface=") (cp_iface p) ++ field (text "LocalAddress=") (cp_local p)
  ++ field (text "RemoteAddress=") (cp_remote p) ++ field (text "WfdSubelements=") (cp_wfd p).
Inductive program := Sink | Wifi.
(** cmd_show, sinkctl.c:166-214, wifictl.c:158-208. *)
Definition cmd_show (pr : program) (args : list (list byte)) (s : st) : res reply :=
  if 0 <? lenN args then
    do a <- arg args 0;
    match find_link (links s) a, find_pair (links s) a, search_link (links s) a, search_peer (links s) a with
    | Some l, _, _, _ => done (show_link l) s
    | None, Some (_, p), _, _ => done (show_peer p) s
    | None, None, Some l, _ => done (show_link l) s
    | None, None, None, Some (_, p) => done (show_peer p) s
    | None, None, None, None => done [Warn ((match pr with Sink => text "unknown " | Wifi => text "unknown link or peer " end) ++ a)] s
    end
  else
    match pr, cur s with
    | Wifi, Some label => do l <- deref s label; done (show_link l) s
    | _, _ => done [Line (text "Show what?")] s
    end.
(** cmd_select, wifictl.c:127-152. *)
Definition cmd_select (args : list (list byte)) (s : st) : res reply :=
  if lenN args =? 0 then
    match cur s with
    | Some label => do l <- deref s label; done [Line (text "link " ++ cl_label l ++ text " deselected")] (with_cur None s)
    | None => done [] s
    end
  else
    do a <- arg args 0;
    match search_link (links s) a with
    | None => done [Warn (text "unknown link " ++ a)] s
    | Some l =>
        do r <- set_wfd l (text "000600111c4400c8") (with_cur (Some (cl_label l)) s);
        let '(_, o, s) := r in done (o ++ [Line (text "link " ++ cl_label l ++ text " selected")]) s
    end.
(** The link a command is for: the first of two arguments, or the current one. *)
Definition no_link (pr : program) : list byte := match pr with Sink => text "no running link" | Wifi => text "no link selected" end.
Definition on_current (pr : program) (s : st) (f : clink -> res reply) : res reply :=
  match cur s with None => done [Warn (no_link pr)] s | Some label => do l <- deref s label; f l end.
Definition link_and_value (pr : program) (args : list (list byte)) (s : st) (f : clink -> list byte -> res reply) : res reply :=
  if lenN args <? 1 then done [Line (text "To what?")] s
  else if 1 <? lenN args then
    do a <- arg args 0;
    match search_link (links s) a with
    | None => done [Warn (text "unknown link " ++ a)] s
    | Some l => do v <- arg args 1; f l v
    end
  else do v <- arg args 0; on_current pr s (fun l => f l v).
(** cmd_set_friendly_name, sinkctl.c:220-249, wifictl.c:214-243. *)
Definition cmd_set_friendly_name (pr : program) (args : list (list byte)) (s : st) : res reply :=
  link_and_value pr args s (fun l v => set_friendly_name l v s).
(** cmd_set_managed, sinkctl.c:330-345, wifictl.c:249-282. *)
Definition managed_value (v : list byte) : bool := negb (str_eq v (text "no")).
Definition cmd_set_managed (pr : program) (args : list (list byte)) (s : st) : res reply :=
  match pr with
  | Wifi => link_and_value pr args s (fun l v => set_managed l (managed_value v) s)
  | Sink =>
      do a <- arg args 0;
      match search_link (links s) a with
      | None => done [Warn (text "unknown link " ++ a)] s
      | Some l => do v <- arg args 1; set_managed l (managed_value v) s
      end
  end.
(** run_on, sinkctl.c:255-264. *)
Definition run_on (l : clink) (s : st) : res reply :=
  match cur s with
  | Some _ => done [] s
  | None =>
      do r <- set_wfd l (text "000600111c4400c8") (with_cur (Some (cl_label l)) s);
      let '(_, o1, s) := r in
      do r <- set_scanning l true s;
      let '(_, o2, s) := r in done (o1 ++ o2 ++ [Line (text "now running on link " ++ cl_label l)]) s
  end.
Definition not_managed (l : clink) : out := Line (text "link " ++ cl_label l ++ text " not managed").
Definition already (s : st) (label : list byte) : res reply := do l <- deref s label; done [Warn (text "already running on " ++ cl_label l)] s.
(** cmd_run, sinkctl.c:266-289. *)
Definition cmd_run (args : list (list byte)) (s : st) : res reply :=
  match cur s with
  | Some label => already s label
  | None =>
      do a <- arg args 0;
      match search_link (links s) a with
      | None => done [Warn (text "unknown link " ++ a)] s
      | Some l => if cl_managed l then run_on l s else done [not_managed l] s
      end
  end.
(** cmd_bind, sinkctl.c:295-324. *)
Definition cmd_bind (args : list (list byte)) (s : st) : res reply :=
  match cur s with
  | Some label => already s label
  | None =>
      do a <- arg args 0;
      let s := mkSt (links s) (cur s) (Some a) (scans s) in
      match search_link (links s) a with
      | None => done [] s
      | Some l => if cl_managed l then run_on l s else done [not_managed l] s
      end
  end.
(** cmd_p2p_scan, wifictl.c:288-318. *)
Fixpoint scan_args (c : client) (args : list (list byte)) (l : option clink) (stop : bool) : (option clink * bool) + list byte :=
  match args with
  | [] => inl (l, stop)
  | a :: args =>
      if str_eq a (text "stop") then scan_args c args l true
      else match search_link c a with Some l => scan_args c args (Some l) stop | None => inr a end
  end.
Definition cmd_p2p_scan (args : list (list byte)) (s : st) : res reply :=
  match scan_args (links s) args None false with
  | inr a => done [Warn (text "unknown link " ++ a)] s
  | inl (l, stop) =>
      let f l := if cl_managed l then set_scanning l (negb stop) s else done [not_managed l] s in
      match l with Some l => f l | None => on_current Wifi s f end
  end.
(** cmd_connect, wifictl.c:324-370; cmd_disconnect, 376-397. *)
Definition is_valid_prov (t : list byte) : bool := str_eq t (text "auto") || str_eq t (text "pbc") || str_eq t (text "display") || str_eq t (text "pin").
Definition of_peer (lp : clink * cpeer) (c : call) (s : st) : res reply :=
  if cl_managed (fst lp) then let '(r, o) := ask c in Ok (r, o, s) else done [not_managed (fst lp)] s.
Definition cmd_connect (args : list (list byte)) (s : st) : res reply :=
  if lenN args <? 1 then done [Line (text "To whom?")] s
  else
    do a <- arg args 0;
    match search_peer (links s) a with
    | None => done [Warn (text "unknown peer " ++ a)] s
    | Some lp =>
        do x <-
          (if 2 <? lenN args then do prov <- arg args 1; do pin <- arg args 2; Ok (prov, pin)
           else if 1 <? lenN args then do b <- arg args 1; Ok (if is_valid_prov b then (b, []) else (text "auto", b))
           else Ok (text "auto", []));
        of_peer lp (AskConnect (cp_label (snd lp)) (fst x) (snd x)) s
    end.
Definition cmd_disconnect (args : list (list byte)) (s : st) : res reply :=
  if lenN args <? 1 then done [Line (text "From whom?")] s
  else
    do a <- arg args 0;
    match search_peer (links s) a with
    | None => done [Warn (text "unknown peer " ++ a)] s
    | Some lp => of_peer lp (AskDisconnect (cp_label (snd lp))) s
    end.

(** ** The tables, sinkctl.c:438-449, wifictl.c:413-426 *)
Inductive mode := CLI_N | CLI_M | CLI_Y.
Inductive cmp := CLI_MORE | CLI_LESS | CLI_EQUAL.
Inductive fn := List | Show | Select | SetFriendlyName | Run | Bind | SetManaged_ | P2pScan | Connect | Disconnect | Quit.
Inductive gen := YesNo | Commands | Links | Peers | LinksPeers.
(** completion_fns has three places; those not named are NULL. *)
Record entry := mkE { e_name : list byte; e_mode : mode; e_cmp : cmp; e_argc : N; e_fn : option fn; e_desc : bool; e_comp : list (option gen) }.
Definition comp (l : list gen) : list (option gen) := firstn 3 (map Some l ++ [None; None; None]).
Definition table (pr : program) : list entry :=
  match pr with
  | Sink =>
      [ mkE (text "list") CLI_M CLI_LESS 0 (Some List) true (comp []);
        mkE (text "show") CLI_M CLI_LESS 1 (Some Show) true (comp [LinksPeers]);
        mkE (text "run") CLI_M CLI_EQUAL 1 (Some Run) true (comp [Links]);
        mkE (text "bind") CLI_M CLI_EQUAL 1 (Some Bind) true (comp [Links]);
        mkE (text "set-friendly-name") CLI_M CLI_LESS 2 (Some SetFriendlyName) true (comp [Links]);
        mkE (text "set-managed") CLI_M CLI_EQUAL 2 (Some SetManaged_) true (comp [Links; YesNo]);
        mkE (text "quit") CLI_Y CLI_MORE 0 (Some Quit) true (comp []);
        mkE (text "exit") CLI_Y CLI_MORE 0 (Some Quit) false (comp []);
        mkE (text "help") CLI_M CLI_MORE 0 None true (comp []) ]
  | Wifi =>
      [ mkE (text "list") CLI_M CLI_LESS 0 (Some List) true (comp []);
        mkE (text "select") CLI_Y CLI_LESS 1 (Some Select) true (comp [Links]);
        mkE (text "show") CLI_M CLI_LESS 1 (Some Show) true (comp [LinksPeers]);
        mkE (text "set-friendly-name") CLI_M CLI_LESS 2 (Some SetFriendlyName) true (comp [Links]);
        mkE (text "set-managed") CLI_M CLI_LESS 2 (Some SetManaged_) true (comp [Links; YesNo]);
        mkE (text "p2p-scan") CLI_Y CLI_LESS 2 (Some P2pScan) true (comp [Links]);
        mkE (text "connect") CLI_M CLI_LESS 3 (Some Connect) true (comp [Peers]);
        mkE (text "disconnect") CLI_M CLI_EQUAL 1 (Some Disconnect) true (comp [Peers]);
        mkE (text "quit") CLI_Y CLI_MORE 0 (Some Quit) true (comp []);
        mkE (text "exit") CLI_Y CLI_MORE 0 (Some Quit) false (comp []);
        mkE (text "help") CLI_M CLI_MORE 0 None true (comp []) ]
  end.
Definition command (pr : program) (f : fn) (args : list (list byte)) (s : st) : res reply :=
  match f with
  | List => cmd_list s
  | Show => cmd_show pr args s
  | Select => cmd_select args s
  | SetFriendlyName => cmd_set_friendly_name pr args s
  | Run => cmd_run args s
  | Bind => cmd_bind args s
  | SetManaged_ => cmd_set_managed pr args s
  | P2pScan => cmd_p2p_scan args s
  | Connect => cmd_connect args s
  | Disconnect => cmd_disconnect args s
  | Quit => done [Leave] s
  end.
(** ** cli_do and cli_help, ctl-cli.c:144-224 *)
Definition skipped (cli : bool) (m : mode) : bool := match m with CLI_N => cli | CLI_M => false | CLI_Y => negb cli end.
Definition cli_help (es : list entry) (cli : bool) : list out :=
  Line (text "Available commands:")
  :: flat_map (fun e => if negb (e_desc e) || skipped cli (e_mode e) then [] else [HelpRow (e_name e)]) es.
Fixpoint find_entry (es : list entry) (cli : bool) (w : list byte) : option entry :=
  match es with
  | [] => None
  | e :: es => if negb (str_eq w (e_name e)) then find_entry es cli w
               else if skipped cli (e_mode e) then find_entry es cli w else Some e
  end.
Definition count_error (e : entry) (n : N) : option (list byte) :=
  match e_cmp e with
  | CLI_EQUAL => if negb (n =? e_argc e) then Some (text "Invalid number of arguments") else None
  | CLI_MORE => if n <? e_argc e then Some (text "too few arguments") else None
  | CLI_LESS => if e_argc e <? n then Some (text "too many arguments") else None
  end.
Definition cli_do (pr : program) (cli : bool) (words : list (list byte)) (s : st) : res reply :=
  match words with
  | [] => Ok ((- EAGAIN)%Z, [], s)
  | w :: args =>
      let rest := if str_eq w (text "help") then done (cli_help (table pr) cli) s else Ok ((- EAGAIN)%Z, [], s) in
      match find_entry (table pr) cli w with
      | None => rest
      | Some e =>
          match count_error e (lenN args) with
          | Some m => Ok ((- EINVAL)%Z, [Line m], s)
          | None =>
              match e_fn e with
              | Some f => do r <- command pr f args s; let '(r, o, s) := r in Ok (if (r =? - EAGAIN)%Z then (- EINVAL)%Z else r, o, s)
              | None => rest
              end
          end
      end
  end.
(** cli_handler_fn, ctl-cli.c:226-255, without the history. *)
Definition handle (pr : program) (line : list byte) (s : st) : res (list out * st) :=
  match tokenize line with
  | [] => Ok ([], s)
  | words =>
      do r <- cli_do pr true words s;
      let '(r, o, s) := r in Ok (o ++ (if (r =? - EAGAIN)%Z then [Line (text "Command not found")] else []), s)
  end.
(** ctl_fn_link_new and ctl_fn_link_free, sinkctl.c:748-775, wifictl.c:476-494; a link is gone
    with its have_p2p_scan. *)
Definition on_note (pr : program) (n : note) (s : st) : res (list out * st) :=
  match n with
  | LinkOn _ =>
      match pr, cur s, bound s with
      | Sink, None, Some t =>
          match search_link (links s) t with
          | Some l => do r <- run_on l s; let '(_, o, s) := r in Ok (o, s)
          | None => Ok ([], s)
          end
      | _, _, _ => Ok ([], s)
      end
  | LinkOff label =>
      let s := mkSt (links s) (cur s) (bound s) (filter (fun x => negb (str_eq x label)) (scans s)) in
      match cur s with
      | Some x =>
          if str_eq x label
          then Ok ([Line (match pr with Sink => text "no longer running on link " ++ label | Wifi => text "link " ++ label ++ text " deselected" end)], with_cur None s)
          else Ok ([], s)
      | None => Ok ([], s)
      end
  | _ => Ok ([], s)
  end.
Fixpoint on_notes (pr : program) (ns : list note) (s : st) : res (list out * st) :=
  match ns with
  | [] => Ok ([], s)
  | n :: ns => do r <- on_note pr n s; let '(o1, s) := r in do r <- on_notes pr ns s; let '(o2, s) := r in Ok (o1 ++ o2, s)
  end.
(** The time in which the program runs. *)
Inductive event := Typed (line : list byte) | Heard (g : signal).
Definition react (pr : program) (e : event) (s : st) : res (list out * st) :=
  match e with
  | Typed line => handle pr line s
  | Heard g => let '(c, ns) := hear (links s) g in on_notes pr ns (mkSt c (cur s) (bound s) (scans s))
  end.
Definition left (o : list out) : bool := existsb (fun x => match x with Leave => true | _ => false end) o.
(** Scans are stopped at the end, wifictl.c:537-542, sinkctl.c:865-870. *)
Fixpoint stop_scans (ls : list clink) (s : st) : res (list out * st) :=
  match ls with
  | [] => Ok ([], s)
  | l :: ls =>
      do r <- (if existsb (str_eq (cl_label l)) (scans s) then do r <- set_scanning l false s; let '(_, o, s) := r in Ok (o, s) else Ok ([], s));
      let '(o1, s) := r in do r <- stop_scans ls s; let '(o2, s) := r in Ok (o1 ++ o2, s)
  end.
(** What is left of the events after quit is not handled. *)
Fixpoint session (pr : program) (es : list event) (s : st) : res (list out * st) :=
  match es with
  | [] => stop_scans (links s) s
  | e :: es =>
      do r <- react pr e s;
      let '(o1, s) := r in
      do r <- (if left o1 then stop_scans (links s) s else session pr es s);
      let '(o2, s) := r in Ok (o1 ++ o2, s)
  end.
End Commands.

(** ** Completion, ctl-cli.c:328-632 *)
(** strncmp(name, text, n) == 0. *)
Definition same_first (n : N) (name t : list byte) : bool := str_eq (takeN n name) (takeN n t).
Definition link_names (c : client) : list (list byte) :=
  flat_map (fun l => cl_label l :: match cl_name l with Some (x :: t) => [x :: t] | _ => [] end) c.
Definition peer_names (c : client) : list (list byte) :=
  flat_map (fun l => flat_map (fun p => cp_label p :: match cp_name p with Some (x :: t) => [x :: t] | _ => [] end) (cl_peers l)) c.
(** yes_no_generator and command_generator: from list_index on. *)
Fixpoint from_index (names : list (list byte)) (t : list byte) (len idx : N) : N * option (list byte) :=
  match names with
  | [] => (idx, None)
  | n :: names => if same_first len n t then (idx + 1, Some n) else from_index names t len (idx + 1)
  end.
(** The other generators: count what fits; either the name number list_index, or the count. *)
Fixpoint counting (names : list (list byte)) (t : list byte) (len idx cnt : N) : list byte + N :=
  match names with
  | [] => inr cnt
  | n :: names => if same_first len n t then if cnt =? idx then inl n else counting names t len idx (cnt + 1) else counting names t len idx cnt
  end.
Definition found (idx : N) (r : list byte + N) : N * option (list byte) := match r with inl n => (idx + 1, Some n) | inr _ => (idx, None) end.
(** One call; [fresh]: state is 0; [(idx, len)] are the static variables. *)
Definition generate (pr : program) (c : client) (g : gen) (t : list byte) (fresh : bool) (v : N * N) : (N * N) * option (list byte) :=
  let '(idx, len) := if fresh then (0, lenN t) else v in
  let '(idx', r) :=
    match g with
    | YesNo => from_index (dropN idx [text "yes"; text "no"]) t len idx
    | Commands => from_index (dropN idx (map e_name (table pr))) t len idx
    | Links => found idx (counting (link_names c) t len idx 0)
    | Peers => found idx (counting (peer_names c) t len idx 0)
    | LinksPeers =>
        match counting (link_names c) t len idx 0 with
        | inl n => (idx + 1, Some n)
        | inr cnt => found idx (counting (peer_names c) t len idx cnt)
        end
    end in
  ((idx', len), r).
(** rl_completion_matches: calls until there is no more; [v] is left from earlier. *)
Fixpoint matches (fuel : nat) (pr : program) (c : client) (g : gen) (t : list byte) (fresh : bool) (v : N * N) : oc (list (list byte)) :=
  match fuel with
  | O => Endless
  | S fuel =>
      let '(v, r) := generate pr c g t fresh v in
      match r with
      | None => Ret []
      | Some n => match matches fuel pr c g t false v with Ret l => Ret (n :: l) | x => x end
      end
  end.
(** get_args, ctl-cli.c:577-597: positions in the line; [last]: last_delim. *)
Fixpoint args_loop (line : list byte) (pos last count : N) : N * N :=
  match line with
  | [] => (last, count)
  | x :: line => if x =? 32 then args_loop line (pos + 1) pos (if last + 1 <? pos then count + 1 else count) else args_loop line (pos + 1) last count
  end.
Definition get_args (line : list byte) : N :=
  let '(last, count) := args_loop line 0 0 0 in
  match nth_N line last with Some x => if x =? 32 then count else count + 1 | None => count + 1 end.
(** completion_fns[n - 1]. *)
Definition comp_fn (e : entry) (n : N) : res (option gen) := if n =? 0 then UB else match nth_N (e_comp e) (n - 1) with Some g => Ok g | None => UB end.
(** completion_fn, ctl-cli.c:606-632: which generator is used in the end, if any. *)
Fixpoint comp_loop (es : list entry) (line : list byte) (acc : option gen) : res (option gen) :=
  match es with
  | [] => Ok acc
  | e :: es =>
      if same_first (lenN (e_name e)) (e_name e) line
      then do g <- comp_fn e (get_args line); comp_loop es line (match g with Some g => Some g | None => acc end)
      else comp_loop es line acc
  end.
Definition completion (pr : program) (start : N) (line : list byte) : res (option gen) :=
  if start =? 0 then Ok (Some Commands) else comp_loop (table pr) line None.
