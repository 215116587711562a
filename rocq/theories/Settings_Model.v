(** Model of the settings of the three programs: command line, configuration file,
    and what is made of them: the command line of the player, the command line and
    the configuration of wpa_supplicant. *)
From Coq Require Import String.
From Verif Require Import Base Text.
From Verif Require WpasMsg_Model Sink_Model.
Local Open Scope list_scope.
(** "%d". *)
Notation dec_int := Sink_Model.dec_int.

(** ** getopt_long(3) of glibc, with the tables of the programs *)
Inductive oid :=
| OHelp | OHelpCommands | OVersion | OLogLevel | OLogTime | OLogDateTime | OJournal | ODebug | OAudio | OScale | ORes
| OHelpRes | OPort | OUibc | OPlayer | OWpaLevel | OWpaSyslog | OInterface | OUseDev | OMethods | OLazy | OIp | OIntent | ODriver
| ONetdev | OCommFd | OServer | OPrefix | OLocal | OGateway | ODns | OSubnet | OFrom | OTo | OLetterS.
(** What a call returns: an option with its argument ([[]] if it takes none), or '?'. *)
Inductive gev := GOpt (o : oid) (arg : list byte) | GBad.
Definition shorts : Type := list (byte * (bool * oid)).
Definition longs : Type := list (list byte * (bool * oid)).

Fixpoint find_short (st : shorts) (c : byte) : option (bool * oid) :=
  match st with [] => None | (d, x) :: st => if d =? c then Some x else find_short st c end.
Definition prefix (p s : list byte) : bool := str_eq (takeN (lenN p) s) p.
Fixpoint find_exact (lt : longs) (n : list byte) : option (bool * oid) :=
  match lt with [] => None | (m, x) :: lt => if str_eq m n then Some x else find_exact lt n end.
(** An exact name, or the beginning of exactly one. *)
Definition find_long (lt : longs) (n : list byte) : option (bool * oid) :=
  match find_exact lt n with
  | Some x => Some x
  | None => match filter (fun e => prefix n (fst e)) lt with [(_, x)] => Some x | _ => None end
  end.
(** The letters of one word; the option that takes the next word, if any. *)
Fixpoint cluster (st : shorts) (w : list byte) : list gev * option oid :=
  match w with
  | [] => ([], None)
  | c :: w =>
      match find_short st c with
      | None => let '(e, n) := cluster st w in (GBad :: e, n)
      | Some (false, o) => let '(e, n) := cluster st w in (GOpt o [] :: e, n)
      | Some (true, o) => match w with [] => ([], Some o) | _ => ([GOpt o w], None) end
      end
  end.
Definition DASH : byte := 45.
Inductive shape := SEnd | SLong (w : list byte) | SShort (w : list byte) | SWord.
Definition shape_of (w : list byte) : shape :=
  match w with
  | c :: d :: r => if c =? DASH then if d =? DASH then match r with [] => SEnd | _ => SLong r end else SShort (d :: r) else SWord
  | _ => SWord
  end.
Definition before {A B} (l : list A) (p : list A * B) : list A * B := (l ++ fst p, snd p).
(** All options of the words in order, and the words argv[optind..] at the end. *)
Fixpoint getopt (st : shorts) (lt : longs) (argv ops : list (list byte)) : list gev * list (list byte) :=
  match argv with
  | [] => ([], ops)
  | w :: r =>
      match shape_of w with
      | SEnd => ([], ops ++ r)
      | SLong t =>
          let '(name, v) := break_at 61 t in
          match find_long lt name with
          | None => before [GBad] (getopt st lt r ops)
          | Some (false, o) => before [match v with None => GOpt o [] | Some _ => GBad end] (getopt st lt r ops)
          | Some (true, o) =>
              match v with
              | Some v => before [GOpt o (tl v)] (getopt st lt r ops)
              | None => match r with a :: r => before [GOpt o a] (getopt st lt r ops) | [] => ([GBad], ops) end
              end
          end
      | SShort t =>
          let '(e, n) := cluster st t in
          match n with
          | None => before e (getopt st lt r ops)
          | Some o => match r with a :: r => before (e ++ [GOpt o a]) (getopt st lt r ops) | [] => (e ++ [GBad], ops) end
          end
      | SWord => getopt st lt r (ops ++ [w])
      end
  end.

(** ** Log levels, shl_log.c:279-320 *)
Definition is_dec (c : byte) : bool := (48 <=? c) && (c <=? 57).
Definition hex_of (c : byte) : option N :=
  if is_dec c then Some (c - 48)
  else if (97 <=? lower c) && (lower c <=? 102) then Some (lower c - 87) else None.
Definition digit_of (base : N) (c : byte) : option N :=
  match hex_of c with Some v => if v <? base then Some v else None | None => None end.
Fixpoint number (base : N) (s : list byte) (acc : N) : N * list byte :=
  match s with
  | [] => (acc, [])
  | c :: t => match digit_of base c with Some v => number base t (acc * base + v) | None => (acc, s) end
  end.
(** strtoul(s, &end, 0): the value; whether it consumed all of a non-empty number. *)
Definition strtoul (s : list byte) : N * bool :=
  let s := WpasMsg_Model.skip_space s in
  let '(neg, s) := match s with
                   | c :: t => if c =? 45 then (true, t) else if c =? 43 then (false, t) else (false, s)
                   | [] => (false, []) end in
  let '(base, s) := match s with
                    | 48 :: x :: d :: t => if (lower x =? 120) && (match digit_of 16 d with Some _ => true | None => false end)
                                           then (16, d :: t) else (8, s)
                    | 48 :: _ => (8, s)
                    | _ => (10, s) end in
  let '(v, rest) := number base s 0 in
  let whole := match s with c :: _ => (match digit_of base c with Some _ => true | None => false end)
                                      && (match rest with [] => true | _ => false end) | [] => false end in
  (if 2 ^ 64 <=? v then 2 ^ 64 - 1 else if neg then (2 ^ 64 - v) mod 2 ^ 64 else v, whole).
Definition levels : list (list byte * N) :=
  [(text "fatal", 0); (text "alert", 1); (text "critical", 2); (text "error", 3); (text "warning", 4);
   (text "notice", 5); (text "info", 6); (text "debug", 7); (text "trace", 8)].
Fixpoint level_of (ls : list (list byte * N)) (s : list byte) : option N :=
  match ls with [] => None | (n, v) :: ls => if case_eq s n then Some v else level_of ls s end.
Definition INT_MAX : N := 2 ^ 31 - 1.
(** The level, an unsigned int, and whether an error message is logged. The long
    [val] is negative from 2^63 on. *)
Definition log_parse_arg (s : list byte) : N * bool :=
  match level_of levels s with
  | Some v => (v, false)
  | None =>
      let '(v, whole) := strtoul s in
      (if v <? 2 ^ 63 then if INT_MAX <? v then INT_MAX else v
       else if v <? 2 ^ 64 - 2 ^ 31 then 2 ^ 31 else v mod 2 ^ 32, negb whole)
  end.
Definition level (s : list byte) : N := fst (log_parse_arg s).
Definition NOTICE : N := 5.

(** ** Configuration file *)
(** The group of the program in the file load_ini_file finds (util.h:36-65): the
    value of a key. Without a file no key has a value. *)
Definition conf : Type := list byte -> option (list byte).
(** g_key_file_get_boolean with the default FALSE. *)
Definition conf_bool (k : conf) (key : list byte) : bool :=
  match k key with Some v => str_eq v (text "true") || str_eq v (text "1") | None => false end.
(** g_key_file_get_uint64: 0 if there is no number. *)
Definition conf_u64 (k : conf) (key : list byte) : N :=
  match k key with
  | None => 0
  | Some v =>
      let s := WpasMsg_Model.skip_space v in
      let '(neg, s) := match s with
                       | c :: t => if c =? 45 then (true, t) else if c =? 43 then (false, t) else (false, s)
                       | [] => (false, []) end in
      match s, number 10 s 0 with
      | c :: _, (n, []) => if is_dec c then if 2 ^ 64 <=? n then 2 ^ 64 - 1 else if neg then (2 ^ 64 - n) mod 2 ^ 64 else n else 0
      | _, _ => 0
      end
  end.

(** ** miracle-sinkctl *)
(** sinkctl.c:892-909. *)
Definition sink_longs : longs :=
  [(text "help", (false, OHelp)); (text "help-commands", (false, OHelpCommands)); (text "version", (false, OVersion));
   (text "log-level", (true, OLogLevel)); (text "log-time", (false, OLogTime)); (text "log-date-time", (false, OLogDateTime));
   (text "log-journal-level", (true, OJournal)); (text "gst-debug", (true, ODebug)); (text "audio", (true, OAudio));
   (text "scale", (true, OScale)); (text "res", (true, ORes)); (text "help-res", (false, OHelpRes)); (text "port", (true, OPort));
   (text "uibc", (false, OUibc)); (text "external-player", (true, OPlayer))].
(** "he:p:". *)
Definition sink_shorts : shorts := [(104, (false, OHelp)); (101, (true, OPlayer)); (112, (true, OPort))].

(** The variables of sinkctl.c:71-83, ctl-cli.c:50, shl_log.c:88 and of log_init_time;
    [c_res] are the arguments of --res. *)
Record settings := mkSettings {
  c_level : N; c_journal : N; c_date : bool; c_time : bool; c_debug : option (list byte); c_audio : Z; c_scale : option (list byte);
  c_res : list (list byte); c_port : Z; c_uibc : bool; c_external : bool; c_player : option (list byte) }.
Definition DEFAULT_PORT : Z := 7236.
Definition start : settings := mkSettings NOTICE NOTICE false false None 1 None [] 0 false false None.
Inductive flow (A : Type) := Go (s : A) | Finish | Refuse.
Arguments Go {A} _.
Arguments Finish {A}.
Arguments Refuse {A}.

(** One round of the loop of parse_argv, sinkctl.c:917-970. *)
Definition sink_opt (e : gev) (s : settings) : res (flow settings) :=
  let '(mkSettings l j d t g a sc r p u x pl) := s in
  match e with
  | GBad => Ok Refuse
  | GOpt o arg =>
      match o with
      | OHelp | OHelpCommands | OHelpRes | OVersion => Ok Finish
      | OLogLevel => Ok (Go (mkSettings (level arg) j d t g a sc r p u x pl))
      | OLogTime => Ok (Go (mkSettings l j d true g a sc r p u x pl))
      | OLogDateTime => Ok (Go (mkSettings l j true t g a sc r p u x pl))
      | ODebug => Ok (Go (mkSettings l j d t (Some arg) a sc r p u x pl))
      | OJournal => Ok (Go (mkSettings l (level arg) d t g a sc r p u x pl))
      | OAudio => do z <- WpasMsg_Model.atoi arg; Ok (Go (mkSettings l j d t g z sc r p u x pl))
      | OScale => Ok (Go (mkSettings l j d t g a (Some arg) r p u x pl))
      | ORes => Ok (Go (mkSettings l j d t g a sc (r ++ [arg]) p u x pl))
      | OPort => do z <- WpasMsg_Model.atoi arg; Ok (Go (mkSettings l j d t g a sc r z u x pl))
      | OPlayer => Ok (Go (mkSettings l j d t g a sc r p u true (Some arg)))
      | OUibc => Ok (Go (mkSettings l j d t g a sc r p true x pl))
      | _ => Ok (Go s)
      end
  end.
Fixpoint rounds {A} (f : gev -> A -> res (flow A)) (es : list gev) (s : A) : res (flow A) :=
  match es with
  | [] => Ok (Go s)
  | e :: es => do x <- f e s; match x with Go s => rounds f es s | Finish => Ok Finish | Refuse => Ok Refuse end
  end.
(** g_strsplit(s, " ", -1) without the empty parts, sinkctl.c:1010-1027. *)
Fixpoint parts (s cur : list byte) : list (list byte) :=
  match s with
  | [] => [cur]
  | c :: s => if c =? 32 then cur :: parts s [] else parts s (cur ++ [c])
  end.
Definition auto_words (v : list byte) : list (list byte) :=
  filter (fun w => negb (str_eq w [])) (match v with [] => [] | _ => parts v [] end).
(** main before parse_argv, sinkctl.c:984-1046: the variables and the words. *)
Definition sink_conf (k : conf) (s : settings) : res settings :=
  let '(mkSettings l j d t g a sc r p u x pl) := s in
  let '(x, pl) := match k (text "external-player") with Some v => (true, Some v) | None => (x, None) end in
  let j := match k (text "log-journal-level") with Some v => level v | None => j end in
  let l := match k (text "log-level") with Some v => level v | None => l end in
  do p <- match k (text "rstp-port") with Some v => WpasMsg_Model.atoi v | None => Ok p end;
  Ok (mkSettings l j d t g a sc r p u x pl).
Definition auto (k : conf) : list (list byte) := match k (text "autocmd") with Some v => auto_words v | None => [] end.
(** The assignments before the loop, sinkctl.c:912-915. *)
Definition sink_reset (s : settings) : settings :=
  let '(mkSettings l j d t g a sc r p u x pl) := s in mkSettings l j d t g a sc r DEFAULT_PORT false false pl.
(** main up to ctl_main, sinkctl.c:975-1058: the settings and the words of the
    command, or the end. [argv] are the words after argv[0]. *)
Definition sinkctl (k : conf) (argv : list (list byte)) : res (flow (settings * list (list byte))) :=
  do s <- sink_conf k start;
  let '(es, ops) := getopt sink_shorts sink_longs (argv ++ auto k) [] in
  do x <- rounds sink_opt es (sink_reset s);
  Ok match x with Go s => Go (s, ops) | Finish => Finish | Refuse => Refuse end.

(** ** miracle-wifictl: wifictl.c:582-656 *)
Definition ctl_longs : longs :=
  [(text "help", (false, OHelp)); (text "help-commands", (false, OHelpCommands)); (text "version", (false, OVersion));
   (text "log-level", (true, OLogLevel)); (text "log-time", (false, OLogTime)); (text "log-date-time", (false, OLogDateTime));
   (text "log-journal-level", (true, OJournal))].
Definition ctl_shorts : shorts := [(104, (false, OHelp))].
Record csettings := mkC { k_level : N; k_journal : N; k_date : bool; k_time : bool }.
Definition ctl_opt (e : gev) (s : csettings) : res (flow csettings) :=
  let '(mkC l j d t) := s in
  match e with
  | GBad => Ok Refuse
  | GOpt o arg =>
      match o with
      | OHelp | OHelpCommands | OVersion => Ok Finish
      | OLogLevel => Ok (Go (mkC (level arg) j d t))
      | OLogTime => Ok (Go (mkC l j d true))
      | OLogDateTime => Ok (Go (mkC l j true t))
      | OJournal => Ok (Go (mkC l (level arg) d t))
      | _ => Ok (Go s)
      end
  end.
Definition wifictl (k : conf) (argv : list (list byte)) : res (flow (csettings * list (list byte))) :=
  let j := match k (text "log-journal-level") with Some v => level v | None => NOTICE end in
  let l := match k (text "log-level") with Some v => level v | None => NOTICE end in
  let '(es, ops) := getopt ctl_shorts ctl_longs argv [] in
  do x <- rounds ctl_opt es (mkC l j false false);
  Ok match x with Go s => Go (s, ops) | Finish => Finish | Refuse => Refuse end.

(** ** miracle-wifid *)
(** wifid.c:536-553. *)
Definition wifid_longs : longs :=
  [(text "help", (false, OHelp)); (text "version", (false, OVersion)); (text "log-level", (true, OLogLevel));
   (text "log-time", (false, OLogTime)); (text "log-date-time", (false, OLogDateTime)); (text "wpa-loglevel", (true, OWpaLevel));
   (text "wpa-syslog", (false, OWpaSyslog)); (text "interface", (true, OInterface)); (text "use-dev", (false, OUseDev));
   (text "config-methods", (true, OMethods)); (text "lazy-managed", (false, OLazy)); (text "ip-binary", (true, OIp));
   (text "go-intent", (true, OIntent)); (text "driver-param", (true, ODriver))].
(** "hi:". *)
Definition wifid_shorts : shorts := [(104, (false, OHelp)); (105, (true, OInterface))].
(** wifid.c:45-53, shl_log.c:88. *)
Record wsettings := mkW {
  w_level : N; w_date : bool; w_time : bool; w_interface : option (list byte); w_methods : option (list byte); w_wpa : N; w_intent : N;
  w_driver : option (list byte); w_syslog : bool; w_dev : bool; w_lazy : bool; w_ip : option (list byte) }.
Definition wifid_start : wsettings := mkW NOTICE false false None None NOTICE 0 None false false false None.
Definition u32_of (z : Z) : N := Z.to_N (z mod 2 ^ 32).
(** load_ini_config, wifid.c:617-640. *)
Definition wifid_conf (file : bool) (k : conf) (s : wsettings) : wsettings :=
  if negb file then s else
  mkW (match k (text "log-level") with Some v => level v | None => w_level s end)
      (w_date s) (w_time s) (w_interface s) (k (text "config_methods"))
      (match k (text "wpa-log-level") with Some v => level v | None => w_wpa s end)
      (conf_u64 k (text "go-intent") mod 2 ^ 32) (k (text "driver-param"))
      (conf_bool k (text "wpa-syslog")) (conf_bool k (text "use-dev")) (conf_bool k (text "lazy-managed")) (k (text "ip-binary")).
(** The loop of parse_argv, wifid.c:556-601. *)
Definition wifid_opt (e : gev) (s : wsettings) : res (flow wsettings) :=
  let '(mkW l d t i m w g dp sy dev lz ip) := s in
  match e with
  | GBad => Ok Refuse
  | GOpt o arg =>
      match o with
      | OHelp | OVersion => Ok Finish
      | OInterface => Ok (Go (mkW l d t (Some arg) m w g dp sy dev lz ip))
      | OLogLevel => Ok (Go (mkW (level arg) d t i m w g dp sy dev lz ip))
      | OLogTime => Ok (Go (mkW l d true i m w g dp sy dev lz ip))
      | OLogDateTime => Ok (Go (mkW l true t i m w g dp sy dev lz ip))
      | OUseDev => Ok (Go (mkW l d t i m w g dp sy true lz ip))
      | OMethods => Ok (Go (mkW l d t i (Some arg) w g dp sy dev lz ip))
      | OLazy => Ok (Go (mkW l d t i m w g dp sy dev true ip))
      | OWpaLevel => Ok (Go (mkW l d t i m (level arg) g dp sy dev lz ip))
      | OWpaSyslog => Ok (Go (mkW l d t i m w g dp true dev lz ip))
      | OIp => Ok (Go (mkW l d t i m w g dp sy dev lz (Some arg)))
      | OIntent => do z <- WpasMsg_Model.atoi arg; Ok (Go (mkW l d t i m w (u32_of z) dp sy dev lz ip))
      | ODriver => Ok (Go (mkW l d t i m w g (Some arg) sy dev lz ip))
      | _ => Ok (Go s)
      end
  end.
(** main up to manager_new, wifid.c:642-655, with the end of parse_argv (603-614). *)
Definition wifid (file : bool) (k : conf) (argv : list (list byte)) : res (flow wsettings) :=
  let '(es, ops) := getopt wifid_shorts wifid_longs argv [] in
  do x <- rounds wifid_opt es (wifid_conf file k wifid_start);
  Ok match x with Go s => match ops with [] => Go s | _ => Refuse end | Finish => Finish | Refuse => Refuse end.

(** ** The command line of the player, sinkctl.c:493-560 *)
Definition WORDS : N := 64.
Definition CHARS : N := 64.
(** sprintf into a buffer of [CHARS] bytes. *)
Definition print (s : list byte) : res (list byte) := if lenN s + 1 <=? CHARS then Ok s else UB.
(** The session: target address, the port of UIBC, whether it is enabled, the
    resolution. *)
Record session := mkSession { se_target : list byte; se_uibc : bool; se_uibc_port : Z; se_hres : Z; se_vres : Z }.
Definition player_argv (s : settings) (e : session) : res (list (list byte)) :=
  do player <- (if c_external s then match c_player s with Some p => Ok p | None => UB end
                else Ok (if se_uibc e then text "uibc-viewer" else text "miracle-gst"));
  do uibc <- (if se_uibc e then do p <- print (dec_int (se_uibc_port e)); Ok [se_target e; p] else Ok []);
  let debug := match c_debug s with Some d => [text "-d"; d] | None => if 7 <=? c_level s then [text "-d"; text "3"] else [] end in
  let audio := if (c_audio s =? 0)%Z then [] else [text "-a"] in
  let scale := match c_scale s with Some x => [text "-s"; x] | None => [] end in
  do port <- print (dec_int (c_port s));
  do resolution <- (if (se_hres e =? 0)%Z || (se_vres e =? 0)%Z then Ok []
                    else do r <- print (dec_int (se_hres e) ++ text "x" ++ dec_int (se_vres e)); Ok [text "-r"; r]);
  let argv := player :: uibc ++ debug ++ audio ++ scale ++ [text "-p"; port] ++ resolution in
  if lenN argv + 1 <=? WORDS then Ok argv else UB.
(** The size of the allocation, and what strcpy and strcat leave in it (545-552). *)
Definition command_size (argv : list (list byte)) : N := fold_right (fun w n => lenN w + 1 + n) 0 argv.
Fixpoint append (size : N) (buf : list byte) (argv : list (list byte)) : res (list byte) :=
  match argv with
  | [] => Ok buf
  | w :: argv =>
      if lenN buf + 1 + 1 <=? size then
        let buf := buf ++ text " " in
        if lenN buf + lenN w + 1 <=? size then append size (buf ++ w) argv else UB
      else UB
  end.
Definition command (argv : list (list byte)) : res (list byte) :=
  match argv with
  | [] => UB
  | w :: r => if lenN w + 1 <=? command_size argv then append (command_size argv) w r else UB
  end.

(** ** The players of res/ *)
(** getopts of bash stops at the first word that is no option. *)
Inductive pev := PArg (c : byte) (v : list byte) | PFlag (c : byte) | PUnknown.
Definition takes (c : byte) : option bool :=
  if (c =? 114) || (c =? 100) || (c =? 115) || (c =? 112) then Some true else if (c =? 97) || (c =? 104) then Some false else None.
Fixpoint letters (w : list byte) : list pev * option byte :=
  match w with
  | [] => ([], None)
  | c :: w =>
      match takes c with
      | None => let '(e, n) := letters w in (PUnknown :: e, n)
      | Some false => let '(e, n) := letters w in (PFlag c :: e, n)
      | Some true => match w with [] => ([], Some c) | _ => ([PArg c w], None) end
      end
  end.
Fixpoint getopts (argv : list (list byte)) : list pev :=
  match argv with
  | [] => []
  | w :: r =>
      match shape_of w with
      | SEnd | SWord => []
      | SLong t => PUnknown :: fst (letters t)
      | SShort t =>
          let '(e, n) := letters t in
          match n with
          | None => e ++ getopts r
          | Some c => match r with a :: r => e ++ PArg c a :: getopts r | [] => e ++ [PUnknown] end
          end
      end
  end.
(** `echo ${OPTARG} | tr -d ' '`: the words without the blanks; leading words
    that are options of echo go. *)
Definition blank (c : byte) : bool := (c =? 32) || (c =? 9) || (c =? 10).
Fixpoint fields (s cur : list byte) : list (list byte) :=
  match s with
  | [] => match cur with [] => [] | _ => [cur] end
  | c :: s => if blank c then match cur with [] => fields s [] | _ => cur :: fields s [] end else fields s (cur ++ [c])
  end.
Definition echo_flag (w : list byte) : bool :=
  match w with c :: d :: r => (c =? 45) && forallb (fun x => (x =? 110) || (x =? 101) || (x =? 69)) (d :: r) | _ => false end.
Fixpoint echoed (ws : list (list byte)) : list byte :=
  match ws with [] => [] | w :: r => if echo_flag w then echoed r else concat ws end.
Definition shell (v : list byte) : list byte := echoed (fields v []).
(** `cut -dx -f 1` and `-f 2` of one line. *)
Definition cut1 (s : list byte) : list byte := fst (break_at 120 s).
Definition cut2 (s : list byte) : list byte :=
  match snd (break_at 120 s) with Some r => fst (break_at 120 (tl r)) | None => s end.
Record pstate := mkP { p_debug : list byte; p_audio : bool; p_scale : option (list byte * list byte); p_port : list byte; p_res : list byte }.
Definition pstart : pstate := mkP (text "0") false None [] [].
(** The loop, res/miracle-gst:37-71, miracle-vlc, miracle-omxplayer; [None]: the help. *)
Fixpoint player_loop (es : list pev) (p : pstate) : option pstate :=
  match es with
  | [] => Some p
  | PUnknown :: es => player_loop es p
  | PFlag c :: es => if c =? 104 then None else player_loop es (mkP (p_debug p) true (p_scale p) (p_port p) (p_res p))
  | PArg c v :: es =>
      let v := shell v in
      player_loop es (if c =? 100 then mkP v (p_audio p) (p_scale p) (p_port p) (p_res p)
                      else if c =? 114 then mkP (p_debug p) (p_audio p) (p_scale p) (p_port p) v
                      else if c =? 112 then mkP (p_debug p) (p_audio p) (p_scale p) v (p_res p)
                      else mkP (p_debug p) (p_audio p) (Some (cut1 v, cut2 v)) (p_port p) (p_res p))
  end.
Definition run_player (argv : list (list byte)) : option pstate := player_loop (getopts argv) pstart.
(** The words of the pipeline, res/miracle-gst:73-99, with [exec ${RUN}]: values
    with blanks fall apart. *)
Definition W (s : string) : list (list byte) := fields (text s) [].
Definition gst_words (p : pstate) : list (list byte) :=
  W "/usr/bin/gst-launch-1.0 -v"
  ++ (if str_eq (p_debug p) (text "0") then [] else [text "--gst-debug=" ++ p_debug p])
  ++ W "udpsrc" ++ [text "port=" ++ p_port p]
  ++ W "caps=""application/x-rtp, media=video"" ! rtpjitterbuffer latency=100 ! rtpmp2tdepay ! tsdemux"
  ++ (if p_audio p then W "name=demuxer demuxer." else [])
  ++ W "! queue max-size-buffers=0 max-size-time=0 ! h264parse ! avdec_h264 ! videoconvert !"
  ++ match p_scale p with
     | Some (w, h) => W "videoscale method=1 !" ++ [text "video/x-raw,width=" ++ w ++ text ",height=" ++ h] ++ W "!"
     | None => [] end
  ++ W "autovideosink"
  ++ (if p_audio p then W "demuxer. ! queue max-size-buffers=0 max-size-time=0 ! aacparse ! avdec_aac ! audioconvert ! audioresample ! autoaudiosink" else []).
(** res/uibc-viewer: IP and port, and the words `$@` of gstplayer. *)
Definition viewer (argv : list (list byte)) : list byte * list byte * list (list byte) :=
  match argv with
  | ip :: port :: r => (ip, port, concat (map (fun w => fields w []) r))
  | [ip] => (ip, [], []) | [] => ([], [], [])
  end.

(** res/gstplayer:200-222 takes the same letters; the sound is on from the start,
    and the port is 7236. Values with blanks are not modelled. *)
Definition gstplayer (argv : list (list byte)) : option pstate :=
  player_loop (getopts argv) (mkP (text "0") true None (text "7236") []).

(** ** wpa_supplicant *)
(** The link gets the settings of the manager: wifid.c:99-119, wifid-link.c:152-191. *)
Record wlink := mkWLink { wl_ifname : list byte; wl_name : option (list byte); wl_methods : option (list byte); wl_driver : option (list byte); wl_intent : N }.
Definition new_link (s : wsettings) (ifname : list byte) : wlink :=
  mkWLink ifname None (w_methods s) (w_driver s) (if 15 <? w_intent s then 0 else w_intent s).
(** supplicant_run, wifid-supplicant.c:2424-2450. *)
Definition wpa_argv (s : wsettings) (binary conf_path ifname ctrl : list byte) : list (list byte) :=
  [binary]
  ++ (if 7 <=? w_wpa s then [text "-dd"] else if 6 <=? w_wpa s then [text "-d"]
      else if w_wpa s <? 3 then [text "-qq"] else if w_wpa s <? 5 then [text "-q"] else [])
  ++ [text "-c"; conf_path; text "-C"; text "/run/miracle/wifi"; text "-i"; ifname; text "-g"; ctrl]
  ++ (if w_syslog s then [text "-s"] else []).
(** supplicant_write_config, wifid-supplicant.c:2628-2643. *)
Definition or {A} (x : option A) (d : A) : A := match x with Some a => a | None => d end.
Definition NL : list byte := [10].
Definition wpa_conf (l : wlink) : list byte :=
  text "# Generated configuration - DO NOT EDIT!" ++ NL
  ++ text "device_name=" ++ or (wl_name l) (text "unknown") ++ NL
  ++ text "device_type=" ++ text "1-0050F204-1" ++ NL
  ++ text "config_methods=" ++ or (wl_methods l) (text "pbc") ++ NL
  ++ text "driver_param=" ++ or (wl_driver l) [] ++ NL
  ++ text "ap_scan=" ++ text "1" ++ NL
  ++ text "p2p_go_intent=" ++ dec (wl_intent l) ++ NL
  ++ text "# End of configuration" ++ NL.
