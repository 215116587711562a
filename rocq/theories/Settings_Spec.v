(** What the settings should be, said without the loops of the programs. *)
From Coq Require Import String.
From Verif Require Import Base Text Settings_Model.
From Verif Require WpasMsg_Model.
Local Open Scope list_scope.

(** ** Command lines *)
(** One option or word, as it is written, what it asks for, and the word it leaves. *)
Inductive item (st : shorts) (lt : longs) : list (list byte) -> list gev -> list (list byte) -> Prop :=
| I_flag name o : In (name, (false, o)) lt -> item st lt [text "--" ++ name] [GOpt o []] []
| I_long name o v : In (name, (true, o)) lt -> item st lt [text "--" ++ name; v] [GOpt o v] []
| I_equal name o v : In (name, (true, o)) lt -> item st lt [text "--" ++ name ++ text "=" ++ v] [GOpt o v] []
| I_letter c o : In (c, (false, o)) st -> item st lt [[DASH; c]] [GOpt o []] []
| I_short c o v : In (c, (true, o)) st -> item st lt [[DASH; c]; v] [GOpt o v] []
| I_joined c o v : In (c, (true, o)) st -> v <> [] -> item st lt [DASH :: c :: v] [GOpt o v] []
| I_word w : (forall r, w <> DASH :: r) -> item st lt [w] [] [w].
Inductive line (st : shorts) (lt : longs) : list (list byte) -> list gev -> list (list byte) -> Prop :=
| L_nil : line st lt [] [] []
| L_item ws es ops ws' es' ops' : item st lt ws es ops -> line st lt ws' es' ops' -> line st lt (ws ++ ws') (es ++ es') (ops ++ ops').
(** Words with at least one blank between them, blanks around them at will. *)
Inductive spaced : list byte -> list (list byte) -> Prop :=
| Sp_nil : spaced [] []
| Sp_blank s ws : spaced s ws -> spaced (32 :: s) ws
| Sp_last w : w <> [] -> ~ In 32 w -> spaced w [w]
| Sp_word w s ws : w <> [] -> ~ In 32 w -> spaced s ws -> spaced (w ++ 32 :: s) (w :: ws).

(** ** Which value counts *)
Definition absent (o : oid) (es : list gev) : Prop := forall v, ~ In (GOpt o v) es.
Definition last_arg (o : oid) (es : list gev) (v : list byte) : Prop := exists pre post, es = pre ++ GOpt o v :: post /\ absent o post.
(** [x] is the last argument of [o] as [read] takes it, or [d] without such an option. *)
Definition decides {A} (o : oid) (es : list gev) (read : list byte -> A) (d x : A) : Prop :=
  (forall v, last_arg o es v -> x = read v) /\ (absent o es -> x = d).
Definition switch (o : oid) (es : list gev) (d x : bool) : Prop := x = true <-> d = true \/ exists v, In (GOpt o v) es.
(** An option that ends the program at once. *)
Definition ending (finish : list oid) (e : gev) : Prop := match e with GBad => True | GOpt o _ => In o finish end.
Definition sink_finish : list oid := [OHelp; OHelpCommands; OHelpRes; OVersion].
Definition ctl_finish : list oid := [OHelp; OHelpCommands; OVersion].
Definition wifid_finish : list oid := [OHelp; OVersion].
(** The arguments that are numbers are ints. *)
Definition number_of (s : list byte) (z : Z) : Prop := WpasMsg_Model.atoi s = Ok z.
Definition ints (os : list oid) (es : list gev) : Prop := forall o v, In o os -> In (GOpt o v) es -> exists z, number_of v z.
Definition num_of (s : list byte) : Z := match WpasMsg_Model.atoi s with Ok z => z | UB => 0 end.
Definition given (k : conf) (key : string) (read : list byte -> N) (d : N) : N := match k (text key) with Some v => read v | None => d end.

(** What a file and a command line should give for the port and the player. *)
Definition port_rule (k : conf) (es : list gev) (s : settings) : Prop :=
  decides OPort es num_of (match k (text "rstp-port") with Some v => num_of v | None => 7236%Z end) (c_port s).
Definition player_rule (k : conf) (es : list gev) (s : settings) : Prop :=
  decides OPlayer es (fun v => Some v) (k (text "external-player")) (if c_external s then c_player s else None).

(** The rest of miracle-sinkctl. *)
Definition sink_rules (k : conf) (es : list gev) (s : settings) : Prop :=
  decides OLogLevel es level (given k "log-level" level NOTICE) (c_level s)
  /\ decides OJournal es level (given k "log-journal-level" level NOTICE) (c_journal s)
  /\ switch OLogDateTime es false (c_date s) /\ switch OLogTime es false (c_time s)
  /\ decides ODebug es Some None (c_debug s) /\ decides OScale es Some None (c_scale s)
  /\ decides OAudio es num_of 1%Z (c_audio s) /\ switch OUibc es false (c_uibc s)
  /\ decides OPort es num_of 7236%Z (c_port s)
  /\ decides OPlayer es Some None (if c_external s then c_player s else None)
  /\ (c_external s = true -> c_player s <> None).
Definition ctl_rules (k : conf) (es : list gev) (s : csettings) : Prop :=
  decides OLogLevel es level (given k "log-level" level NOTICE) (k_level s)
  /\ decides OJournal es level (given k "log-journal-level" level NOTICE) (k_journal s)
  /\ switch OLogDateTime es false (k_date s) /\ switch OLogTime es false (k_time s).
Definition wifid_rules (k : conf) (es : list gev) (s : wsettings) : Prop :=
  decides OLogLevel es level (given k "log-level" level NOTICE) (w_level s)
  /\ decides OWpaLevel es level (given k "wpa-log-level" level NOTICE) (w_wpa s)
  /\ decides OMethods es Some (k (text "config_methods")) (w_methods s)
  /\ decides ODriver es Some (k (text "driver-param")) (w_driver s)
  /\ decides OIp es Some (k (text "ip-binary")) (w_ip s)
  /\ decides OInterface es Some None (w_interface s)
  /\ decides OIntent es (fun v => u32_of (num_of v)) (conf_u64 k (text "go-intent") mod 2 ^ 32) (w_intent s)
  /\ switch OWpaSyslog es (conf_bool k (text "wpa-syslog")) (w_syslog s)
  /\ switch OUseDev es (conf_bool k (text "use-dev")) (w_dev s)
  /\ switch OLazy es (conf_bool k (text "lazy-managed")) (w_lazy s)
  /\ switch OLogDateTime es false (w_date s) /\ switch OLogTime es false (w_time s).

(** ** Log levels *)
Definition level_names : list (list byte) :=
  map text ["fatal"; "alert"; "critical"; "error"; "warning"; "notice"; "info"; "debug"; "trace"]%string.
(** The word is a name in any case, or a decimal number. *)
Definition names_level (w : list byte) (n : N) : Prop :=
  (exists name, nth_error level_names (N.to_nat n) = Some name /\ map lower w = name) \/ w = dec n.

(** ** The player *)
(** A value the shell scripts take as one word. *)
Definition tidy (v : list byte) : Prop := v <> [] /\ (forall c, In c v -> c <> 32 /\ c <> 9 /\ c <> 10) /\ (forall r, v <> DASH :: r).
Definition tidy_settings (s : settings) : Prop :=
  (forall d, c_debug s = Some d -> tidy d)
  /\ (forall x, c_scale s = Some x -> exists w h, x = w ++ [120] ++ h /\ tidy w /\ ~ In 44 w /\ ~ In 120 w /\ ~ In 120 h /\ (forall c, In c h -> c <> 32 /\ c <> 9 /\ c <> 10)).
Definition shows (ws : list (list byte)) (pre : string) (v : option (list byte)) : Prop :=
  forall x, In (text pre ++ x) ws <-> v = Some x.
(** What gst-launch is asked to do. *)
Definition plays (s : settings) (ws : list (list byte)) : Prop :=
  shows ws "port=" (Some (dec_int (c_port s)))
  /\ shows ws "--gst-debug=" (match c_debug s with
                              | Some d => if str_eq d (text "0") then None else Some d
                              | None => if 7 <=? c_level s then Some (text "3") else None end)
  /\ (In (text "autoaudiosink") ws <-> c_audio s <> 0%Z)
  /\ (forall w h, ~ In 120 w -> ~ In 120 h -> ~ In 44 w ->
      (In (text "video/x-raw,width=" ++ w ++ text ",height=" ++ h) ws <-> c_scale s = Some (w ++ [120] ++ h))).
(** Values that sinkctl can have. *)
Definition int_range (z : Z) : Prop := (- 2 ^ 31 <= z < 2 ^ 31)%Z.
Definition in_ints (s : settings) (e : session) : Prop :=
  int_range (c_port s) /\ int_range (se_uibc_port e) /\ int_range (se_hres e) /\ int_range (se_vres e)
  /\ (c_external s = true -> c_player s <> None).
Fixpoint joined (ws : list (list byte)) : list byte :=
  match ws with [] => [] | [w] => w | w :: ws => w ++ [32] ++ joined ws end.

(** ** The configuration of wpa_supplicant *)
Fixpoint lines (s cur : list byte) : list (list byte) :=
  match s with [] => match cur with [] => [] | _ => [cur] end | c :: s => if c =? 10 then cur :: lines s [] else lines s (cur ++ [c]) end.
(** A line "key=value". *)
Definition assigns (file : list byte) (key : string) (v : list byte) : Prop := In (text key ++ [61] ++ v) (lines file []).
Definition configures (l : wlink) (file : list byte) : Prop :=
  forall key v, In key ["device_name"; "device_type"; "config_methods"; "driver_param"; "ap_scan"; "p2p_go_intent"]%string ->
  (assigns file key v <->
   v = if String.eqb key "device_name" then or (wl_name l) (text "unknown")
       else if String.eqb key "device_type" then text "1-0050F204-1"
       else if String.eqb key "config_methods" then or (wl_methods l) (text "pbc")
       else if String.eqb key "driver_param" then or (wl_driver l) []
       else if String.eqb key "ap_scan" then text "1" else dec (wl_intent l)).
Definition one_line (v : option (list byte)) : Prop := forall x, v = Some x -> ~ In 10 x.

(** ** The options, as the help texts name them *)
Definition named (l : list (string * (bool * oid))) : longs := map (fun x => (text (fst x), snd x)) l.
Definition lettered (l : list (string * (bool * oid))) : shorts := map (fun x => (hd 0 (text (fst x)), snd x)) l.
Definition flag (o : oid) : bool * oid := (false, o).
Definition valued (o : oid) : bool * oid := (true, o).
Definition sink_names : longs := named
  [("help", flag OHelp); ("help-commands", flag OHelpCommands); ("version", flag OVersion); ("log-level", valued OLogLevel); ("log-time", flag OLogTime);
   ("log-date-time", flag OLogDateTime); ("log-journal-level", valued OJournal); ("gst-debug", valued ODebug); ("audio", valued OAudio); ("scale", valued OScale);
   ("res", valued ORes); ("help-res", flag OHelpRes); ("port", valued OPort); ("uibc", flag OUibc); ("external-player", valued OPlayer)]%string.
Definition sink_letters : shorts := lettered [("h", flag OHelp); ("e", valued OPlayer); ("p", valued OPort)]%string.
Definition ctl_names : longs := named
  [("help", flag OHelp); ("help-commands", flag OHelpCommands); ("version", flag OVersion); ("log-level", valued OLogLevel); ("log-time", flag OLogTime);
   ("log-date-time", flag OLogDateTime); ("log-journal-level", valued OJournal)]%string.
Definition ctl_letters : shorts := lettered [("h", flag OHelp)]%string.
Definition wifid_names : longs := named
  [("help", flag OHelp); ("version", flag OVersion); ("log-level", valued OLogLevel); ("log-time", flag OLogTime); ("log-date-time", flag OLogDateTime);
   ("wpa-loglevel", valued OWpaLevel); ("wpa-syslog", flag OWpaSyslog); ("interface", valued OInterface); ("use-dev", flag OUseDev); ("config-methods", valued OMethods);
   ("lazy-managed", flag OLazy); ("ip-binary", valued OIp); ("go-intent", valued OIntent); ("driver-param", valued ODriver)]%string.
Definition wifid_letters : shorts := lettered [("h", flag OHelp); ("i", valued OInterface)]%string.
(** What autocmd adds. *)
Definition auto_adds (k : conf) (es : list gev) (ops : list (list byte)) : Prop :=
  match k (text "autocmd") with
  | None => es = [] /\ ops = []
  | Some v => exists ws, spaced v ws /\ line sink_letters sink_names ws es ops
  end.
(** ** The pipeline of miracle-gst, as one text *)
Definition pipeline (debug : option (list byte)) (port : list byte) (scale : option (list byte * list byte)) (audio : bool) : list byte :=
  text "/usr/bin/gst-launch-1.0 -v " ++ match debug with Some d => text "--gst-debug=" ++ d ++ text " " | None => [] end
  ++ text "udpsrc port=" ++ port ++ text " caps=""application/x-rtp, media=video"" ! rtpjitterbuffer latency=100 ! rtpmp2tdepay ! tsdemux "
  ++ (if audio then text "name=demuxer demuxer. " else [])
  ++ text "! queue max-size-buffers=0 max-size-time=0 ! h264parse ! avdec_h264 ! videoconvert ! "
  ++ match scale with Some (w, h) => text "videoscale method=1 ! video/x-raw,width=" ++ w ++ text ",height=" ++ h ++ text " ! " | None => [] end
  ++ text "autovideosink"
  ++ (if audio then text " demuxer. ! queue max-size-buffers=0 max-size-time=0 ! aacparse ! avdec_aac ! audioconvert ! audioresample ! autoaudiosink" else []).
