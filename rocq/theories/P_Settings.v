(** Properties C142 .. C147: settings of the programs. *)
From Coq Require Import String.
From Verif Require Import Base Text Atoi_Spec Settings_Model Settings_Spec Settings_Proofs Settings_Player Settings_Num Settings_Cex.
From Verif Require WpasMsg_Model.
Local Open Scope list_scope.

(** C142. Options of miracle-sinkctl count before its configuration file, and
    that before the defaults: the port and the player of the file are lost, and
    the options in autocmd count before those of the command line. *)
Theorem C142_port_refuted : exists k s, sinkctl k [] = Ok (Go (s, [])) /\ k (text "rstp-port") = Some (text "7000") /\ ~ port_rule k [] s.
Proof. exact port_lost. Qed.
Print Assumptions C142_port_refuted.
Theorem C142_player_refuted : exists k s, sinkctl k [] = Ok (Go (s, [])) /\ k (text "external-player") = Some (text "miracle-vlc") /\ ~ player_rule k [] s.
Proof. exact player_lost. Qed.
Print Assumptions C142_player_refuted.
Theorem C142_autocmd_refuted : exists k argv es s, line sink_letters sink_names argv es [] /\ sinkctl k argv = Ok (Go (s, []))
  /\ last_arg OLogLevel es (text "error") /\ level (text "error") = 3 /\ c_level s = 8.
Proof. exact file_first. Qed.
Print Assumptions C142_autocmd_refuted.
(** What holds for every command line: the settings are those of [sink_rules], over
    the options of the command line and then those of autocmd; the command is the
    other words, those of autocmd last. *)
Theorem C142_settings_partial : forall k argv es ops aes aops,
  line sink_letters sink_names argv es ops -> auto_adds k aes aops -> conf_int k ->
  (forall e, In e (es ++ aes) -> ~ ending sink_finish e) -> ints [OPort; OAudio] (es ++ aes) ->
  exists s, sinkctl k argv = Ok (Go (s, ops ++ aops)) /\ sink_rules k (es ++ aes) s.
Proof. exact sink_starts. Qed.
Print Assumptions C142_settings_partial.
Theorem C142_ends_partial : forall k argv es ops aes aops pre e post,
  line sink_letters sink_names argv es ops -> auto_adds k aes aops -> conf_int k -> es ++ aes = pre ++ e :: post ->
  (forall x, In x pre -> ~ ending sink_finish x) -> ints [OPort; OAudio] pre -> ending sink_finish e ->
  sinkctl k argv = Ok (match e with GBad => Refuse | _ => Finish end).
Proof. exact sink_finishes. Qed.
Print Assumptions C142_ends_partial.
(** Every value of autocmd falls into words. *)
Theorem C142_words : forall s, exists ws, spaced s ws /\ auto_words s = ws.
Proof. exact (fun s => match spaced_total s with ex_intro _ ws H => ex_intro _ ws (conj H (auto_spaced s ws H)) end). Qed.
Print Assumptions C142_words.

(** C143. A word that is no log level is refused: it silences the program. *)
Theorem C143_typo_refuted : exists w s, (forall n, ~ names_level w n) /\ sinkctl (fun _ => None) [text "--log-level"; w] = Ok (Go (s, [])) /\ c_level s = 0.
Proof. exact typo. Qed.
Print Assumptions C143_typo_refuted.
Theorem C143_names_partial : forall w n, names_level w n -> n <= INT_MAX -> log_parse_arg w = (n, false).
Proof. exact level_named. Qed.
Print Assumptions C143_names_partial.
Theorem C143_large_partial : forall n, INT_MAX < n -> INT_MAX <= level (Text.dec n).
Proof. exact (fun n => proj2 (level_number n)). Qed.
Print Assumptions C143_large_partial.
(** Numbers in C's three bases. *)
Theorem C143_hex_partial : forall x s vs, (x = 120 \/ x = 88) -> s <> [] -> Forall2 (digit 16) s vs -> num 16 vs <= INT_MAX ->
  log_parse_arg (48 :: x :: s) = (num 16 vs, false).
Proof. exact level_hex. Qed.
Print Assumptions C143_hex_partial.
Theorem C143_octal_partial : forall s vs, Forall2 (digit 8) s vs -> num 8 vs <= INT_MAX -> log_parse_arg (48 :: s) = (num 8 vs, false).
Proof. exact level_oct. Qed.
Print Assumptions C143_octal_partial.

(** C144. The settings of miracle-wifictl and miracle-wifid. *)
Theorem C144_wifictl : forall k argv es ops, line ctl_letters ctl_names argv es ops -> (forall e, In e es -> ~ ending ctl_finish e) ->
  exists s, wifictl k argv = Ok (Go (s, ops)) /\ ctl_rules k es s.
Proof. exact ctl_starts. Qed.
Print Assumptions C144_wifictl.
Theorem C144_wifid : forall file k argv es ops, (file = false -> forall key, k key = None) -> line wifid_letters wifid_names argv es ops ->
  (forall e, In e es -> ~ ending wifid_finish e) -> ints [OIntent] es ->
  (ops = [] -> exists s, wifid file k argv = Ok (Go s) /\ wifid_rules k es s) /\ (ops <> [] -> wifid file k argv = Ok Refuse).
Proof. exact wifid_starts. Qed.
Print Assumptions C144_wifid.
Theorem C144_wifid_ends : forall file k argv es ops pre e post, (file = false -> forall key, k key = None) ->
  line wifid_letters wifid_names argv es ops -> es = pre ++ e :: post -> (forall x, In x pre -> ~ ending wifid_finish x) -> ints [OIntent] pre ->
  ending wifid_finish e -> wifid file k argv = Ok (match e with GBad => Refuse | _ => Finish end).
Proof. exact wifid_finishes. Qed.
Print Assumptions C144_wifid_ends.
(** Numbers of the file; a sign makes a number wrap around. *)
Theorem C144_number : forall k key n, n < 2 ^ 64 ->
  (k key = Some (Text.dec n) -> conf_u64 k key = n) /\ (k key = Some (text "+" ++ Text.dec n) -> conf_u64 k key = n)
  /\ (k key = Some (text "-" ++ Text.dec n) -> conf_u64 k key = (2 ^ 64 - n) mod 2 ^ 64).
Proof. exact u64_number. Qed.
Print Assumptions C144_number.

(** C145. The command line of the player fits into its buffers, whatever the
    settings; the text for the log fills its allocation exactly. *)
Theorem C145_fits : forall s e, in_ints s e -> exists p rest, player_argv s e = Ok (p :: rest) /\ player_of s e = Some p
  /\ command (p :: rest) = Ok (joined (p :: rest)) /\ lenN (joined (p :: rest)) + 1 = command_size (p :: rest).
Proof. exact player_started. Qed.
Print Assumptions C145_fits.

(** C146. The players do what the settings say: not an external player with UIBC,
    and not uibc-viewer without sound. *)
Theorem C146_external_refuted : exists s e p rest st, tidy_settings s /\ in_ints s e /\ c_external s = true /\ player_argv s e = Ok (p :: rest)
  /\ p = text "miracle-gst" /\ run_player rest = Some st /\ p_port st = [] /\ ~ plays s (gst_words st).
Proof. exact uibc_external. Qed.
Print Assumptions C146_external_refuted.
Theorem C146_sound_refuted : exists s e rest ws st, tidy_settings s /\ in_ints s e /\ c_external s = false /\ c_audio s = 0%Z
  /\ player_argv s e = Ok (text "uibc-viewer" :: rest) /\ viewer rest = (se_target e, dec_int (se_uibc_port e), ws) /\ gstplayer ws = Some st /\ p_audio st = true.
Proof. exact uibc_sound. Qed.
Print Assumptions C146_sound_refuted.
Theorem C146_plays_partial : forall s e p rest, tidy_settings s -> in_ints s e -> player_argv s e = Ok (p :: rest) -> se_uibc e = false ->
  exists st, run_player rest = Some st /\ plays s (gst_words st).
Proof. exact player_plays. Qed.
Print Assumptions C146_plays_partial.
Theorem C146_viewer_partial : forall s e rest, tidy_settings s -> in_ints s e -> c_external s = false -> se_uibc e = true ->
  player_argv s e = Ok (text "uibc-viewer" :: rest) ->
  exists ws st, viewer rest = (se_target e, dec_int (se_uibc_port e), ws) /\ gstplayer ws = Some st
    /\ p_port st = dec_int (c_port s) /\ p_scale st = scale_of s /\ p_audio st = true.
Proof. exact viewer_plays. Qed.
Print Assumptions C146_viewer_partial.
(** The words of the pipeline are exactly these. *)
Theorem C146_pipeline : forall p, joined (gst_words p) = pipeline (if str_eq (p_debug p) (text "0") then None else Some (p_debug p)) (p_port p) (p_scale p) (p_audio p).
Proof. exact words_pipeline. Qed.
Print Assumptions C146_pipeline.

(** C147. The configuration of wpa_supplicant says what the link says: a name with
    a line break writes lines of its own; an intent of 2^32 + 1 is 1. *)
Theorem C147_injected_refuted : exists l, ~ configures l (wpa_conf l) /\ or (wl_methods l) (text "pbc") = text "pbc" /\ assigns (wpa_conf l) "config_methods" (text "display").
Proof. exact injected. Qed.
Print Assumptions C147_injected_refuted.
Theorem C147_intent_refuted : exists k s, k (text "go-intent") = Some (text "4294967297") /\ wifid true k [] = Ok (Go s) /\ wl_intent (new_link s (text "wlan0")) = 1.
Proof. exact intent_wraps. Qed.
Print Assumptions C147_intent_refuted.
Theorem C147_configures_partial : forall l, one_line (wl_name l) -> one_line (wl_methods l) -> one_line (wl_driver l) -> configures l (wpa_conf l).
Proof. exact conf_configures. Qed.
Print Assumptions C147_configures_partial.
Theorem C147_intent_partial : forall s i, (w_intent s <= 15 -> wl_intent (new_link s i) = w_intent s) /\ (15 < w_intent s -> wl_intent (new_link s i) = 0).
Proof. exact intent_rule. Qed.
Print Assumptions C147_intent_partial.
Theorem C147_argv_partial : forall s b c i g, lenN (wpa_argv s b c i g) + 1 <= 64.
Proof. exact wpa_fits. Qed.
Print Assumptions C147_argv_partial.
Theorem C147_verbosity_partial : forall s b c i g, let f := nth 1 (wpa_argv s b c i g) [] in
  (f = text "-dd" <-> 7 <= w_wpa s) /\ (f = text "-d" <-> w_wpa s = 6) /\ (f = text "-c" <-> w_wpa s = 5)
  /\ (f = text "-q" <-> 3 <= w_wpa s <= 4) /\ (f = text "-qq" <-> w_wpa s < 3)
  /\ (g <> text "-s" -> (last (wpa_argv s b c i g) [] = text "-s" <-> w_syslog s = true)).
Proof. exact wpa_verbosity. Qed.
Print Assumptions C147_verbosity_partial.

Definition k0 : conf := file_of [("log-level", "debug"); ("autocmd", " run  0 "); ("rstp-port", "7000")]%string.
Example C142_ex : exists s, sinkctl k0 [text "--port=1991"; text "-e"; text "miracle-vlc"; text "--aud"; text "0"] = Ok (Go (s, [text "run"; text "0"]))
  /\ c_port s = 1991%Z /\ c_external s = true /\ c_player s = Some (text "miracle-vlc") /\ c_level s = 7 /\ c_audio s = 0%Z.
Proof. eexists. repeat (split; [reflexivity|]). reflexivity. Qed.
Example C142_ends_ex : sinkctl k0 [text "--he"] = Ok Refuse /\ sinkctl k0 [text "run"; text "--help"; text "--bogus"] = Ok Finish.
Proof. split; reflexivity. Qed.
Example C143_ex : log_parse_arg (text "Debug") = (7, false) /\ log_parse_arg (text "0x6") = (6, false) /\ log_parse_arg (text "7x") = (7, true)
  /\ log_parse_arg (text "99999999999999999999") = (4294967295, false) /\ log_parse_arg (text "3000000000") = (2147483647, false)
  /\ log_parse_arg (text "-2") = (4294967294, false) /\ log_parse_arg (text "-9999999999") = (2147483648, false).
Proof. repeat split; reflexivity. Qed.
Example C144_ex : exists s, wifid true (file_of [("wpa-log-level", "trace"); ("config-methods", "pin"); ("lazy-managed", "true")]%string)
    [text "-i"; text "wlan0"; text "--go-intent"; text "7"] = Ok (Go s)
  /\ w_wpa s = 8 /\ w_methods s = None /\ w_lazy s = true /\ w_intent s = 7 /\ w_interface s = Some (text "wlan0").
Proof. eexists. repeat (split; [reflexivity|]). reflexivity. Qed.
Example C145_ex : player_argv (mkSettings 7 5 false false None 1 (Some (text "800x600")) [] 7236 false false None) (mkSession [] false 0 1920 1080)
  = Ok (map text ["miracle-gst"; "-d"; "3"; "-a"; "-s"; "800x600"; "-p"; "7236"; "-r"; "1920x1080"]%string).
Proof. reflexivity. Qed.
Example C146_ex : exists st, run_player (map text ["-a"; "-s"; "800x600"; "-p"; "7236"]%string) = Some st
  /\ In (text "port=7236") (gst_words st) /\ In (text "video/x-raw,width=800,height=600") (gst_words st) /\ In (text "autoaudiosink") (gst_words st).
Proof. eexists. split; [reflexivity|]. split; [|split]; vm_compute; tauto. Qed.
Example C147_ex : wpa_argv (mkW 5 false false None None 7 0 None true false false None) (text "/bin/wpa_supplicant") (text "x.conf") (text "wlan0") (text "y")
  = map text ["/bin/wpa_supplicant"; "-dd"; "-c"; "x.conf"; "-C"; "/run/miracle/wifi"; "-i"; "wlan0"; "-g"; "y"; "-s"]%string.
Proof. reflexivity. Qed.
Example C146_echo_ex : shell (text "-n 7 -e8") = text "7-e8" /\ shell (text "-neE 7") = text "7" /\ shell (text "-n7") = text "-n7" /\ shell (text "-") = text "-".
Proof. repeat split; reflexivity. Qed.
