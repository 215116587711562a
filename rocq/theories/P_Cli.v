(** Properties C133 to C141: the command lines of miracle-sinkctl and miracle-wifictl. *)
From Coq Require Import String ZArith.
From Verif Require Import Base Text Mirror_Model Mirror_Spec Mirror_More Cli_Model Cli_Spec Cli_Search Cli_Proofs Cli_Means Cli_More Cli_Comp Cli_Cex.
Local Open Scope list_scope.

(** ** C133: only what is in the usage, with the right number of arguments *)
Theorem C133_unknown_word : forall ans pr prompt w args s, (forall least most, ~ usable pr prompt w least most) -> cli_do ans pr prompt (w :: args) s = Ok ((- EAGAIN)%Z, [], s).
Proof. exact unknown_word. Qed.
Print Assumptions C133_unknown_word.
Theorem C133_wrong_count : forall ans pr prompt w args s least most, usable pr prompt w least most -> ~ enough (lenN args) least most ->
  exists m, complaint m /\ cli_do ans pr prompt (w :: args) s = Ok ((- EINVAL)%Z, [Line m], s).
Proof. exact wrong_count. Qed.
Print Assumptions C133_wrong_count.
(** A word that can be used is never "not found", whatever wifid answers. *)
Theorem C133_known_word : forall ans pr prompt w args s least most r o s', usable pr prompt w least most -> cli_do ans pr prompt (w :: args) s = Ok (r, o, s') -> r <> (- EAGAIN)%Z.
Proof. exact known_word. Qed.
Print Assumptions C133_known_word.
Theorem C133_help : forall ans pr prompt args s, exists rows, cli_do ans pr prompt (text "help" :: args) s = Ok (0%Z, Line (text "Available commands:") :: map HelpRow rows, s)
  /\ forall w, In w rows <-> w <> text "exit" /\ exists least most, usable pr prompt w least most.
Proof. exact help_rows. Qed.
Print Assumptions C133_help.
Example C133_example :
  cli_do yes Sink true [text "connect"; text "phone"] (s1 true) = Ok ((- EAGAIN)%Z, [], s1 true)
  /\ cli_do yes Wifi false [text "p2p-scan"] (s1 true) = Ok ((- EAGAIN)%Z, [], s1 true)
  /\ cli_do yes Wifi true [text "disconnect"] (s1 true) = Ok ((- EINVAL)%Z, [Line (text "Invalid number of arguments")], s1 true).
Proof. vm_compute. repeat split. Qed.

(** ** C134: no session does anything undefined *)
Theorem C134_sessions : forall ans pr es s, ok s -> Forall event_ok es -> exists o s', session ans pr es s = Ok (o, s') /\ ok s'.
Proof. exact session_safe. Qed.
Print Assumptions C134_sessions.
Theorem C134_wifid_signals : forall d os, Forall (fun g => event_ok (Heard g)) (snd (run d os)).
Proof. exact wifid_says. Qed.
Print Assumptions C134_wifid_signals.
Theorem C134_start : forall ops, Forall good_op ops -> exists c, fetch [] (objects (daemon_after ops)) = Some c /\ ok (mkSt c None None []).
Proof. exact starts_ok. Qed.
Print Assumptions C134_start.
(** It ends with quit and exit: what comes after is not handled. *)
Theorem C134_quit : forall ans pr w es s, w = text "quit" \/ w = text "exit" -> session ans pr (Typed w :: es) s = session ans pr [Typed w] s.
Proof. exact session_quit. Qed.
Print Assumptions C134_quit.
Theorem C134_ends : forall ans pr e es es2 s o s', react ans pr e s = Ok (o, s') -> In Leave o -> session ans pr (e :: es) s = session ans pr (e :: es2) s.
Proof. exact session_ends. Qed.
Print Assumptions C134_ends.
(** The link in use goes away in between. *)
Example C134_example : ok (s1 true) /\
  match session yes Wifi [Typed (text "select wlan1"); Heard (Removed (LinkPath (text "4"))); Typed (text "set-friendly-name tv"); Typed (text "set-friendly-name 3 tv"); Typed (text "quit"); Typed (text "list")] (s1 true) with
  | Ok (o, s) => calls o = [AskWfd (text "4") sink_wfd; AskName (text "3") (text "tv")] /\ cur s = None /\ In (Line (text "link 4 deselected")) o
  | UB => False
  end.
Proof. split; [apply s1_ok|]. vm_compute. repeat split. auto 10. Qed.

(** ** C135: commands do what they mean *)
Theorem C135_commands : forall ans pr prompt words cs c' s, ok s -> few (links s) -> ~ odd words -> means s pr words cs c' ->
  prompt = true \/ hd [] words <> text "select" /\ hd [] words <> text "p2p-scan" ->
  exists r o s', cli_do ans pr prompt words s = Ok (r, o, s') /\ ok s' /\ calls o = cs /\ cur s' = c'.
Proof. exact means_does. Qed.
Print Assumptions C135_commands.
Example C135_example : exists cs c', means (s1 true) Wifi [text "connect"; text "PHONE"; text "pbc"] cs c' /\ cs = [AskConnect (text "02:00:00:00:01:0a@3") (text "pbc") []].
Proof.
  eexists _, _. split; [|reflexivity]. eapply (Mean_connect_by _ _ _ (l3 true) p1); [|reflexivity|right; left; reflexivity].
  apply search_peer_spec; [apply s1_few|intros [rest E]; discriminate E|vm_compute; reflexivity].
Qed.

(** ** C136: nothing is asked of wifid that was not said *)
Theorem C136_managed_refuted : exists ans pr prompt words s r o s', ok s /\ few (links s) /\ cli_do ans pr prompt words s = Ok (r, o, s')
  /\ words = [text "set-managed"; text "wlan0"; text "off"] /\ calls o = [AskManaged (text "3") true] /\ meaningless s pr words.
Proof. exact managed_odd. Qed.
Print Assumptions C136_managed_refuted.
Theorem C136_connect_refuted : exists ans pr prompt words s r o s', ok s /\ few (links s) /\ cli_do ans pr prompt words s = Ok (r, o, s')
  /\ words = [text "connect"; text "phone"; text "psb"; text "123"] /\ calls o = [AskConnect (text "02:00:00:00:01:0a@3") (text "psb") (text "123")] /\ meaningless s pr words.
Proof. exact connect_odd. Qed.
Print Assumptions C136_connect_refuted.
Theorem C136_scan_refuted : exists ans pr prompt words s r o s', ok s /\ few (links s) /\ cli_do ans pr prompt words s = Ok (r, o, s')
  /\ words = [text "p2p-scan"; text "wlan0"; text "wlan1"] /\ calls o = [AskScan (text "4") true] /\ meaningless s pr words.
Proof. exact scan_odd. Qed.
Print Assumptions C136_scan_refuted.
(** Missing: the words above. *)
Theorem C136_nothing_else_partial : forall ans pr prompt words s r o s', ok s -> few (links s) -> ~ odd words -> cli_do ans pr prompt words s = Ok (r, o, s') ->
  calls o <> [] \/ cur s' <> cur s -> means s pr words (calls o) (cur s').
Proof. exact nothing_else. Qed.
Print Assumptions C136_nothing_else_partial.

(** ** C137: names of links and peers *)
Theorem C137_links : forall c t l, search_link c t = Some l <-> link_named c t l.
Proof. exact search_link_spec. Qed.
Print Assumptions C137_links.
Theorem C137_bare_refuted : exists c t x, few c /\ search_peer c t = Some x /\ t = text "@wlan0" /\ (forall y, ~ peer_named c t y)
  /\ exists ans s r o s', ok s /\ links s = c /\ cli_do ans Wifi true [text "disconnect"; t] s = Ok (r, o, s') /\ calls o = [AskDisconnect (cp_label (snd x))].
Proof. exact bare_at. Qed.
Print Assumptions C137_bare_refuted.
Theorem C137_peers_partial : forall c t x, few c -> ~ bare t -> search_peer c t = Some x <-> peer_named c t x.
Proof. exact search_peer_spec. Qed.
Print Assumptions C137_peers_partial.
Example C137_example :
  link_named (links (s1 true)) (text "WLAN1") l4 /\ link_named (links (s1 true)) (text "3") (l3 true)
  /\ peer_named (links (s1 true)) (text "0@wlan0") (l3 true, p1) /\ peer_named (links (s1 true)) (text "p2p0") (l3 true, p1).
Proof.
  split; [apply search_link_spec; vm_compute; reflexivity|]. split; [apply search_link_spec; vm_compute; reflexivity|].
  split; (apply search_peer_spec; [apply s1_few|intros [rest E]; discriminate E|vm_compute; reflexivity]).
Qed.

(** ** C138: completion offers what there is *)
Theorem C138_completes : forall pr c g t v, exists m, kept (begins t) (offered pr c g) m
  /\ forall fuel, (List.length (offered pr c g) < fuel)%nat -> matches fuel pr c g t true v = Ret m.
Proof. exact completes. Qed.
Print Assumptions C138_completes.
Example C138_example : matches 20 Wifi (links (s1 true)) LinksPeers (text "") true (7, 7) = Ret [text "3"; text "my desk"; text "4"; text "02:00:00:00:01:0a@3"; text "phone"]
  /\ matches 20 Wifi (links (s1 true)) Commands (text "s") true (7, 7) = Ret [text "select"; text "show"; text "set-friendly-name"; text "set-managed"].
Proof. vm_compute. split; reflexivity. Qed.

(** ** C139: completion knows the argument *)
Theorem C139_argument_refuted : exists pr start line, typed 4 line /\ completion pr start line = UB.
Proof. exact past_end. Qed.
Print Assumptions C139_argument_refuted.
(** Missing: lines with four words or more in front; they all leave the array. *)
Theorem C139_argument_partial : forall pr w only least most n t start, In (w, only, least, most) (usage pr) -> start <> 0 -> typed n (w ++ 32 :: t) -> n <= 3 ->
  completion pr start (w ++ 32 :: t) = Ok (wanted w n).
Proof. exact completion_right. Qed.
Print Assumptions C139_argument_partial.
Theorem C139_past_refuted : forall pr w only least most n t start, In (w, only, least, most) (usage pr) -> start <> 0 -> typed n (w ++ 32 :: t) -> 3 < n ->
  completion pr start (w ++ 32 :: t) = UB.
Proof. exact completion_past. Qed.
Print Assumptions C139_past_refuted.
(** Words may also be parted by quotes and the like. *)
Theorem C139_no_space_partial : forall pr start line, start <> 0 -> ~ In 32 line -> line <> [] -> exists g, completion pr start line = Ok g.
Proof. exact completion_no_space. Qed.
Print Assumptions C139_no_space_partial.
Example C139_example : completion Wifi 20 (text "set-managed wlan0  y") = Ok (Some YesNo) /\ completion Sink 4 (text "run ") = Ok (Some Links) /\ completion Sink 4 (text "quit ") = Ok None.
Proof. vm_compute. repeat split. Qed.

(** ** C140: the sink runs on managed links only *)
Theorem C140_bound_refuted : exists ans s t g o s' l, ok s /\ bound s = Some t /\ cur s = None /\ event_ok (Heard g) /\ react ans Sink (Heard g) s = Ok (o, s')
  /\ In l (links s') /\ cl_managed l = false /\ calls o = [AskWfd (cl_label l) sink_wfd; AskScan (cl_label l) true] /\ cur s' = Some (cl_label l)
  /\ (forall a o2 s2, cli_do ans Sink true [text "run"; a] s' = Ok (0%Z, o2, s2) -> calls o2 = []).
Proof. exact bound_unmanaged. Qed.
Print Assumptions C140_bound_refuted.
(** Missing: links that appear while bound. *)
Theorem C140_commands_partial : forall ans prompt words s r o s' t, ok s -> few (links s) -> ~ odd words -> cli_do ans Sink prompt words s = Ok (r, o, s') ->
  In (AskScan t true) (calls o) \/ cur s' = Some t /\ cur s <> Some t -> exists l, In l (links s) /\ cl_label l = t /\ cl_managed l = true.
Proof. exact runs_managed. Qed.
Print Assumptions C140_commands_partial.
Example C140_example : cli_do yes Sink true [text "bind"; text "wlan0"] (s1 false) = Ok (0%Z, [Line (text "link 3 not managed")], mkSt [l3 false; l4] None (Some (text "wlan0")) []).
Proof. vm_compute. reflexivity. Qed.

(** ** C141: scans end with the program *)
Theorem C141_scan_left_refuted : exists ans es s o s', ok s /\ Forall event_ok es /\ session ans Wifi es s = Ok (o, s') /\ (forall c, ans c = 0%Z)
  /\ In (AskScan (text "3") true) (calls o) /\ ~ In (AskScan (text "3") false) (calls o) /\ In (text "3") (scans s') /\ In Leave o.
Proof. exact scan_left. Qed.
Print Assumptions C141_scan_left_refuted.
(** Missing: scans the program was not told of yet. *)
Theorem C141_stopped_partial : forall ans s ls, exists o m, stop_scans ans ls s = Ok (o, s)
  /\ kept (fun l => In (cl_label l) (scans s) /\ cl_scan l = true) ls m /\ calls o = map (fun l => AskScan (cl_label l) false) m.
Proof. exact stops. Qed.
Print Assumptions C141_stopped_partial.
Theorem C141_remembered : forall ans pr prompt words s z o s', cli_do ans pr prompt words s = Ok (z, o, s') ->
  (forall t, In t (scans s) -> In t (scans s')) /\ (forall t, In (AskScan t true) (calls o) -> (0 <= ans (AskScan t true))%Z -> In t (scans s')).
Proof. exact scans_kept. Qed.
Print Assumptions C141_remembered.
Example C141_example : match session yes Wifi [Typed (text "p2p-scan wlan0"); Heard (Changed (LinkPath (text "3")) [Scanning true]); Typed (text "quit")] (s1 true) with
  | Ok (o, s) => calls o = [AskScan (text "3") true; AskScan (text "3") false]
  | UB => False
  end.
Proof. vm_compute. reflexivity. Qed.
