(** Properties C192 .. C196: messages between wifid and wpa_supplicant. *)
From Coq Require Import String.
From Verif Require Import Base Text Wire_Model Wire_Spec Wire_Proofs Wire_Text Wire_Cex.
From Verif Require Prov_Model Comm_Spec.
Local Open Scope list_scope.

(** C192. Each event is about the device, group and PIN that wpa_supplicant put into it,
    whatever names, SSIDs and other words follow. *)
Theorem C192_events : forall body i n lvl, reports body i n -> lvl < 2 ^ 31 -> ifname_ok i -> heard (on_wire i lvl body) = Ok n.
Proof. exact (fun body i n lvl R L O => reports_heard body i n lvl R L O). Qed.
Print Assumptions C192_events.
Example C192_ex : let t := text " name='x' p2p_dev_addr=02:00:00:00:00:00 y='" in
  reports (text "P2P-DEVICE-FOUND " ++ mac_a ++ text " p2p_dev_addr=" ++ mac_a ++ t) None (Peer (Prov_Model.Found (Some mac_a) (Some mac_a)))
  /\ heard (text "<3>P2P-DEVICE-FOUND 02:11:22:33:44:55 p2p_dev_addr=02:11:22:33:44:55" ++ t) = Ok (Peer (Prov_Model.Found (Some mac_a) (Some mac_a)))
  /\ heard (text "IFNAME=wlan0 <3>P2P-GROUP-STARTED p2p-wlan0-0 client ssid=""DIRECT-\"" go_dev_addr=02:00:00:00:00:00 x\\"" freq=2412 psk=00 go_dev_addr=02:11:22:33:44:55 [PERSISTENT]")
     = Ok (Group mac_a (text "p2p-wlan0-0") false).
Proof. split; [apply R_found; [exact mac_a_addr|exact mac_a_addr|right; eexists; reflexivity]|]. vm_compute. split; reflexivity. Qed.

(** C193. Names and WFD subelements: not those of the device if there is an apostrophe in
    the name of an event. *)
Theorem C193_refuted : exists a d ty name ws l, addr a /\ addr d /\ addr ty /\ ~ In 0 name /\ Forall wordy ws /\ In wfd_on ws
  /\ labelled blank (on_wire None 3 (found_text a d ty name ws)) = Ok l /\ l_name l <> Some name /\ l_wfd l = None.
Proof. exact name_changed. Qed.
Print Assumptions C193_refuted.
Theorem C193_invented_refuted : exists a d ty name l l', addr a /\ addr d /\ addr ty /\ ~ In 0 name
  /\ labelled blank (on_wire None 3 (found_text a d ty name [])) = Ok l
  /\ labelled l (lines [mac_a; text "device_name=" ++ name]) = Ok l' /\ l_name l' = Some name /\ l_wfd l' = Some (text "0x01111c440032").
Proof. exact wfd_invented. Qed.
Print Assumptions C193_invented_refuted.
Theorem C193_found_partial : forall a d ty name ws i lvl l, addr a -> addr d -> addr ty -> ~ In 39 name -> ~ In 92 name -> ~ In 0 name ->
  Forall wordy ws -> first_keyed "device_name" ws None -> lvl < 2 ^ 31 -> ifname_ok i ->
  exists l', labelled l (on_wire i lvl (found_text a d ty name ws)) = Ok l' /\ l_name l' = Some name /\ either "wfd_subelems" "wfd_dev_info" ws (l_wfd l) (l_wfd l').
Proof. exact found_label. Qed.
Print Assumptions C193_found_partial.
Example C193_ex : labelled blank (on_wire None 3 (found_text mac_a mac_a tv (text "My ""big"" TV=1") [text "dev_capab=0x25"; wfd_on]))
  = Ok (mkLabel (Some (text "My ""big"" TV=1")) (Some (text "0x01111c440032"))).
Proof. vm_compute. reflexivity. Qed.
Theorem C193_reply_partial : forall mac ls l, Comm_Spec.is_mac mac -> Forall (fun l => l <> [] /\ line l) ls -> lenN (lines (Comm_Spec.canon mac :: ls)) < 2 ^ 31 ->
  exists l', labelled l (lines (Comm_Spec.canon mac :: ls)) = Ok l' /\ either "device_name" "name" ls (l_name l) (l_name l') /\ either "wfd_subelems" "wfd_dev_info" ls (l_wfd l) (l_wfd l').
Proof. exact (fun mac ls l M F L => proj2 (reply_heard mac ls M F L) l). Qed.
Print Assumptions C193_reply_partial.
Example C193_reply_ex : labelled blank (lines [mac_a; text "pri_dev_type=7-0050F204-1"; text "device_name=Bob's \TV"; text "wfd_subelems=000006"])
  = Ok (mkLabel (Some (text "Bob's \TV")) (Some (text "000006"))).
Proof. vm_compute. reflexivity. Qed.

(** C194. Answers that name no device make no peer: not so if the answer is neither FAIL nor empty. *)
Theorem C194_refuted : exists raw e s, answered raw = Ok (Peer e) /\ (forall a r, Comm_Spec.is_mac a -> raw <> Comm_Spec.canon a ++ r)
  /\ Prov_Model.run Prov_Model.init [Prov_Model.Ready true; e] = Ret (s, [Prov_Model.Added (text "00:00:00:00:00:00")]) /\ List.length (Prov_Model.s_peers s) = 1%nat.
Proof. exact nobody_added. Qed.
Print Assumptions C194_refuted.
Theorem C194_partial : answered (text "FAIL" ++ [10]) = Ok Nothing
  /\ forall mac ls, Comm_Spec.is_mac mac -> Forall (fun l => l <> [] /\ line l) ls -> lenN (lines (Comm_Spec.canon mac :: ls)) < 2 ^ 31 ->
     answered (lines (Comm_Spec.canon mac :: ls)) = Ok (Peer (Prov_Model.Reply (Some (Comm_Spec.canon mac)))).
Proof. exact (conj fail_heard (fun mac ls M F L => proj1 (reply_heard mac ls M F L))). Qed.
Print Assumptions C194_partial.
Example C194_ex : Comm_Spec.is_mac six_a /\ Comm_Spec.canon six_a = mac_a /\ answered (lines [mac_a; text "device_name=02:00:00:00:00:00"]) = Ok (Peer (Prov_Model.Reply (Some mac_a)))
  /\ answered [] = Ok (Peer (Prov_Model.Reply None)).
Proof. split; [split; [reflexivity|repeat constructor]|]. vm_compute. repeat split. Qed.

(** C195. The name that is set is the one that wpa_supplicant gets: exactly for names
    without blanks, double quotes and backslashes. *)
Theorem C195_refuted : exists name s, name <> [] /\ Forall (fun c => 32 <= c <= 126) name /\ set_name true (Some name) = Some s /\ ~ sets s (text "device_name") name
  /\ sets s (text "device_name") (34 :: name ++ [34]).
Proof. exact name_quoted. Qed.
Print Assumptions C195_refuted.
Theorem C195_name_partial : forall name, name <> [] -> lenN name < 2 ^ 29 -> exists s, set_name true (Some name) = Some s /\ (sets s (text "device_name") name <-> Forall bare name).
Proof. exact set_name_exact. Qed.
Print Assumptions C195_name_partial.
Theorem C195_wfd_partial : forall v, wordy v -> lenN v < 2 ^ 29 -> set_wfd true (Some v) = Some (text "WFD_SUBELEM_SET 0 " ++ v).
Proof. exact set_wfd_text. Qed.
Print Assumptions C195_wfd_partial.
Example C195_ex : set_name true (Some (text "Bob's-TV")) = Some (text "SET device_name Bob's-TV") /\ set_name true (Some (text "a\b")) = Some (text "SET device_name a\\b")
  /\ set_name true (Some []) = None /\ set_name false (Some (text "x")) = None /\ set_wfd true (Some []) = Some (text "WFD_SUBELEM_SET 0")
  /\ set_wfd true (Some (text "000600111c44012c")) = Some (text "WFD_SUBELEM_SET 0 000600111c44012c").
Proof. vm_compute. repeat split. Qed.

(** C196. The words of a command are those that wpa_supplicant reads: not so for PINs with
    blanks; but if the PINs and addresses from outside are words. *)
Theorem C196_refuted : exists h s o ws t ws', Prov_Model.run Prov_Model.init h = Ret (s, o) /\ In (Prov_Model.Send ws) o /\ command ws = Some t /\ words t ws'
  /\ ~ In (text "persistent=0") ws /\ In (text "persistent=0") ws'.
Proof. exact pin_words. Qed.
Print Assumptions C196_refuted.
Theorem C196_partial : forall h s o ws, Forall tidy h -> Prov_Model.run Prov_Model.init h = Ret (s, o) -> In (Prov_Model.Send ws) o -> lenN (concat ws) + lenN ws <= 2 ^ 31 ->
  exists t, command ws = Some t /\ words t ws.
Proof. exact run_words. Qed.
Print Assumptions C196_partial.
Theorem C196_heard_partial : forall body i e, reports body i (Peer e) -> tidy e.
Proof. exact reports_tidy. Qed.
Print Assumptions C196_heard_partial.
Example C196_ex : let h := [Prov_Model.Ready true; Prov_Model.Found (Some mac_a) (Some mac_a); Prov_Model.ShowPin (Some mac_a) (Some (text "12345670")); Prov_Model.Connect mac_a [] [] 0] in
  Forall tidy h /\ (exists s o, Prov_Model.run Prov_Model.init h = Ret (s, o) /\ In (Prov_Model.Send [text "P2P_CONNECT"; mac_a; text "12345670"; text "display"]) o)
  /\ command [text "P2P_CONNECT"; mac_a; text "12345670"; text "display"] = Some (text "P2P_CONNECT 02:11:22:33:44:55 12345670 display").
Proof.
  split; [constructor; [exact I|]; constructor; [exact (proj1 mac_a_addr)|]; constructor; [apply wordyb_ok; reflexivity|]; constructor; [now left|constructor]|].
  split; [eexists; eexists; split; [vm_compute; reflexivity|cbn; auto 10]|vm_compute; reflexivity].
Qed.
