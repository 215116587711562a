(** Properties C102-C107: the sink's side of an RTSP session. *)
From Coq Require Import String.
From Verif Require Import Base Text RtspMsg_Model RtspMsg_Spec RtspParser_Spec RtspBus_Model Wfd_Spec Sink_Model Sink_Spec Sink_Cases Sink_Proofs Sink_Refuted.

(** C102. An OPTIONS request is answered with the methods of the sink and followed by
    an OPTIONS request of the sink's own; nothing else changes. The bytes are those of
    [ok] and [ask] - the list of methods stands in quotes, see below. *)
Theorem C102_options_partial : forall w m c, request m (text "OPTIONS") c -> taking (w_bus w) ->
  exists b, handle w m = Ok (set_bus w b) /\ goes_on (w_bus w) b
    /\ queue b = queue (w_bus w) ++
      [ok c [(text "Public", [text "org.wfa.wfd1.0, GET_PARAMETER, SET_PARAMETER"])] [];
       ask (text "OPTIONS") (text "*") (b_ck (w_bus w) + 1) [(text "Require", [text "org.wfa.wfd1.0"])]].
Proof. exact options_handled. Qed.
Print Assumptions C102_options_partial.
Theorem C102_unquoted_refuted : exists w m w' reply, request m (text "OPTIONS") 1 /\ taking (w_bus w) /\ handle w m = Ok w'
  /\ nth_error (queue (w_bus w')) 0 = Some reply
  /\ reply <> text "RTSP/1.0 200 OK" ++ [13; 10] ++ text "Public: org.wfa.wfd1.0, GET_PARAMETER, SET_PARAMETER" ++ [13; 10] ++ text "CSeq: 1" ++ [13; 10; 13; 10].
Proof. exact unquoted_refuted. Qed.
Print Assumptions C102_unquoted_refuted.

(** C103. A GET_PARAMETER request is answered with exactly the parameters asked for
    of those the sink offers, in the sink's order, if the extensions given by the user
    fit into the buffer of 512 bytes. *)
Theorem C103_answer_partial : forall w m c, request m (text "GET_PARAMETER") c -> taking (w_bus w) -> modest w ->
  exists b, handle w m = Ok (set_bus w b) /\ goes_on (w_bus w) b
    /\ queue b = queue (w_bus w) ++ [ok c [] (answer m (params w))].
Proof. exact get_parameter_handled. Qed.
Print Assumptions C103_answer_partial.
Theorem C103_overflow_refuted : exists w m, request m (text "GET_PARAMETER") 2 /\ taking (w_bus w) /\ handle w m = UB.
Proof. exact overflow_refuted. Qed.
Print Assumptions C103_overflow_refuted.
Theorem C103_once_refuted : exists w m, request m (text "GET_PARAMETER") 2 /\ taking (w_bus w) /\ modest w
  /\ answer m (params w) = crlf ["wfd_content_protection: none"; "wfd_content_protection: HDCP2.1 port=1189"]%string.
Proof. exact once_refuted. Qed.
Print Assumptions C103_once_refuted.

(** C104. A SET_PARAMETER request is acknowledged; what it says is remembered, the
    video format is chosen and reported, and a trigger SETUP starts the session at
    the URL known then. *)
Theorem C104_told : forall w m c, request m (text "SET_PARAMETER") c -> taking (w_bus w) ->
  exists w' r known, handle w m = Ok w' /\ goes_on (w_bus w) (w_bus w') /\ choose m r known /\ w_sink w' = told (w_sink w) m r
    /\ w_shown w' = w_shown w ++ match r with Some x => [x] | None => [] end
    /\ w_port w' = w_port w /\ w_option w' = w_option w
    /\ queue (w_bus w') = queue (w_bus w) ++ [ok c [] []]
         ++ setup_request m (s_url (w_sink w')) known (b_ck (w_bus w) + 1) (dec_int (w_port w)).
Proof. exact told_handled. Qed.
Print Assumptions C104_told.
Theorem C104_masks : forall m h a b c w1 w2 w3 w4 ta tb tc more,
  line m (text "wfd_video_formats") = Some h -> h_tokens h = w1 :: w2 :: w3 :: w4 :: ta :: tb :: tc :: more ->
  hex_text ta a -> hex_text tb b -> hex_text tc c -> a < 2 ^ 32 -> b < 2 ^ 32 -> c < 2 ^ 32 -> masks m = Some (a, b, c).
Proof. exact masks_of. Qed.
Print Assumptions C104_masks.

(** C105. The reply to the SETUP gives the session; the stream is then started with
    it. Nothing happens without a Session header or without a reply. *)
Theorem C105_play_partial : forall w m, unread m -> taking (w_bus w) ->
  match first_word (header_line m (text "Session")) with
  | None => setup_fn w (Some m) = Ok w
  | Some _ => exists session b, session_given m session
      /\ setup_fn w (Some m) = Ok (set_bus (set_sink w (in_session (w_sink w) session)) b) /\ goes_on (w_bus w) b
      /\ queue b = queue (w_bus w) ++ play_request (s_url (w_sink w)) (b_ck (w_bus w) + 1) session
  end.
Proof. exact setup_replied. Qed.
Print Assumptions C105_play_partial.
Theorem C105_timeout : forall w, setup_fn w None = Ok w.
Proof. exact setup_timeout. Qed.
Print Assumptions C105_timeout.
Theorem C105_error_refuted : exists w m, unread m /\ m_start m = Reply 454 (text "Session Not Found") /\ taking (w_bus w)
  /\ exists w' play, setup_fn w (Some m) = Ok w' /\ queue (w_bus w') = queue (w_bus w) ++ [play] /\ takeN 5 play = text "PLAY ".
Proof. exact error_refuted. Qed.
Print Assumptions C105_error_refuted.

(** C106. A new UIBC capability switches the back channel off if it says none, and
    on (if the user wants it) with the port if it names one; a capability without a
    port, or a repeated one, changes nothing. *)
Theorem C106_uibc_partial : forall w m c w', request m (text "SET_PARAMETER") c -> taking (w_bus w) -> handle w m = Ok w' ->
  match whole (line m (text "wfd_uibc_capability")) with
  | None => (w_enabled w', w_uibc_port w') = (w_enabled w, w_uibc_port w)
  | Some config =>
      (s_uibc_config (w_sink w) = Some config -> (w_enabled w', w_uibc_port w') = (w_enabled w, w_uibc_port w))
      /\ (s_uibc_config (w_sink w) <> Some config ->
           (says_none config -> (w_enabled w', w_uibc_port w') = (false, w_uibc_port w))
           /\ (no_port config -> ~ says_none config -> (w_enabled w', w_uibc_port w') = (w_enabled w, w_uibc_port w))
           /\ forall n, port_named config n -> (w_enabled w', w_uibc_port w') = (w_option w || w_enabled w, Z.of_N n))
  end.
Proof. exact uibc_taken. Qed.
Print Assumptions C106_uibc_partial.
Theorem C106_number_refuted : exists w m w', request m (text "SET_PARAMETER") 3 /\ taking (w_bus w)
  /\ whole (line m (text "wfd_uibc_capability")) = Some (text "input_category_list=GENERIC;port=")
  /\ w_enabled w = false /\ handle w m = Ok w' /\ w_enabled w' = true /\ w_uibc_port w' = 0%Z.
Proof. exact number_refuted. Qed.
Print Assumptions C106_number_refuted.
Theorem C106_again_refuted : exists w m1 m2 w', request m1 (text "SET_PARAMETER") 3 /\ request m2 (text "SET_PARAMETER") 4 /\ taking (w_bus w)
  /\ whole (line m1 (text "wfd_uibc_capability")) = Some (text "port=7239") /\ whole (line m2 (text "wfd_uibc_capability")) = Some (text "port=none")
  /\ handle_all w [m1; m2] = Ok w' /\ w_enabled w' = true /\ w_uibc_port w' = 7239%Z.
Proof. exact again_refuted. Qed.
Print Assumptions C106_again_refuted.

(** C107. In every run of known requests each one is answered exactly once, in order,
    with its own sequence number and status 200; what else is sent are requests. *)
Theorem C107_answered_partial : forall l w cs,
  Forall2 (fun m c => exists method, request m method c /\ In method known_methods) l cs ->
  taking (w_bus w) -> modest w -> b_ck (w_bus w) + lenN l < 2 ^ 63 ->
  exists w' outs, handle_all w l = Ok w' /\ Forall2 answers cs outs /\ queue (w_bus w') = queue (w_bus w) ++ concat outs.
Proof. exact session_answered. Qed.
Print Assumptions C107_answered_partial.
(** Other messages change nothing and are not answered. *)
Theorem C107_others : forall w m,
  (forall uri, m_start m <> Request (text "OPTIONS") uri /\ m_start m <> Request (text "GET_PARAMETER") uri
    /\ m_start m <> Request (text "SET_PARAMETER") uri) -> handle w m = Ok w.
Proof. exact other_handled. Qed.
Print Assumptions C107_others.
Theorem C107_every_refuted : exists w m, request m (text "TEARDOWN") 5 /\ taking (w_bus w) /\ handle w m = Ok w.
Proof. exact every_refuted. Qed.
Print Assumptions C107_every_refuted.

Definition sent_in (r : res world) : list (list byte) := match r with Ok w => queue (w_bus w) | UB => [] end.
Example C102_nontrivial : sent_in (handle (start_world false None) m1)
  = [crlf ["RTSP/1.0 200 OK"; "Public: ""org.wfa.wfd1.0, GET_PARAMETER, SET_PARAMETER"""; "CSeq: 1"; ""]%string;
     crlf ["OPTIONS * RTSP/1.0"; "Require: org.wfa.wfd1.0"; "CSeq: 1"; ""]%string].
Proof. vm_compute. reflexivity. Qed.
Example C103_nontrivial : sent_in (handle (start_world true (Some [(text "wfd_audio_codecs", text "LPCM 00000003 00")])) m3)
  = [crlf ["RTSP/1.0 200 OK"; "Content-Length: 295"; "Content-Type: text/parameters"; "CSeq: 2"; "";
           "wfd_video_formats: 00 00 03 10 0001ffff 1fffffff 00000fff 00 0000 0000 10 none none";
           "wfd_audio_codecs: LPCM 00000003 00";
           "wfd_client_rtp_ports: RTP/AVP/UDP;unicast 1991 0 mode=play";
           "wfd_uibc_capability: input_category_list=GENERIC;generic_cap_list=Mouse,SingleTouch;hidc_cap_list=none;port=none"]%string].
Proof. vm_compute. reflexivity. Qed.
Example C104_nontrivial :
  match handle_all later_world [m5] with
  | Ok w => w_shown w = [(1920, 1080)] /\ dropN 4 (queue (w_bus w))
      = [crlf ["RTSP/1.0 200 OK"; "CSeq: 4"; ""]%string;
         crlf ["SETUP rtsp://192.168.173.1/wfd1.0/streamid=0 RTSP/1.0"; "Transport: RTP/AVP/UDP;unicast;client_port=1991"; "CSeq: 2"; ""]%string]
  | UB => False end.
Proof. vm_compute. split; reflexivity. Qed.
Example C104_numbers_ex :
  map scan_hex (map text [" 0001DEFF"; "0x1f"; "-1"; "-10000000000000000"; "10000000000000000"; "ffffffffffffffff"; "-ffffffffffffffff"; "g"; ""])%string
  = [Some 122623; Some 31; Some (2 ^ 32 - 1); Some (2 ^ 32 - 1); Some (2 ^ 32 - 1); Some (2 ^ 32 - 1); Some 1; None; None].
Proof. vm_compute. reflexivity. Qed.
Example C105_nontrivial : dropN 4 (sent_in (setup_fn later_world (Some setup_reply)))
  = [crlf ["PLAY rtsp://192.168.173.1/wfd1.0/streamid=0 RTSP/1.0"; "Session: 6B8B4567"; "CSeq: 2"; ""]%string].
Proof. vm_compute. reflexivity. Qed.
Example C106_nontrivial : w_enabled later_world = true /\ w_uibc_port later_world = 7239%Z
  /\ port_named (text "input_category_list=GENERIC;;hidc_cap_list=none;port=07239;x") 7239.
Proof.
  split; [vm_compute; reflexivity|]. split; [vm_compute; reflexivity|].
  exists [text "input_category_list=GENERIC"; []; text "hidc_cap_list=none"], (text "07239"), (text ";x"). split; [vm_compute; reflexivity|].
  split; [|split; [|split]].
  - constructor; [|constructor; [now left|constructor; [|constructor]]]; right; (split; [vm_compute; intuition discriminate|]);
      eexists [], (text "port="), _, _; (split; [reflexivity|]); (split; [vm_compute; reflexivity|]); (split; [|discriminate]); vm_compute; intros x b' [= <- <-]; discriminate.
  - split; [discriminate|]. split; [vm_compute; repeat constructor; discriminate|reflexivity].
  - vm_compute. reflexivity.
  - right. now exists (text "x").
Qed.
Example C107_nontrivial : Forall2 (fun m c => exists method, request m method c /\ In method known_methods) [m1; m3; m4; m5] [1; 2; 3; 4]
  /\ modest (start_world true None).
Proof. exact session_example. Qed.
