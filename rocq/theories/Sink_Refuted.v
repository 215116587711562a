(** Sessions that go wrong. *)
From Coq Require Import String.
From Verif Require Import Base Text RtspMsg_Model RtspMsg_Spec RtspBus_Model Sink_Model Sink_Spec Sink_Cases Sink_Proofs.

Ltac received_request := split; [vm_compute; repeat split; reflexivity|split; [vm_compute; reflexivity|split; [eexists; vm_compute; reflexivity|split; [vm_compute; reflexivity|vm_compute; split; reflexivity]]]].
Ltac open_bus := split; [reflexivity|split; [vm_compute; reflexivity|constructor]].

Lemma told_handled w m c : request m (text "SET_PARAMETER") c -> taking (w_bus w) ->
  exists w' r known, handle w m = Ok w' /\ goes_on (w_bus w) (w_bus w') /\ choose m r known /\ w_sink w' = told (w_sink w) m r
    /\ w_shown w' = w_shown w ++ match r with Some x => [x] | None => [] end
    /\ w_port w' = w_port w /\ w_option w' = w_option w
    /\ queue (w_bus w') = queue (w_bus w) ++ [ok c [] []]
         ++ setup_request m (s_url (w_sink w')) known (b_ck (w_bus w) + 1) (dec_int (w_port w)).
Proof.
  intros R T. destruct (set_parameter_handled w m c R T) as (w' & r & k & A & B & C & D & E & F & G & _ & H). exists w', r, k. auto 10.
Qed.
Lemma setup_timeout w : setup_fn w None = Ok w.
Proof. reflexivity. Qed.

Lemma unquoted_refuted : exists w m w' reply, request m (text "OPTIONS") 1 /\ taking (w_bus w) /\ handle w m = Ok w'
  /\ nth_error (queue (w_bus w')) 0 = Some reply
  /\ reply <> text "RTSP/1.0 200 OK" ++ [13; 10] ++ text "Public: org.wfa.wfd1.0, GET_PARAMETER, SET_PARAMETER" ++ [13; 10] ++ text "CSeq: 1" ++ [13; 10; 13; 10].
Proof.
  exists (start_world false None), m1. do 2 eexists. split; [received_request|]. split; [open_bus|]. split; [vm_compute; reflexivity|]. split; [vm_compute; reflexivity|]. vm_compute. discriminate.
Qed.
Lemma overflow_refuted : exists w m, request m (text "GET_PARAMETER") 2 /\ taking (w_bus w) /\ handle w m = UB.
Proof.
  exists (start_world false (Some [(text "wfd_audio_codecs", repeat 48 496)])), m3. split; [received_request|]. split; [open_bus|]. vm_compute. reflexivity.
Qed.
Lemma once_refuted : exists w m, request m (text "GET_PARAMETER") 2 /\ taking (w_bus w) /\ modest w
  /\ answer m (params w) = crlf ["wfd_content_protection: none"; "wfd_content_protection: HDCP2.1 port=1189"]%string.
Proof.
  exists (start_world false (Some [(text "wfd_content_protection", text "HDCP2.1 port=1189")])),
    (incoming ["GET_PARAMETER rtsp://localhost/wfd1.0 RTSP/1.0"; "CSeq: 2"]%string ["wfd_content_protection"]%string).
  split; [received_request|]. split; [open_bus|]. split.
  - split; [vm_compute; split; [discriminate|reflexivity]|]. split; [repeat constructor; intros []|]. split; [repeat constructor; discriminate|reflexivity].
  - vm_compute. reflexivity.
Qed.
Lemma error_refuted : exists w m, unread m /\ m_start m = Reply 454 (text "Session Not Found") /\ taking (w_bus w)
  /\ exists w' play, setup_fn w (Some m) = Ok w' /\ queue (w_bus w') = queue (w_bus w) ++ [play] /\ takeN 5 play = text "PLAY ".
Proof.
  exists later_world, setup_error. split; [vm_compute; repeat split; reflexivity|]. split; [vm_compute; reflexivity|].
  split; [split; [vm_compute; reflexivity|split; [vm_compute; reflexivity|vm_compute; repeat constructor]]|].
  eexists (match setup_fn later_world (Some setup_error) with Ok w => w | UB => later_world end), _. split; [vm_compute; reflexivity|]. split; [vm_compute; reflexivity|]. vm_compute. reflexivity.
Qed.
Lemma number_refuted : exists w m w', request m (text "SET_PARAMETER") 3 /\ taking (w_bus w)
  /\ whole (line m (text "wfd_uibc_capability")) = Some (text "input_category_list=GENERIC;port=")
  /\ w_enabled w = false /\ handle w m = Ok w' /\ w_enabled w' = true /\ w_uibc_port w' = 0%Z.
Proof.
  exists (start_world true None), port_missing. eexists. split; [received_request|]. split; [open_bus|]. split; [vm_compute; reflexivity|]. split; [reflexivity|].
  split; [vm_compute; reflexivity|]. split; vm_compute; reflexivity.
Qed.
Lemma again_refuted : exists w m1 m2 w', request m1 (text "SET_PARAMETER") 3 /\ request m2 (text "SET_PARAMETER") 4 /\ taking (w_bus w)
  /\ whole (line m1 (text "wfd_uibc_capability")) = Some (text "port=7239") /\ whole (line m2 (text "wfd_uibc_capability")) = Some (text "port=none")
  /\ handle_all w [m1; m2] = Ok w' /\ w_enabled w' = true /\ w_uibc_port w' = 7239%Z.
Proof.
  exists (start_world true None),
    (incoming ["SET_PARAMETER rtsp://localhost/wfd1.0 RTSP/1.0"; "CSeq: 3"]%string ["wfd_uibc_capability: port=7239"]%string),
    (incoming ["SET_PARAMETER rtsp://localhost/wfd1.0 RTSP/1.0"; "CSeq: 4"]%string ["wfd_uibc_capability: port=none"]%string).
  eexists. split; [received_request|]. split; [received_request|]. split; [open_bus|]. split; [vm_compute; reflexivity|]. split; [vm_compute; reflexivity|].
  split; [vm_compute; reflexivity|]. split; vm_compute; reflexivity.
Qed.
Lemma every_refuted : exists w m, request m (text "TEARDOWN") 5 /\ taking (w_bus w) /\ handle w m = Ok w.
Proof.
  exists (start_world true None), teardown. split; [received_request|]. split; [open_bus|]. vm_compute. reflexivity.
Qed.
Lemma session_example : Forall2 (fun m c => exists method, request m method c /\ In method known_methods) [m1; m3; m4; m5] [1; 2; 3; 4]
  /\ modest (start_world true None).
Proof.
  split.
  - repeat (constructor; [eexists; split; [received_request|vm_compute; tauto]|]). constructor.
  - split; [vm_compute; split; [discriminate|reflexivity]|]. split; [constructor|]. split; [constructor|reflexivity].
Qed.
