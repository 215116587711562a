(** Counterexamples and examples of the settings. *)
From Coq Require Import String.
From Verif Require Import Base Text Text_Proofs Settings_Model Settings_Spec Settings_Proofs Settings_Player.
From Verif Require WpasMsg_Model.
Local Open Scope list_scope.

Definition file_of (l : list (string * string)) : conf := fun key =>
  match find (fun e => str_eq (text (fst e)) key) l with Some (_, v) => Some (text v) | None => None end.
Lemma port_lost : exists k s, sinkctl k [] = Ok (Go (s, [])) /\ k (text "rstp-port") = Some (text "7000") /\ ~ port_rule k [] s.
Proof.
  exists (file_of [("rstp-port", "7000")]%string). eexists. split; [reflexivity|]. split; [reflexivity|].
  intros [_ H]. specialize (H (absent_nil _)). vm_compute in H. discriminate.
Qed.
Lemma player_lost : exists k s, sinkctl k [] = Ok (Go (s, [])) /\ k (text "external-player") = Some (text "miracle-vlc") /\ ~ player_rule k [] s.
Proof.
  exists (file_of [("external-player", "miracle-vlc")]%string). eexists. split; [reflexivity|]. split; [reflexivity|].
  intros [_ H]. specialize (H (absent_nil _)). vm_compute in H. discriminate.
Qed.
Lemma file_first : exists k argv es s, line sink_shorts sink_longs argv es [] /\ sinkctl k argv = Ok (Go (s, []))
  /\ last_arg OLogLevel es (text "error") /\ level (text "error") = 3 /\ c_level s = 8.
Proof.
  exists (file_of [("autocmd", "--log-level trace")]%string), [text "--log-level"; text "error"], [GOpt OLogLevel (text "error")]. eexists.
  split; [|split; [reflexivity|split; [|split; reflexivity]]].
  - change ([text "--log-level"; text "error"]) with ([text "--" ++ text "log-level"; text "error"] ++ []).
    change [GOpt OLogLevel (text "error")] with ([GOpt OLogLevel (text "error")] ++ []). change (@nil (list byte)) with (@nil (list byte) ++ []) at 3.
    apply L_item; [|constructor]. apply I_long. vm_compute. tauto.
  - exists [], []. split; [reflexivity|apply absent_nil].
Qed.
Lemma typo : exists w s, (forall n, ~ names_level w n) /\ sinkctl (fun _ => None) [text "--log-level"; w] = Ok (Go (s, [])) /\ c_level s = 0.
Proof.
  exists (text "debgu"). eexists. split; [|split; reflexivity]. intros n [(name & H & E)|E].
  - unfold level_names in H. cbn [map] in H.
    destruct (N.to_nat n) as [|[|[|[|[|[|[|[|[|m]]]]]]]]]; cbn [nth_error] in H; try (inversion H as [H']; rewrite <- H' in E; vm_compute in E; discriminate E). destruct m; discriminate H.
  - pose proof (dec_digits n) as F. rewrite <- E in F. inversion F as [|? ? A _]. vm_compute in A. destruct A as [_ A]. now elim A.
Qed.
Definition st0 (ext : bool) (p : option (list byte)) (audio : Z) : settings :=
  mkSettings 5 5 false false None audio None [] 7236 true ext p.
Definition se0 : session := mkSession (text "192.168.173.1") true 5100 1920 1080.
Lemma uibc_external : exists s e p rest st, tidy_settings s /\ in_ints s e /\ c_external s = true /\ player_argv s e = Ok (p :: rest)
  /\ p = text "miracle-gst" /\ run_player rest = Some st /\ p_port st = [] /\ ~ plays s (gst_words st).
Proof.
  exists (st0 true (Some (text "miracle-gst")) 1), se0. do 3 eexists.
  split; [split; discriminate|]. split; [repeat split; try discriminate; lia|]. split; [reflexivity|]. split; [reflexivity|]. split; [reflexivity|].
  split; [reflexivity|]. split; [reflexivity|]. intros (H & _). specialize (H (text "7236")). destruct H as [_ H].
  specialize (H eq_refl). apply gst_port in H. discriminate.
Qed.
Lemma uibc_sound : exists s e rest ws st, tidy_settings s /\ in_ints s e /\ c_external s = false /\ c_audio s = 0%Z
  /\ player_argv s e = Ok (text "uibc-viewer" :: rest) /\ viewer rest = (se_target e, dec_int (se_uibc_port e), ws) /\ gstplayer ws = Some st /\ p_audio st = true.
Proof.
  exists (st0 false None 0), se0. do 3 eexists.
  split; [split; discriminate|]. split; [repeat split; try discriminate; lia|]. repeat (split; [reflexivity|]). reflexivity.
Qed.
Definition evil : wlink := mkWLink (text "wlan0") (Some (text "TV" ++ [10] ++ text "config_methods=display")) None None 0.
Lemma injected : exists l, ~ configures l (wpa_conf l) /\ or (wl_methods l) (text "pbc") = text "pbc" /\ assigns (wpa_conf l) "config_methods" (text "display").
Proof.
  exists evil.
  assert (A : assigns (wpa_conf evil) "config_methods" (text "display")) by (vm_compute; tauto).
  split; [|split; [reflexivity|exact A]].
  intros H. specialize (H "config_methods"%string (text "display")). destruct H as [H _]; [cbn; tauto|]. specialize (H A). vm_compute in H. discriminate.
Qed.
Lemma intent_wraps : exists k s, k (text "go-intent") = Some (text "4294967297") /\ wifid true k [] = Ok (Go s) /\ wl_intent (new_link s (text "wlan0")) = 1.
Proof. exists (file_of [("go-intent", "4294967297")]%string). eexists. repeat (split; [reflexivity|]). reflexivity. Qed.
Lemma intent_rule s i : (w_intent s <= 15 -> wl_intent (new_link s i) = w_intent s) /\ (15 < w_intent s -> wl_intent (new_link s i) = 0).
Proof. unfold new_link. cbn [wl_intent]. destruct (N.ltb_spec 15 (w_intent s)); split; intros; (lia || reflexivity). Qed.
