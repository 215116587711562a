(** Examples and counterexamples for the links of miracle-wifid. *)
From Coq Require Import String.
From Verif Require Import Base Text Setup_Model Link_Model Link_Spec.
Local Open Scope list_scope.

Definition plain : mgr := mkMgr (Some (text "laptop")) None false false.
Definition only (n : list byte) : mgr := mkMgr (Some (text "laptop")) (Some n) false false.
Definition tagged (lazy : bool) : mgr := mkMgr (Some (text "laptop")) None lazy true.
Definition wlan0 : list byte := text "wlan0".
Definition wlan1 : list byte := text "wlan1".
Definition links (c : mgr) (es : list Link_Model.event) : list lnk := match run_links c es [] with Ok ls => ls | UB => [] end.
Definition sees (c : mgr) (es : list Link_Model.event) : bool := match run_links c es [] with Ok _ => true | UB => false end.
Definition indices (ls : list lnk) : list N := map l_ix ls.

(** Four devices, two of them wanted, one removed and seen again. *)
Definition story : list Link_Model.event :=
  [EUdev Other 3 (Some wlan0) false true; EUdev Other 5 (Some (text "p2p-wlan0-0")) false true; EUdev Other 4 (Some wlan1) false true;
   EUdev Other 7 None false true; EUdev Remove 3 (Some wlan0) false true; EUdev Other 0 (Some wlan0) false true; EUdev Other 3 (Some wlan0) false true].
Lemma story_plain : indices (links plain story) = [4; 3] /\ sees plain story = true. Proof. vm_compute. auto. Qed.
Lemma story_only : indices (links (only wlan1) story) = [4] /\ sees (only wlan1) story = true. Proof. vm_compute. auto. Qed.

(** --interface wlan0; the device is renamed. *)
Definition rename : list Link_Model.event := [EUdev Other 3 (Some wlan0) false true; EUdev Move 3 (Some wlan1) false true].
Lemma rename_kept : exists l, links (only wlan0) rename = [l] /\ l_ifname l = wlan1 /\ l_managed l = true /\ l_proc l <> None.
Proof. eexists. split; [reflexivity|]. repeat split; discriminate. Qed.
Lemma only_chosen_false : exists c es ls, run_links c es [] = Ok ls /\ ~ only_chosen c ls.
Proof.
  exists (only wlan0), rename. eexists. split; [reflexivity|]. intros H. specialize (H wlan0 _ eq_refl (or_introl eq_refl)). discriminate H.
Qed.

(** --interface wlan0 and an event without INTERFACE for the link. *)
Lemma nameless_ub : exists c es, run_links c es [] = UB.
Proof. now exists (only wlan0), [EUdev Other 3 (Some wlan0) false true; EUdev Other 3 None false true]. Qed.

(** The user's choice is undone by any event of the device. *)
Lemma unwanted_false : exists c es i ls, run_links c es [] = Ok ls /\ unwanted i es /\ managed i ls.
Proof.
  exists plain, [EUdev Other 3 (Some wlan0) false true; ESetManaged 3 false true; EUdev Other 3 (Some wlan0) false true], 3.
  eexists. split; [reflexivity|]. split.
  - exists [EUdev Other 3 (Some wlan0) false true], true, [EUdev Other 3 (Some wlan0) false true]. split; [reflexivity|]. intros b ok [H|[]]. discriminate H.
  - eexists. split; [left; reflexivity|]. now split.
Qed.
Lemma wanted_false : exists c i ls, run_links c [EUdev Other i (Some wlan0) true true; ESetManaged i true true; EUdev Other i (Some wlan0) true true] [] = Ok ls
  /\ has_link i ls /\ ~ managed i ls.
Proof.
  exists (tagged true), 3. eexists. split; [reflexivity|]. split; [eexists; split; [left; reflexivity|reflexivity]|].
  intros (l & [<-|[]] & _ & M). discriminate M.
Qed.

(** A run that becomes ready, with a name before and after. *)
Definition yes : answer := mkAnswer true true true PEnd.
Definition begin_ : list Link_Model.event := [EUdev Other 3 (Some wlan0) false true; EUp 3].
Definition setup4 : list Link_Model.event := [EReply 3 yes; EReply 3 yes; EReply 3 yes; EReply 3 yes].
Definition heard (c : mgr) (es : list Link_Model.event) : list (bool * list cmd) :=
  map (fun l => (u_run (l_su l), match l_proc l with Some p => p_cmds p | None => [] end)) (links c es).
Lemma told_both : heard plain ([EUdev Other 3 (Some wlan0) false true; EName 3 (text "tv"); EWfd 3 (text "00"); EUp 3] ++ setup4 ++ [EName 3 (text "box"); EWfd 3 (text "11")])
  = [(true, [CName (text "tv"); CSub (text "00"); CName (text "box"); CSub (text "11")])].
Proof. vm_compute. reflexivity. Qed.
Definition late : list Link_Model.event := begin_ ++ [EReply 3 yes; EName 3 (text "tv"); EReply 3 yes; EReply 3 yes; EReply 3 yes].
Lemma late_lost : exists l p, links plain late = [l] /\ l_proc l = Some p /\ u_run (l_su l) = true /\ l_name l = Some (text "tv") /\ told_name (p_cmds p) = Some (text "Miracle").
Proof. do 2 eexists. split; [vm_compute; reflexivity|]. repeat split. Qed.
Lemma names_false : exists c es ls, run_links c es [] = Ok ls /\ (exists l, ls = [l] /\ u_run (l_su l) = true) /\ ~ name_right ls.
Proof.
  exists plain, late. eexists. split; [vm_compute; reflexivity|]. split; [eexists; split; reflexivity|].
  intros H. specialize (H _ _ _ (or_introl eq_refl) eq_refl eq_refl). discriminate H.
Qed.
(** The subelements: set after the reply to SET wifi_display, before the last setup
    reply, where a second entry of the peer list is read. *)
Definition more : answer := mkAnswer true true true PMore.
Definition late_sub : list Link_Model.event := begin_ ++ [EReply 3 yes; EReply 3 yes; EReply 3 more; EReply 3 yes; EWfd 3 (text "00"); EReply 3 yes].
Lemma subs_false : exists c es ls, run_links c es [] = Ok ls /\ (exists l, ls = [l] /\ u_run (l_su l) = true) /\ ~ sub_right ls.
Proof.
  exists plain, late_sub. eexists. split; [vm_compute; reflexivity|]. split; [eexists; split; reflexivity|].
  intros H. specialize (H _ _ _ (or_introl eq_refl) eq_refl eq_refl). discriminate H.
Qed.
Lemma host_false : exists c es ls, run_links c es [] = Ok ls /\ ~ announces_host c ls.
Proof.
  exists plain, (begin_ ++ setup4). eexists. split; [vm_compute; reflexivity|]. intros H. exact (H _ _ (or_introl eq_refl) eq_refl eq_refl eq_refl).
Qed.
Lemma host_told : heard plain (begin_ ++ setup4) = [(true, [CName (text "Miracle"); CSub []])].
Proof. vm_compute. reflexivity. Qed.
(** Renamed while running; the process dies and is started again. *)
Definition reborn : list Link_Model.event := [EUdev Other 3 (Some wlan0) false true; EUdev Move 3 (Some wlan1) false true; EFail 3; ESpawn 3].
Lemma paths_false : exists c es ls, run_links c es [] = Ok ls /\ ~ same_path ls.
Proof.
  exists plain, reborn. eexists. split; [vm_compute; reflexivity|]. intros H. specialize (H _ _ (or_introl eq_refl) eq_refl). discriminate H.
Qed.
Lemma managed_examples : map l_managed (links plain story) = [true; true] /\ map l_managed (links (tagged true) story) = [false; false]
  /\ map l_managed (links plain (story ++ [ESetManaged 4 false true])) = [false; true] /\ map l_managed (links (tagged true) (story ++ [ESetManaged 4 true true])) = [true; false].
Proof. vm_compute. auto. Qed.
Lemma quiet_example : map (fun l => (l_managed l, l_proc l)) (links plain (story ++ [ESetManaged 4 false true])) = [(false, None); (true, Some (mkProc wlan0 (text "unknown") []))].
Proof. vm_compute. reflexivity. Qed.
Lemma path_examples : map (fun l => (l_at l, option_map p_arg (l_proc l))) (links plain reborn) = [(Some wlan0, Some wlan1)]
  /\ map (fun l => (l_at l, option_map p_arg (l_proc l))) (links plain (begin_ ++ [EFail 3; ESpawn 3])) = [(Some wlan0, Some wlan0)].
Proof. vm_compute. auto. Qed.
