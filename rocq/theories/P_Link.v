(** Properties C148 .. C155: the links of miracle-wifid. *)
From Coq Require Import String.
From Verif Require Import Base Text Setup_Model Link_Model Link_Spec Link_Proofs Link_Names Link_Cex.
Local Open Scope list_scope.

(** C148. There is one link for each device that udev named acceptably and did not
    remove since, and no other. *)
Theorem C148_links_exist : forall c es i ls, i <> 0 -> run_links c es [] = Ok ls -> has_link i ls <-> seen c i es.
Proof. exact links_exist. Qed.
Print Assumptions C148_links_exist.
Theorem C148_links_distinct : forall c es ls ls', NoDup (map l_ix ls) -> run_links c es ls = Ok ls' -> NoDup (map l_ix ls').
Proof. exact links_distinct. Qed.
Print Assumptions C148_links_distinct.
Theorem C148_no_link_zero : forall c es ls, run_links c es [] = Ok ls -> ~ has_link 0 ls.
Proof. exact no_link_zero. Qed.
Print Assumptions C148_no_link_zero.
Example C148_ex : (indices (links plain story) = [4; 3] /\ sees plain story = true) /\ (indices (links (only wlan1) story) = [4] /\ sees (only wlan1) story = true).
Proof. exact (conj story_plain story_only). Qed.

(** C149. With --interface every link has that name: not after it was renamed. *)
Theorem C149_renamed_refuted : exists c es ls, run_links c es [] = Ok ls /\ ~ only_chosen c ls.
Proof. exact only_chosen_false. Qed.
Print Assumptions C149_renamed_refuted.
Theorem C149_unmoved_partial : forall c es ls, ~ moves es -> run_links c es [] = Ok ls -> only_chosen c ls.
Proof. exact only_chosen_unmoved. Qed.
Print Assumptions C149_unmoved_partial.
Example C149_ex : exists l, links (only wlan0) rename = [l] /\ l_ifname l = wlan1 /\ l_managed l = true /\ l_proc l <> None.
Proof. exact rename_kept. Qed.

(** C150. Every event of udev is handled without undefined behaviour: not one
    without a name if --interface is given. *)
Theorem C150_nameless_refuted : exists c es, run_links c es [] = UB.
Proof. exact nameless_ub. Qed.
Print Assumptions C150_nameless_refuted.
Theorem C150_named_partial : forall c es, named es -> forall ls, exists ls', run_links c es ls = Ok ls'.
Proof. exact named_defined. Qed.
Print Assumptions C150_named_partial.
Theorem C150_free_partial : forall c es, m_iface c = None -> forall ls, exists ls', run_links c es ls = Ok ls'.
Proof. exact free_defined. Qed.
Print Assumptions C150_free_partial.
Example C150_ex : sees plain story = true /\ sees (only wlan1) story = true.
Proof. exact (conj (proj2 story_plain) (proj2 story_only)). Qed.

(** C151. A link is managed as the user said last: events of the device undo it. *)
Theorem C151_unwanted_refuted : exists c es i ls, run_links c es [] = Ok ls /\ unwanted i es /\ managed i ls.
Proof. exact unwanted_false. Qed.
Print Assumptions C151_unwanted_refuted.
Theorem C151_wanted_refuted : exists c i ls, run_links c [EUdev Other i (Some wlan0) true true; ESetManaged i true true; EUdev Other i (Some wlan0) true true] [] = Ok ls
  /\ has_link i ls /\ ~ managed i ls.
Proof. exact wanted_false. Qed.
Print Assumptions C151_wanted_refuted.
Theorem C151_until_udev_partial : forall c pre post i ok ls,
  (forall e, In e post -> ~ user_or_udev i e) -> i <> 0 -> run_links c (pre ++ ESetManaged i false ok :: post) [] = Ok ls -> ~ managed i ls.
Proof. exact unwanted_partial. Qed.
Print Assumptions C151_until_udev_partial.
Theorem C151_only_partial : forall c e i ls ls', NoDup (map l_ix ls) -> ~ user_or_udev i e -> step_link c e ls = Ok ls' -> managed i ls' <-> managed i ls.
Proof. exact managed_only. Qed.
Print Assumptions C151_only_partial.
(** New links, and links with RELY_UDEV, are managed as the options say; with
    --lazy-managed no link is managed that the user did not ask for. *)
Theorem C151_new_partial : forall c a i n tag ls ls', NoDup (map l_ix ls) -> i <> 0 -> a <> Remove -> ~ has_link i ls -> acceptable c n ->
  step_link c (EUdev a i (Some n) tag true) ls = Ok ls' ->
  managed i ls' <-> (if m_rely c then tag else true) && negb (m_lazy c) = true.
Proof. exact new_managed. Qed.
Print Assumptions C151_new_partial.
Theorem C151_rely_partial : forall c a i name tag ls ls', NoDup (map l_ix ls) -> i <> 0 -> a <> Remove -> has_link i ls -> m_rely c = true ->
  step_link c (EUdev a i name tag true) ls = Ok ls' -> managed i ls' <-> tag && negb (m_lazy c) = true.
Proof. exact rely_managed. Qed.
Print Assumptions C151_rely_partial.
Theorem C151_lazy_partial : forall c es i ls, m_lazy c = true -> run_links c es [] = Ok ls -> managed i ls -> wants i es.
Proof. exact lazy_wants. Qed.
Print Assumptions C151_lazy_partial.
Example C151_ex : map l_managed (links plain story) = [true; true] /\ map l_managed (links (tagged true) story) = [false; false]
  /\ map l_managed (links plain (story ++ [ESetManaged 4 false true])) = [false; true] /\ map l_managed (links (tagged true) (story ++ [ESetManaged 4 true true])) = [true; false].
Proof. exact managed_examples. Qed.

(** C152. A link that is not managed has no wpa_supplicant. *)
Theorem C152_quiet : forall c es ls, run_links c es [] = Ok ls -> quiet ls.
Proof. exact quiet_run. Qed.
Print Assumptions C152_quiet.
Example C152_ex : map (fun l => (l_managed l, l_proc l)) (links plain (story ++ [ESetManaged 4 false true])) = [(false, None); (true, Some (mkProc wlan0 (text "unknown") []))].
Proof. exact quiet_example. Qed.

(** C153. wpa_supplicant has the name and the subelements of its link: not those
    that were set between the setup request and the end of the setup. *)
Theorem C153_name_refuted : exists c es ls, run_links c es [] = Ok ls /\ (exists l, ls = [l] /\ u_run (l_su l) = true) /\ ~ name_right ls.
Proof. exact names_false. Qed.
Print Assumptions C153_name_refuted.
Theorem C153_sub_refuted : exists c es ls, run_links c es [] = Ok ls /\ (exists l, ls = [l] /\ u_run (l_su l) = true) /\ ~ sub_right ls.
Proof. exact subs_false. Qed.
Print Assumptions C153_sub_refuted.
Theorem C153_timely_partial : forall c es ls, all_timely c es [] -> run_links c es [] = Ok ls -> name_right ls /\ sub_right ls.
Proof. exact names_right. Qed.
Print Assumptions C153_timely_partial.
Theorem C153_status_partial : forall c i a ls ls' l p w, NoDup (map l_ix ls) -> In l ls -> l_ix l = i -> l_public l = true -> l_proc l = Some p -> u_wait (l_su l) = KStatus :: w -> a_p2p a = true ->
  step_link c (EReply i a) ls = Ok ls' -> exists l' p', In l' ls' /\ l_ix l' = i /\ l_proc l' = Some p' /\ told_name (p_cmds p') = Some (or (l_name l) (text "Miracle")) /\ l_name l' = l_name l.
Proof. exact status_tells. Qed.
Print Assumptions C153_status_partial.
Theorem C153_display_partial : forall c i a ls ls' l p w, NoDup (map l_ix ls) -> In l ls -> l_ix l = i -> l_public l = true -> l_proc l = Some p -> u_wait (l_su l) = KDisplay :: w -> a_ok a = true -> u_wfd (l_su l) = true ->
  step_link c (EReply i a) ls = Ok ls' -> exists l' p', In l' ls' /\ l_ix l' = i /\ l_proc l' = Some p' /\ told_sub (p_cmds p') = Some (or (l_wfd l) []) /\ l_wfd l' = l_wfd l.
Proof. exact display_tells. Qed.
Print Assumptions C153_display_partial.
Theorem C153_ready_partial : forall c i n ls ls' l p, NoDup (map l_ix ls) -> In l ls -> l_ix l = i -> l_proc l = Some p -> u_run (l_su l) = true -> n <> [] ->
  step_link c (EName i n) ls = Ok ls' -> exists l' p', In l' ls' /\ l_ix l' = i /\ l_proc l' = Some p' /\ told_name (p_cmds p') = Some n /\ l_name l' = Some n.
Proof. exact name_tells. Qed.
Print Assumptions C153_ready_partial.
Theorem C153_ready_sub_partial : forall c i v ls ls' l p, NoDup (map l_ix ls) -> In l ls -> l_ix l = i -> l_managed l = true -> l_proc l = Some p -> u_run (l_su l) = true ->
  step_link c (EWfd i v) ls = Ok ls' -> exists l' p', In l' ls' /\ l_ix l' = i /\ l_proc l' = Some p' /\ told_sub (p_cmds p') = Some v /\ l_wfd l' = Some v.
Proof. exact sub_tells. Qed.
Print Assumptions C153_ready_sub_partial.
Example C153_ex : heard plain ([EUdev Other 3 (Some wlan0) false true; EName 3 (text "tv"); EWfd 3 (text "00"); EUp 3] ++ setup4 ++ [EName 3 (text "box"); EWfd 3 (text "11")])
  = [(true, [CName (text "tv"); CSub (text "00"); CName (text "box"); CSub (text "11")])].
Proof. exact told_both. Qed.

(** C154. The name of the machine is the name of a link that has no other: it
    reaches none; names and subelements come from the user alone. *)
Theorem C154_host_refuted : exists c es ls, run_links c es [] = Ok ls /\ ~ announces_host c ls.
Proof. exact host_false. Qed.
Print Assumptions C154_host_refuted.
Theorem C154_user_partial : forall c es ls, run_links c es [] = Ok ls -> from_user es ls.
Proof. exact names_from_user. Qed.
Print Assumptions C154_user_partial.
Example C154_ex : heard plain (begin_ ++ setup4) = [(true, [CName (text "Miracle"); CSub []])].
Proof. exact host_told. Qed.

(** C155. wpa_supplicant listens where miracle-wifid connects: not if it is started
    again after the interface was renamed. *)
Theorem C155_renamed_refuted : exists c es ls, run_links c es [] = Ok ls /\ ~ same_path ls.
Proof. exact paths_false. Qed.
Print Assumptions C155_renamed_refuted.
Theorem C155_unmoved_partial : forall c es ls, ~ moves es -> run_links c es [] = Ok ls -> same_path ls.
Proof. exact paths_unmoved. Qed.
Print Assumptions C155_unmoved_partial.
Example C155_ex : map (fun l => (l_at l, option_map p_arg (l_proc l))) (links plain reborn) = [(Some wlan0, Some wlan1)]
  /\ map (fun l => (l_at l, option_map p_arg (l_proc l))) (links plain (begin_ ++ [EFail 3; ESpawn 3])) = [(Some wlan0, Some wlan0)].
Proof. exact path_examples. Qed.
