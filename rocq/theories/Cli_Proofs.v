(** Commands: which one is run, that none fails, what they mean. *)
From Coq Require Import String ZArith.
From Verif Require Import Base Text Mirror_Model Mirror_Client Cli_Model Cli_Spec Cli_Search.
Local Open Scope list_scope.

Lemma str_eq_spec a : forall b, str_eq a b = true <-> a = b.
Proof.
  induction a as [|x a IH]; intros [|y b]; cbn [str_eq]; try (split; congruence).
  rewrite andb_true_iff, N.eqb_eq, IH. split; [intros [-> ->]; reflexivity|intros E; injection E; auto].
Qed.
Lemma str_eq_refl a : str_eq a a = true. Proof. apply str_eq_spec. reflexivity. Qed.
Lemma str_eq_false a b : str_eq a b = false <-> a <> b.
Proof. rewrite <- str_eq_spec. destruct (str_eq a b); split; congruence. Qed.

(** ** Which command *)
Lemma find_entry_some es prompt w e : find_entry es prompt w = Some e -> In e es /\ w = e_name e /\ skipped prompt (e_mode e) = false.
Proof.
  induction es as [|x es IH]; cbn [find_entry]; [discriminate|]. destruct (str_eq w (e_name x)) eqn:E; cbn [negb].
  - destruct (skipped prompt (e_mode x)) eqn:S1; [intros H; destruct (IH H); cbn [In]; tauto|]. intros H. injection H as <-.
    apply str_eq_spec in E. cbn [In]. auto.
  - intros H. destruct (IH H). cbn [In]. tauto.
Qed.
Lemma find_entry_none es prompt w : find_entry es prompt w = None -> forall e, In e es -> w = e_name e -> skipped prompt (e_mode e) = true.
Proof.
  induction es as [|x es IH]; cbn [find_entry]; intros H e Hin Hw; [destruct Hin|]. destruct (str_eq w (e_name x)) eqn:E; cbn [negb] in H.
  - destruct (skipped prompt (e_mode x)) eqn:S1; [|discriminate]. destruct Hin as [<-|Hin]; auto.
  - destruct Hin as [<-|Hin]; [apply str_eq_false in E; congruence|auto].
Qed.
(** The tables say what the usage says. *)
Definition limits (e : entry) : N * option N :=
  match e_cmp e with CLI_MORE => (e_argc e, None) | CLI_LESS => (0, Some (e_argc e)) | CLI_EQUAL => (e_argc e, Some (e_argc e)) end.
Definition only (e : entry) : bool := match e_mode e with CLI_Y => true | _ => false end.
Lemma usage_table pr : usage pr = map (fun e => (e_name e, only e, fst (limits e), snd (limits e))) (table pr).
Proof. destruct pr; reflexivity. Qed.
Lemma modes pr e : In e (table pr) -> e_mode e <> CLI_N.
Proof. intros H. destruct pr; cbn [table] in H; repeat destruct H as [<-|H]; try discriminate; destruct H. Qed.
Lemma skipped_only pr e prompt : In e (table pr) -> skipped prompt (e_mode e) = false <-> (only e = true -> prompt = true).
Proof. intros H. pose proof (modes pr e H). unfold only, skipped. destruct (e_mode e), prompt; cbn; split; try congruence; auto; intros X; specialize (X eq_refl); congruence. Qed.
Lemma usable_entry pr prompt w least most : usable pr prompt w least most <-> exists e, In e (table pr) /\ w = e_name e /\ skipped prompt (e_mode e) = false /\ limits e = (least, most).
Proof.
  unfold usable. rewrite usage_table. split.
  - intros [o [H O]]. apply in_map_iff in H. destruct H as [e [E H]]. injection E as <- <- <- <-. exists e. repeat split; auto; [|destruct (limits e); reflexivity]. apply (skipped_only pr); auto.
  - intros [e [H [-> [S1 L]]]]. exists (only e). split; [apply in_map_iff; exists e; rewrite L; auto|]. apply (skipped_only pr e prompt H). exact S1.
Qed.
Lemma names_nodup pr : NoDup (map e_name (table pr)).
Proof. destruct pr; vm_compute; repeat (constructor; [cbn; intuition discriminate|]); constructor. Qed.
Lemma nodup_name es : NoDup (map e_name es) -> forall e f, In e es -> In f es -> e_name e = e_name f -> e = f.
Proof.
  induction es as [|x es IH]; cbn [map]; intros N0 e f He Hf E; [destruct He|]. inversion N0; subst.
  destruct He as [<-|He], Hf as [<-|Hf]; auto; [exfalso; apply H1; rewrite E; apply in_map; exact Hf|exfalso; apply H1; rewrite <- E; apply in_map; exact He].
Qed.
Lemma find_entry_in pr prompt e : In e (table pr) -> skipped prompt (e_mode e) = false -> find_entry (table pr) prompt (e_name e) = Some e.
Proof.
  intros H S1. destruct (find_entry (table pr) prompt (e_name e)) as [f|] eqn:F.
  - apply find_entry_some in F. destruct F as [F [E _]]. f_equal. symmetry. eapply nodup_name; eauto. apply names_nodup.
  - pose proof (find_entry_none _ _ _ F e H eq_refl). congruence.
Qed.
Lemma count_limits e n : count_error e n = None <-> enough n (fst (limits e)) (snd (limits e)).
Proof.
  unfold count_error, limits, enough. destruct (e_cmp e); cbn [fst snd].
  - destruct (N.ltb_spec n (e_argc e)); split; try discriminate; try lia; auto.
  - destruct (N.ltb_spec (e_argc e) n); split; try discriminate; try lia; auto.
  - destruct (N.eqb_spec n (e_argc e)); cbn [negb]; split; try discriminate; try lia; auto.
Qed.
Lemma count_complaint e n m : count_error e n = Some m -> complaint m.
Proof. unfold count_error, complaint. destruct (e_cmp e); [destruct (n <? e_argc e)|destruct (e_argc e <? n)|destruct (negb (n =? e_argc e))]; intros E; try discriminate; injection E as <-; cbn [In]; auto. Qed.
Lemma not_help pr w : (forall least most, ~ usable pr true w least most) -> str_eq w (text "help") = false.
Proof.
  intros H. apply str_eq_false. intros ->. apply (H 0 None). exists false. split; [|discriminate]. destruct pr; cbn [usage In]; tauto.
Qed.
Lemma help_any pr prompt : exists least most, usable pr prompt (text "help") least most.
Proof. exists 0, None. exists false. split; [destruct pr; cbn [usage In]; tauto|discriminate]. Qed.
Theorem unknown_word ans pr prompt w args s : (forall least most, ~ usable pr prompt w least most) -> cli_do ans pr prompt (w :: args) s = Ok ((- EAGAIN)%Z, [], s).
Proof.
  intros H. assert (Hh : str_eq w (text "help") = false).
  { apply str_eq_false. intros ->. destruct (help_any pr prompt) as [a [b X]]. exact (H a b X). }
  unfold cli_do. rewrite Hh. destruct (find_entry (table pr) prompt w) as [e|] eqn:F; [|reflexivity]. exfalso.
  apply find_entry_some in F. destruct F as [F [-> S1]]. apply (H (fst (limits e)) (snd (limits e))). apply usable_entry. exists e. repeat split; auto. destruct (limits e); reflexivity.
Qed.
Theorem wrong_count ans pr prompt w args s least most : usable pr prompt w least most -> ~ enough (lenN args) least most ->
  exists t, complaint t /\ cli_do ans pr prompt (w :: args) s = Ok ((- EINVAL)%Z, [Line t], s).
Proof.
  intros U En. apply usable_entry in U. destruct U as [e [H [-> [S1 L]]]]. unfold cli_do. rewrite (find_entry_in pr prompt e H S1).
  destruct (count_error e (lenN args)) as [m|] eqn:C; [exists m; split; [exact (count_complaint _ _ _ C)|reflexivity]|].
  apply count_limits in C. rewrite L in C. contradiction.
Qed.
Lemma do_known ans pr prompt w args s e f : find_entry (table pr) prompt w = Some e -> count_error e (lenN args) = None -> e_fn e = Some f ->
  cli_do ans pr prompt (w :: args) s = do r <- command ans pr f args s; let '(r, o, s) := r in Ok (if (r =? - EAGAIN)%Z then (- EINVAL)%Z else r, o, s).
Proof. intros F C G. unfold cli_do. rewrite F, C, G. reflexivity. Qed.
Lemma no_fn pr e : In e (table pr) -> e_fn e = None -> e_name e = text "help".
Proof. intros H. destruct pr; cbn [table] in H; repeat destruct H as [<-|H]; try discriminate; try destruct H; reflexivity. Qed.
Theorem known_word ans pr prompt w args s least most r o s' : usable pr prompt w least most -> cli_do ans pr prompt (w :: args) s = Ok (r, o, s') -> r <> (- EAGAIN)%Z.
Proof.
  intros U. apply usable_entry in U. destruct U as [e [H [-> [S1 L]]]]. unfold cli_do. rewrite (find_entry_in pr prompt e H S1).
  destruct (count_error e (lenN args)) as [m|]; [intros E; injection E as <- _ _; discriminate|].
  destruct (e_fn e) as [f|] eqn:F.
  - destruct (command ans pr f args s) as [[[r0 o0] s0]|]; cbn [bind]; [|discriminate]. intros E. injection E as E1 _ _. rewrite <- E1. clear E1.
    unfold EAGAIN. destruct (Z.eqb_spec r0 (-11)); lia.
  - rewrite (no_fn pr e H F), str_eq_refl. unfold done. intros E. injection E as <- _ _. discriminate.
Qed.
Theorem help_rows ans pr prompt args s : exists rows, cli_do ans pr prompt (text "help" :: args) s = Ok (0%Z, Line (text "Available commands:") :: map HelpRow rows, s)
  /\ forall w, In w rows <-> w <> text "exit" /\ exists least most, usable pr prompt w least most.
Proof.
  set (keep := fun e => negb (negb (e_desc e) || skipped prompt (e_mode e))).
  exists (map e_name (filter keep (table pr))). split.
  - assert (C : cli_help (table pr) prompt = Line (text "Available commands:") :: map HelpRow (map e_name (filter keep (table pr)))).
    { unfold cli_help. f_equal. induction (table pr) as [|e es IH]; cbn [flat_map filter map]; [reflexivity|]. rewrite IH. unfold keep.
      destruct (negb (e_desc e) || skipped prompt (e_mode e)); reflexivity. }
    assert (F : find_entry (table pr) prompt (text "help") = Some (mkE (text "help") CLI_M CLI_MORE 0 None true (comp []))) by (destruct pr, prompt; reflexivity).
    unfold cli_do. rewrite F. cbn [count_error e_cmp e_argc e_fn]. replace (lenN args <? 0) with false by (symmetry; apply N.ltb_ge; lia). rewrite str_eq_refl, <- C. reflexivity.
  - intros w. rewrite in_map_iff. split.
    + intros [e [<- H]]. apply filter_In in H. destruct H as [H K]. unfold keep in K. apply negb_true_iff, orb_false_iff in K. destruct K as [K1 K2]. apply negb_false_iff in K1.
      split; [|exists (fst (limits e)), (snd (limits e)); apply usable_entry; exists e; repeat split; auto; destruct (limits e); reflexivity].
      intros X. destruct pr; cbn [table] in H; repeat destruct H as [<-|H]; try discriminate; destruct H.
    + intros [Hn [least [most U]]]. apply usable_entry in U. destruct U as [e [H [-> [S1 L]]]]. exists e. split; [reflexivity|]. apply filter_In. split; [exact H|].
      unfold keep. rewrite S1, orb_false_r, negb_involutive. destruct pr; cbn [table] in H; repeat destruct H as [<-|H]; try reflexivity; try (destruct H); exfalso; apply Hn; reflexivity.
Qed.

(** ** No command fails *)
Definition fine (r : res reply) : Prop := exists z o s', r = Ok (z, o, s') /\ ok s'.
Lemma ok_in s l : ok s -> In l (links s) -> ok_link l.
Proof. intros [H _] Hl. rewrite Forall_forall in H. auto. Qed.
Lemma lower_alike a b : map lower a = map lower b <-> case_eq a b = true. Proof. symmetry. apply case_lower. Qed.
Lemma put_labels l' c : NoDup (map (fun l => map lower (cl_label l)) c) -> In (cl_label l') (map cl_label c) -> map cl_label (c_put l' c) = map cl_label c.
Proof.
  intros N0 Hl. unfold c_put. rewrite map_map. apply map_ext_in. intros x Hx. destruct (case_eq (cl_label x) (cl_label l')) eqn:C; [|reflexivity].
  apply case_lower in C. apply in_map_iff in Hl. destruct Hl as [y [E Hy]]. rewrite <- E in C |- *. clear E.
  induction c as [|z c IH]; [destruct Hx|]. cbn [map] in N0. inversion N0; subst. destruct Hx as [<-|Hx], Hy as [<-|Hy]; auto.
  - exfalso. apply H1. rewrite C. apply (in_map (fun l => map lower (cl_label l))). exact Hy.
  - exfalso. apply H1. rewrite <- C. apply (in_map (fun l => map lower (cl_label l))). exact Hx.
Qed.
Lemma lowers c : map (fun l => map lower (cl_label l)) c = map (map lower) (map cl_label c). Proof. rewrite map_map. reflexivity. Qed.
Lemma ok_put s l' sc : ok s -> In (cl_label l') (map cl_label (links s)) -> ok_link l' -> ok (mkSt (c_put l' (links s)) (cur s) (bound s) sc).
Proof.
  intros [F [N0 C]] Hl Hk. pose proof (put_labels l' (links s) N0 Hl) as E. unfold ok. cbn [links cur bound]. split; [|split].
  - unfold c_put. rewrite Forall_forall in F |- *. intros x Hx. apply in_map_iff in Hx. destruct Hx as [y [<- Hy]]. destruct (case_eq _ _); auto.
  - rewrite lowers, E, <- lowers. exact N0.
  - intros t Ht. rewrite E. auto.
Qed.
Lemma ok_cur s t : ok s -> In t (map cl_label (links s)) -> ok (with_cur (Some t) s).
Proof. intros [F [N0 C]] H. split; [exact F|]. split; [exact N0|]. intros u E. injection E as <-. exact H. Qed.
Lemma ok_nocur s : ok s -> ok (with_cur None s).
Proof. intros [F [N0 C]]. split; [exact F|]. split; [exact N0|]. intros u E. discriminate. Qed.
Lemma ok_scans s b sc : ok s -> ok (mkSt (links s) (cur s) b sc). Proof. intros H. exact H. Qed.
Lemma deref_ok s label : ok s -> In label (map cl_label (links s)) -> exists l, deref s label = Ok l /\ In l (links s) /\ cl_label l = label.
Proof.
  intros Hok H. unfold deref. destruct (find (fun l => str_eq (cl_label l) label) (links s)) as [l|] eqn:F.
  - destruct (find_split _ _ _ F) as [a [b [E [Fx _]]]]. apply str_eq_spec in Fx. exists l. repeat split; auto. rewrite E. apply in_elt.
  - exfalso. apply in_map_iff in H. destruct H as [l [E Hl]]. pose proof (find_none _ _ F l Hl) as X. cbn beta in X. rewrite E, str_eq_refl in X. discriminate.
Qed.
Lemma same_as_ok l (Hl : ok_link l) : (forall t, exists b, same_as (cl_name l) t = Ok b /\ (b = true <-> cl_name l = Some t)) /\ (forall t, exists b, same_as (cl_wfd l) t = Ok b /\ (b = true <-> cl_wfd l = Some t)).
Proof.
  destruct Hl as [H1 H2]. unfold same_as. split; intros t; [destruct (cl_name l) as [x|]|destruct (cl_wfd l) as [x|]]; try congruence; exists (str_eq x t); (split; [reflexivity|]);
    rewrite str_eq_spec; split; congruence.
Qed.
(** What the setters do, exactly. *)
Definition does (r : res reply) (cs : list call) (c' : option (list byte)) : Prop := exists z o s', r = Ok (z, o, s') /\ ok s' /\ calls o = cs /\ cur s' = c'.
Lemma does_fine r cs c' : does r cs c' -> fine r. Proof. intros [z [o [s' [E [H _]]]]]. exists z, o, s'. auto. Qed.
Section Ans.
Variable ans : call -> Z.
Lemma calls_ask c : calls (snd (ask ans c)) = [c].
Proof. unfold ask. destruct (ans c <? 0)%Z; reflexivity. Qed.
Lemma calls_app a b : calls (a ++ b) = calls a ++ calls b. Proof. apply flat_map_app. Qed.
Lemma set_name_does s l t cs : ok s -> In l (links s) -> change (cl_name l = Some t) (AskName (cl_label l) t) cs -> does (set_friendly_name ans l t s) cs (cur s).
Proof.
  intros Hok Hl Hc. unfold set_friendly_name. destruct (same_as_ok l (ok_in s l Hok Hl)) as [X _]. destruct (X t) as [b [E B]]. rewrite E. cbn [bind].
  pose proof (calls_ask (AskName (cl_label l) t)) as C. destruct Hc as [[A ->]|[A ->]].
  - apply B in A. subst b. exists 0%Z, [], s. auto.
  - destruct b; [destruct A; apply B; reflexivity|]. destruct (ask ans (AskName (cl_label l) t)) as [r o]. exists r, o, s. auto.
Qed.
Lemma set_wfd_does s l t cs : ok s -> In l (links s) -> change (cl_wfd l = Some t) (AskWfd (cl_label l) t) cs -> exists z o, set_wfd ans l t s = Ok (z, o, s) /\ calls o = cs.
Proof.
  intros Hok Hl Hc. unfold set_wfd. destruct (same_as_ok l (ok_in s l Hok Hl)) as [_ X]. destruct (X t) as [b [E B]]. rewrite E. cbn [bind].
  pose proof (calls_ask (AskWfd (cl_label l) t)) as C. destruct Hc as [[A ->]|[A ->]].
  - apply B in A. subst b. exists 0%Z, []. auto.
  - destruct b; [destruct A; apply B; reflexivity|]. destruct (ask ans (AskWfd (cl_label l) t)) as [r o]. exists r, o. auto.
Qed.
Lemma set_managed_does s l b cs : ok s -> In l (links s) -> change (cl_managed l = b) (AskManaged (cl_label l) b) cs -> does (set_managed ans l b s) cs (cur s).
Proof.
  intros Hok Hl Hc. unfold set_managed. pose proof (calls_ask (AskManaged (cl_label l) b)) as C. destruct Hc as [[A ->]|[A ->]].
  - rewrite A, Bool.eqb_reflx. exists 0%Z, [], s. auto.
  - apply Bool.eqb_false_iff in A. rewrite A. destruct (ask ans (AskManaged (cl_label l) b)) as [r o]. eexists r, o, _. split; [reflexivity|].
    destruct (r <? 0)%Z; [auto|]. split; [|auto]. apply ok_put; [exact Hok|exact (in_map cl_label _ _ Hl)|exact (ok_in s l Hok Hl)].
Qed.
Lemma set_scanning_does s l b cs : ok s -> In l (links s) -> change (cl_scan l = b) (AskScan (cl_label l) b) cs -> does (set_scanning ans l b s) cs (cur s).
Proof.
  intros Hok Hl Hc. unfold set_scanning. pose proof (calls_ask (AskScan (cl_label l) b)) as C. destruct Hc as [[A ->]|[A ->]].
  - rewrite A, Bool.eqb_reflx. exists 0%Z, [], s. auto.
  - apply Bool.eqb_false_iff in A. rewrite A. destruct (ask ans (AskScan (cl_label l) b)) as [r o]. eexists r, o, _. split; [reflexivity|].
    destruct ((r <? 0)%Z || negb b); auto.
Qed.
Lemma change_bool (a b : bool) c : exists cs, change (a = b) c cs.
Proof. unfold change. destruct (Bool.bool_dec a b); eauto. Qed.
Lemma change_opt (a : option (list byte)) t c : exists cs, change (a = Some t) c cs.
Proof. unfold change. destruct a as [x|]; [destruct (list_eq_dec N.eq_dec x t) as [->|H]; [eauto|exists [c]; right; split; congruence]|exists [c]; right; split; congruence]. Qed.
Lemma change_fun A c cs cs' : change A c cs -> change A c cs' -> cs = cs'.
Proof. unfold change. intros [[X ->]|[X ->]] [[Y ->]|[Y ->]]; tauto. Qed.
Lemma run_on_does s l c1 c2 : ok s -> In l (links s) -> cur s = None ->
  change (cl_wfd l = Some sink_wfd) (AskWfd (cl_label l) sink_wfd) c1 -> change (cl_scan l = true) (AskScan (cl_label l) true) c2 ->
  does (run_on ans l s) (c1 ++ c2) (Some (cl_label l)).
Proof.
  intros Hok Hl Hn H1 H2. unfold run_on. rewrite Hn. set (s1 := with_cur (Some (cl_label l)) s).
  assert (Hok1 : ok s1) by (apply ok_cur; [exact Hok|apply in_map; exact Hl]). fold sink_wfd.
  destruct (set_wfd_does s1 l sink_wfd c1 Hok1 Hl H1) as [z [o1 [E C]]]. rewrite E. cbn [bind].
  destruct (set_scanning_does s1 l true c2 Hok1 Hl H2) as [z2 [o2 [s2 [E2 [Hok2 [C2 K]]]]]]. rewrite E2. cbn [bind]. unfold done.
  eexists 0%Z, _, s2. split; [reflexivity|]. split; [exact Hok2|]. split; [|exact K].
  rewrite !calls_app, C, C2. cbn [calls flat_map]. rewrite app_nil_r. reflexivity.
Qed.
Lemma run_on_fine s l : ok s -> In l (links s) -> fine (run_on ans l s).
Proof.
  intros Hok Hl. destruct (cur s) as [t|] eqn:C.
  - unfold run_on. rewrite C. exists 0%Z, [], s. auto.
  - destruct (change_opt (cl_wfd l) sink_wfd (AskWfd (cl_label l) sink_wfd)) as [c1 H1]. destruct (change_bool (cl_scan l) true (AskScan (cl_label l) true)) as [c2 H2].
    eapply does_fine. apply run_on_does; eauto.
Qed.
Lemma fine_done o s : ok s -> fine (done o s). Proof. intros H. exists 0%Z, o, s. auto. Qed.
Lemma name_fine s l t : ok s -> In l (links s) -> fine (set_friendly_name ans l t s).
Proof. intros Hok Hl. destruct (change_opt (cl_name l) t (AskName (cl_label l) t)) as [cs H]. eapply does_fine. apply set_name_does; eauto. Qed.
Lemma managed_fine s l b : ok s -> In l (links s) -> fine (set_managed ans l b s).
Proof. intros Hok Hl. destruct (change_bool (cl_managed l) b (AskManaged (cl_label l) b)) as [cs H]. eapply does_fine. apply set_managed_does; eauto. Qed.
Lemma scan_fine s l b : ok s -> In l (links s) -> fine (set_scanning ans l b s).
Proof. intros Hok Hl. destruct (change_bool (cl_scan l) b (AskScan (cl_label l) b)) as [cs H]. eapply does_fine. apply set_scanning_does; eauto. Qed.
Lemma current_fine pr s f : ok s -> (forall l, In l (links s) -> fine (f l)) -> fine (on_current pr s f).
Proof.
  intros Hok H. unfold on_current. destruct (cur s) as [t|] eqn:C; [|apply fine_done; exact Hok].
  destruct (deref_ok s t Hok) as [l [E [Hl _]]]; [destruct Hok as [_ [_ X]]; auto|]. rewrite E. cbn [bind]. auto.
Qed.
Lemma value_fine pr args s f : ok s -> (forall l v, In l (links s) -> fine (f l v)) -> fine (link_and_value pr args s f).
Proof.
  intros Hok H. unfold link_and_value. destruct args as [|a [|b args]]; autorewrite with lenN; [apply fine_done; exact Hok|apply current_fine; auto|].
  replace (1 + (1 + lenN args) <? 1) with false by (symmetry; apply N.ltb_ge; lia). replace (1 <? 1 + (1 + lenN args)) with true by (symmetry; apply N.ltb_lt; lia).
  cbn [arg nth_error bind]. destruct (search_link (links s) a) as [l|] eqn:S1; [|apply fine_done; exact Hok]. apply H. eapply search_link_in; eauto.
Qed.
Lemma scan_args_in c args : forall l stop l' stop', (forall k, l = Some k -> In k c) -> scan_args c args l stop = inl (l', stop') -> forall k, l' = Some k -> In k c.
Proof.
  induction args as [|a args IH]; intros l stop l' stop' H; cbn [scan_args]; [intros E; injection E as <- <-; exact H|].
  destruct (str_eq a (text "stop")); [apply IH; exact H|]. destruct (search_link c a) as [x|] eqn:S1; [|discriminate]. apply IH. intros k E. injection E as <-. eapply search_link_in; eauto.
Qed.
Lemma of_peer_fine lp c s : ok s -> fine (of_peer ans lp c s).
Proof. intros Hok. unfold of_peer. destruct (cl_managed (fst lp)); [|apply fine_done; exact Hok]. destruct (ask ans c) as [r o]. exists r, o, s. auto. Qed.
Lemma already_fine s t : ok s -> cur s = Some t -> fine (already s t).
Proof. intros Hok C. unfold already. destruct (deref_ok s t Hok) as [l [E _]]; [destruct Hok as [_ [_ X]]; auto|]. rewrite E. cbn [bind]. apply fine_done. exact Hok. Qed.
Ltac fd := apply fine_done; assumption.
Theorem command_fine pr e f args s : In e (table pr) -> e_fn e = Some f -> count_error e (lenN args) = None -> ok s -> fine (command ans pr f args s).
Proof.
  intros He Hf Hc Hok. apply count_limits in Hc.
  assert (A1 : 1 <= lenN args -> exists a rest, args = a :: rest) by (destruct args; [rewrite lenN_nil; lia|eauto]).
  assert (A2 : 2 <= lenN args -> exists a b rest, args = a :: b :: rest) by (destruct args as [|a [|b args]]; rewrite ?lenN_cons, ?lenN_nil; try lia; eauto).
  destruct f; cbn [command].
  - unfold cmd_list. fd.
  - unfold cmd_show. destruct args as [|a args]; autorewrite with lenN.
    + change (0 <? 0) with false. cbn iota. destruct pr, (cur s) as [t|] eqn:C; try fd.
      destruct (deref_ok s t Hok) as [l [E _]]; [destruct Hok as [_ [_ X]]; auto|]. rewrite E. cbn [bind]. fd.
    + replace (0 <? 1 + lenN args) with true by (symmetry; apply N.ltb_lt; lia). cbn [arg nth_error bind].
      destruct (find_link (links s) a); [fd|]. destruct (find_pair (links s) a) as [[]|]; [fd|]. destruct (search_link (links s) a); [fd|]. destruct (search_peer (links s) a) as [[]|]; fd.
  - unfold cmd_select. destruct args as [|a args]; autorewrite with lenN.
    + change (0 =? 0) with true. cbn iota. destruct (cur s) as [t|] eqn:C; [|fd].
      destruct (deref_ok s t Hok) as [l [E _]]; [destruct Hok as [_ [_ X]]; auto|]. rewrite E. cbn [bind]. apply fine_done. apply ok_nocur. exact Hok.
    + replace (1 + lenN args =? 0) with false by (symmetry; apply N.eqb_neq; lia). cbn [arg nth_error bind]. destruct (search_link (links s) a) as [l|] eqn:S1; [|fd].
      apply search_link_in in S1. assert (Hok1 : ok (with_cur (Some (cl_label l)) s)) by (apply ok_cur; [exact Hok|apply in_map; exact S1]).
      destruct (change_opt (cl_wfd l) sink_wfd (AskWfd (cl_label l) sink_wfd)) as [c1 H1]. destruct (set_wfd_does _ l sink_wfd c1 Hok1 S1 H1) as [z [o1 [E C]]]. fold sink_wfd. rewrite E. cbn [bind]. fd.
  - apply value_fine; [exact Hok|]. intros l v Hl. apply name_fine; auto.
  - unfold cmd_run. destruct (cur s) as [t|] eqn:C; [apply already_fine; auto|].
    assert (L : 1 <= lenN args). { destruct pr; cbn [table] in He; repeat destruct He as [<-|He]; try discriminate; try (destruct He); cbn in Hc; destruct Hc; lia. }
    destruct (A1 L) as [a [rest ->]]. cbn [arg nth_error bind]. destruct (search_link (links s) a) as [l|] eqn:S1; [|fd]. destruct (cl_managed l); [|fd]. apply run_on_fine; [exact Hok|eapply search_link_in; eauto].
  - unfold cmd_bind. destruct (cur s) as [t|] eqn:C; [apply already_fine; auto|].
    assert (L : 1 <= lenN args). { destruct pr; cbn [table] in He; repeat destruct He as [<-|He]; try discriminate; try (destruct He); cbn in Hc; destruct Hc; lia. }
    destruct (A1 L) as [a [rest ->]]. cbn [arg nth_error bind links]. assert (Hok1 : ok (mkSt (links s) None (Some a) (scans s))) by (rewrite <- C; apply ok_scans; exact Hok).
    destruct (search_link (links s) a) as [l|] eqn:S1; [|fd]. destruct (cl_managed l); [|fd]. apply run_on_fine; [exact Hok1|eapply search_link_in; eauto].
  - unfold cmd_set_managed. destruct pr; [|apply value_fine; [exact Hok|]; intros l v Hl; apply managed_fine; auto].
    assert (L : 2 <= lenN args). { cbn [table] in He; repeat destruct He as [<-|He]; try discriminate; try (destruct He); cbn in Hc; destruct Hc; lia. }
    destruct (A2 L) as [a [b [rest ->]]]. cbn [arg nth_error bind]. destruct (search_link (links s) a) as [l|] eqn:S1; [|fd]. apply managed_fine; [exact Hok|eapply search_link_in; eauto].
  - unfold cmd_p2p_scan. destruct (scan_args (links s) args None false) as [[l stop]|a] eqn:S1; [|fd]. destruct l as [l|].
    + assert (Hl : In l (links s)) by (apply (scan_args_in _ _ _ _ _ _ (fun k (E : None = Some k) => ltac:(discriminate E)) S1); reflexivity).
      destruct (cl_managed l); [apply scan_fine; auto|fd].
    + apply current_fine; [exact Hok|]. intros l Hl. destruct (cl_managed l); [apply scan_fine; auto|fd].
  - unfold cmd_connect. destruct args as [|a args]; [fd|]. replace (lenN (a :: args) <? 1) with false by (symmetry; apply N.ltb_ge; rewrite lenN_cons; lia). cbn [arg nth_error bind].
    destruct (search_peer (links s) a) as [lp|]; [|fd]. destruct args as [|b [|p args]]; autorewrite with lenN.
    + cbn [bind fst snd]. apply of_peer_fine. exact Hok.
    + cbn [arg nth_error bind]. change (2 <? 1 + (1 + 0)) with false. change (1 <? 1 + (1 + 0)) with true. cbn [bind]. apply of_peer_fine. exact Hok.
    + replace (2 <? 1 + (1 + (1 + lenN args))) with true by (symmetry; apply N.ltb_lt; lia). cbn [arg nth_error bind]. apply of_peer_fine. exact Hok.
  - unfold cmd_disconnect. destruct args as [|a args]; [fd|]. replace (lenN (a :: args) <? 1) with false by (symmetry; apply N.ltb_ge; rewrite lenN_cons; lia). cbn [arg nth_error bind].
    destruct (search_peer (links s) a) as [lp|]; [|fd]. apply of_peer_fine. exact Hok.
  - fd.
Qed.
Theorem do_fine pr prompt words s : ok s -> fine (cli_do ans pr prompt words s).
Proof.
  intros Hok. destruct words as [|w args]; [exists (- EAGAIN)%Z, [], s; auto|]. unfold cli_do.
  assert (R : fine (if str_eq w (text "help") then done (cli_help (table pr) prompt) s else Ok ((- EAGAIN)%Z, [], s))) by (destruct (str_eq w (text "help")); [fd|exists (- EAGAIN)%Z, [], s; auto]).
  destruct (find_entry (table pr) prompt w) as [e|] eqn:F; [|exact R]. apply find_entry_some in F. destruct F as [F _].
  destruct (count_error e (lenN args)) as [m|] eqn:C; [exists (- EINVAL)%Z, [Line m], s; auto|]. destruct (e_fn e) as [f|] eqn:G; [|exact R].
  destruct (command_fine pr e f args s F G C Hok) as [z [o [s' [E Hok']]]]. rewrite E. cbn [bind]. eexists _, o, s'. auto.
Qed.
End Ans.
