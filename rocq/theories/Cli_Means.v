(** What commands mean, and that nothing else is asked for. *)
From Coq Require Import String ZArith.
From Verif Require Import Base Text Mirror_Model Mirror_Client Cli_Model Cli_Spec Cli_Search Cli_Proofs.
Local Open Scope list_scope.

Lemma label_inj s l l' : ok s -> In l (links s) -> In l' (links s) -> cl_label l = cl_label l' -> l = l'.
Proof.
  intros [_ [N0 _]]. revert N0. generalize (links s). intros c. induction c as [|x c IH]; cbn [map]; intros N0 H H' E; [destruct H|]. inversion N0; subst.
  destruct H as [<-|H], H' as [<-|H']; auto; exfalso; match goal with K : ~ In _ _ |- _ => apply K end; [rewrite E|rewrite <- E]; apply (in_map (fun l => map lower (cl_label l))); assumption.
Qed.
Lemma deref_current s l : ok s -> current s l -> deref s (cl_label l) = Ok l.
Proof.
  intros Hok [Hl Hc]. destruct (deref_ok s (cl_label l) Hok (in_map _ _ _ Hl)) as [l' [E [H' L]]]. rewrite E. f_equal. symmetry. apply (label_inj s); auto.
Qed.
Lemma current_deref s t l : cur s = Some t -> deref s t = Ok l -> current s l.
Proof.
  intros C D. unfold deref in D. destruct (find _ (links s)) as [x|] eqn:F; [|discriminate]. injection D as ->. destruct (find_split _ _ _ F) as [a [b [E [Fx _]]]]. apply str_eq_spec in Fx.
  split; [rewrite E; apply in_elt|congruence].
Qed.
Lemma method_spec t : is_valid_prov t = true <-> method t.
Proof.
  unfold is_valid_prov, method. rewrite !orb_true_iff, !str_eq_spec. cbn [In]. split; [intros [[[->| ->]| ->]| ->]; tauto|intros [<-|[<-|[<-|[<-|[]]]]]; tauto].
Qed.
Lemma managed_truth v b : truth v b -> managed_value v = b.
Proof. intros [[-> ->]|[-> ->]]; reflexivity. Qed.
Section Ans.
Variable ans : call -> Z.
Lemma do_does pr prompt w args s e f cs c' : find_entry (table pr) prompt w = Some e -> count_error e (lenN args) = None -> e_fn e = Some f ->
  does (command ans pr f args s) cs c' -> does (cli_do ans pr prompt (w :: args) s) cs c'.
Proof.
  intros F C G [z [o [s' [E [H1 [H2 H3]]]]]]. rewrite (do_known ans pr prompt w args s e f F C G), E. cbn [bind]. eexists _, o, s'. auto.
Qed.
Lemma bind_reply (r : res reply) cs c' : does r cs c' -> forall (g : list out -> list out), (forall o, calls (g o) = calls o) ->
  does (do x <- r; let '(_, o, s) := x in done (g o) s) cs c'.
Proof. intros [z [o [s' [E [H1 [H2 H3]]]]]] g Hg. rewrite E. cbn [bind]. unfold done. exists 0%Z, (g o), s'. rewrite Hg. auto. Qed.
(** The link of a p2p-scan. *)
Lemma scan_args_usage s args l b : ok s -> scan_usage s args l b ->
  scan_args (links s) args None false = inl (Some l, negb b) /\ In l (links s) \/ scan_args (links s) args None false = inl (None, negb b) /\ current s l.
Proof.
  assert (N0 : forall a, a <> text "stop" -> str_eq a (text "stop") = false) by (intros a H; apply str_eq_false; exact H).
  intros Hok []; cbn [scan_args]; rewrite ?str_eq_refl; cbn [scan_args negb]; auto; left; rewrite ?N0 by assumption;
    match goal with H : link_named _ _ _ |- _ => apply search_link_spec in H; pose proof (search_link_in _ _ _ H); rewrite H end; cbn [scan_args]; rewrite ?str_eq_refl; auto.
Qed.
Lemma of_peer_does l p c s : ok s -> cl_managed l = true -> does (of_peer ans (l, p) c s) [c] (cur s).
Proof. intros Hok M. unfold of_peer. cbn [fst]. rewrite M. pose proof (calls_ask ans c) as C. destruct (ask ans c) as [r o]. exists r, o, s. auto. Qed.
Lemma not_bare w a args : ~ odd (w :: a :: args) -> w = text "connect" \/ w = text "disconnect" -> ~ bare a.
Proof. intros H W B. apply H. right. right. right. exists w, a, args. auto. Qed.
Theorem means_does pr prompt words cs c' s : ok s -> few (links s) -> ~ odd words -> means s pr words cs c' ->
  prompt = true \/ hd [] words <> text "select" /\ hd [] words <> text "p2p-scan" -> does (cli_do ans pr prompt words s) cs c'.
Proof.
  intros Hok Hf Ho M P. destruct M.
  - eapply do_does with (f := SetFriendlyName); [destruct pr, prompt; reflexivity|reflexivity|reflexivity|]. cbn [command]. unfold cmd_set_friendly_name, link_and_value, on_current.
    destruct H as [Hl Hc]. change (lenN [t] <? 1) with false. change (1 <? lenN [t]) with false. cbn [arg nth_error bind]. rewrite Hc, (deref_current s l Hok (conj Hl Hc)). cbn [bind].
    rewrite <- Hc. apply set_name_does; auto.
  - eapply do_does with (f := SetFriendlyName); [destruct pr, prompt; reflexivity|reflexivity|reflexivity|]. cbn [command]. unfold cmd_set_friendly_name, link_and_value.
    apply search_link_spec in H. pose proof (search_link_in _ _ _ H) as Hl. change (lenN [a; t] <? 1) with false. change (1 <? lenN [a; t]) with true. cbn [arg nth_error bind]. rewrite H.
    apply set_name_does; auto.
  - eapply do_does with (f := SetManaged_); [destruct prompt; reflexivity|reflexivity|reflexivity|]. cbn [command cmd_set_managed]. unfold link_and_value, on_current.
    destruct H as [Hl Hc]. change (lenN [v] <? 1) with false. change (1 <? lenN [v]) with false. cbn [arg nth_error bind]. rewrite Hc, (deref_current s l Hok (conj Hl Hc)). cbn [bind].
    rewrite <- Hc, (managed_truth v b H0). apply set_managed_does; auto.
  - apply search_link_spec in H. pose proof (search_link_in _ _ _ H) as Hl.
    destruct pr; (eapply do_does with (f := SetManaged_); [destruct prompt; reflexivity|reflexivity|reflexivity|]); cbn [command cmd_set_managed]; unfold link_and_value;
      try change (lenN [a; v] <? 1) with false; try change (1 <? lenN [a; v]) with true; cbn [arg nth_error bind]; rewrite H, (managed_truth v b H0); apply set_managed_does; auto.
  - destruct P as [->|[P _]]; [|cbn [hd] in P; congruence]. eapply do_does with (f := Select); [reflexivity|reflexivity|reflexivity|]. cbn [command]. unfold cmd_select.
    apply search_link_spec in H. pose proof (search_link_in _ _ _ H) as Hl. change (lenN [a] =? 0) with false. cbn [arg nth_error bind]. rewrite H.
    assert (Hok1 : ok (with_cur (Some (cl_label l)) s)) by (apply ok_cur; [exact Hok|apply in_map; exact Hl]).
    destruct (set_wfd_does ans _ l sink_wfd cs Hok1 Hl H0) as [z [o [E C]]]. fold sink_wfd. rewrite E. cbn [bind]. unfold done. eexists 0%Z, _, _. split; [reflexivity|]. split; [exact Hok1|].
    rewrite calls_app, C, app_nil_r. auto.
  - destruct P as [->|[P _]]; [|cbn [hd] in P; congruence]. eapply do_does with (f := Select); [reflexivity|reflexivity|reflexivity|]. cbn [command]. unfold cmd_select. change (lenN [] =? 0) with true. cbn iota.
    destruct (cur s) as [t|] eqn:C; [|exists 0%Z, [], s; auto]. destruct (deref_ok s t Hok) as [l [E _]]; [destruct Hok as [_ [_ X]]; auto|]. rewrite E. cbn [bind]. unfold done.
    eexists 0%Z, _, _. split; [reflexivity|]. split; [apply ok_nocur; exact Hok|auto].
  - destruct P as [->|[_ P]]; [|cbn [hd] in P; congruence].
    assert (L : count_error (mkE (text "p2p-scan") CLI_Y CLI_LESS 2 (Some P2pScan) true (comp [Links])) (lenN args) = None) by (destruct H; reflexivity).
    eapply do_does with (f := P2pScan); [reflexivity|exact L|reflexivity|]. cbn [command]. unfold cmd_p2p_scan.
    destruct (scan_args_usage s args l b Hok H) as [[E Hl]|[E Hc]]; rewrite E.
    + rewrite H0, negb_involutive. apply set_scanning_does; auto.
    + unfold on_current. destruct Hc as [Hl Hc]. rewrite Hc, (deref_current s l Hok (conj Hl Hc)). cbn [bind]. rewrite H0, negb_involutive, <- Hc. apply set_scanning_does; auto.
  - apply search_peer_spec in H; [|exact Hf|eapply not_bare; eauto]. eapply do_does with (f := Connect); [destruct prompt; reflexivity|reflexivity|reflexivity|]. cbn [command]. unfold cmd_connect.
    change (lenN [a] <? 1) with false. change (2 <? lenN [a]) with false. change (1 <? lenN [a]) with false. cbn [arg nth_error bind]. rewrite H. cbn [bind fst snd]. apply of_peer_does; auto.
  - apply search_peer_spec in H; [|exact Hf|eapply not_bare; eauto]. eapply do_does with (f := Connect); [destruct prompt; reflexivity|reflexivity|reflexivity|]. cbn [command]. unfold cmd_connect.
    change (lenN [a; m] <? 1) with false. change (2 <? lenN [a; m]) with false. change (1 <? lenN [a; m]) with true. cbn [arg nth_error bind]. rewrite H. cbn [bind].
    apply method_spec in H1. rewrite H1. cbn [fst snd]. apply of_peer_does; auto.
  - apply search_peer_spec in H; [|exact Hf|eapply not_bare; eauto]. eapply do_does with (f := Connect); [destruct prompt; reflexivity|reflexivity|reflexivity|]. cbn [command]. unfold cmd_connect.
    change (lenN [a; pin] <? 1) with false. change (2 <? lenN [a; pin]) with false. change (1 <? lenN [a; pin]) with true. cbn [arg nth_error bind]. rewrite H. cbn [bind].
    destruct (is_valid_prov pin) eqn:V; [apply method_spec in V; contradiction|]. cbn [fst snd]. apply of_peer_does; auto.
  - apply search_peer_spec in H; [|exact Hf|eapply not_bare; eauto]. eapply do_does with (f := Connect); [destruct prompt; reflexivity|reflexivity|reflexivity|]. cbn [command]. unfold cmd_connect.
    change (lenN [a; m; pin] <? 1) with false. change (2 <? lenN [a; m; pin]) with true. cbn [arg nth_error bind]. rewrite H. cbn [bind fst snd]. apply of_peer_does; auto.
  - apply search_peer_spec in H; [|exact Hf|eapply not_bare; eauto]. eapply do_does with (f := Disconnect); [destruct prompt; reflexivity|reflexivity|reflexivity|]. cbn [command]. unfold cmd_disconnect.
    change (lenN [a] <? 1) with false. cbn [arg nth_error bind]. rewrite H. cbn [snd]. apply of_peer_does; auto.
  - apply search_link_spec in H1. pose proof (search_link_in _ _ _ H1) as Hl. destruct H as [->| ->].
    + eapply do_does with (f := Run); [destruct prompt; reflexivity|reflexivity|reflexivity|]. cbn [command]. unfold cmd_run. rewrite H0. cbn [arg nth_error bind]. rewrite H1, H2. apply run_on_does; auto.
    + eapply do_does with (f := Bind); [destruct prompt; reflexivity|reflexivity|reflexivity|]. cbn [command]. unfold cmd_bind. rewrite H0. cbn [arg nth_error bind links]. rewrite H1, H2.
      apply run_on_does; auto. rewrite <- H0. apply ok_scans. exact Hok.
Qed.

(** ** Nothing else *)
Lemma calls_field n o : calls (field n o) = []. Proof. unfold field. destruct o as [[|]|]; reflexivity. Qed.
Lemma calls_show_link l : calls (show_link l) = [].
Proof. unfold show_link. rewrite !calls_app, !calls_field. destruct (0 <? cl_index l); reflexivity. Qed.
Lemma calls_show_peer p : calls (show_peer p) = [].
Proof. unfold show_peer. rewrite !calls_app, !calls_field. reflexivity. Qed.
Definition quiet (s : st) (r : res reply) : Prop := forall z o s', r = Ok (z, o, s') -> calls o = [] /\ cur s' = cur s.
Lemma quiet_done o s : calls o = [] -> quiet s (done o s). Proof. intros H z o' s' E. unfold done in E. injection E as <- <- <-. auto. Qed.
Lemma calls_map {A} (f : A -> out) (l : list A) : (forall x, calls [f x] = []) -> calls (map f l) = [].
Proof. intros H. induction l as [|x l IH]; [reflexivity|]. cbn [map]. change (f x :: map f l) with ([f x] ++ map f l). rewrite calls_app, H, IH. reflexivity. Qed.
Lemma quiet_list s : quiet s (cmd_list s).
Proof. apply quiet_done. rewrite !calls_app, !calls_map by reflexivity. reflexivity. Qed.
Lemma quiet_show pr args s : quiet s (cmd_show pr args s).
Proof.
  unfold cmd_show. destruct (0 <? lenN args).
  - destruct (arg args 0) as [a|]; cbn [bind]; [|intros z o s' E; discriminate].
    destruct (find_link (links s) a); [apply quiet_done, calls_show_link|]. destruct (find_pair (links s) a) as [[]|]; [apply quiet_done, calls_show_peer|].
    destruct (search_link (links s) a); [apply quiet_done, calls_show_link|]. destruct (search_peer (links s) a) as [[]|]; [apply quiet_done, calls_show_peer|apply quiet_done; reflexivity].
  - destruct pr, (cur s); try (apply quiet_done; reflexivity). destruct (deref s l); cbn [bind]; [apply quiet_done, calls_show_link|intros z o s' E; discriminate].
Qed.
(** Either nothing is asked and the current link stays, or it is what the words mean. *)
Definition meant (s : st) (pr : program) (words : list (list byte)) (r : res reply) : Prop := quiet s r \/ exists cs c', means s pr words cs c'.
Lemma current_meant s pr words f : ok s -> (forall l, current s l -> quiet s (f l) \/ exists cs c', means s pr words cs c') -> meant s pr words (on_current pr s f).
Proof.
  intros Hok H. unfold meant, on_current. destruct (cur s) as [t|] eqn:C; [|left; apply quiet_done; reflexivity].
  destruct (deref s t) as [l|] eqn:D; cbn [bind]; [|left; intros z o s' E; discriminate]. apply H. eapply current_deref; eauto.
Qed.
Lemma truth_of v : v = text "yes" \/ v = text "no" -> exists b, truth v b.
Proof. intros [->| ->]; [exists true|exists false]; [left|right]; auto. Qed.
Lemma yes_no_dec v : v = text "yes" \/ v = text "no" \/ v <> text "yes" /\ v <> text "no".
Proof. destruct (list_eq_dec N.eq_dec v (text "yes")); [auto|]. destruct (list_eq_dec N.eq_dec v (text "no")); auto. Qed.
Lemma odd_managed1 v : ~ odd [text "set-managed"; v] -> exists b, truth v b.
Proof. intros H. apply truth_of. destruct (yes_no_dec v) as [E|[E|E]]; auto. destruct H. left. exists v. auto. Qed.
Lemma odd_managed2 a v : ~ odd [text "set-managed"; a; v] -> exists b, truth v b.
Proof. intros H. apply truth_of. destruct (yes_no_dec v) as [E|[E|E]]; auto. destruct H. left. exists v. split; [right; exists a; reflexivity|exact E]. Qed.
Lemma method_dec m : method m \/ ~ method m.
Proof. destruct (is_valid_prov m) eqn:V; [left; apply method_spec; exact V|right; intros H; apply method_spec in H; congruence]. Qed.
Lemma odd_connect a m pin : ~ odd [text "connect"; a; m; pin] -> method m.
Proof. intros H. destruct (method_dec m) as [M|M]; [exact M|]. destruct H. right. left. exists a, m, pin. auto. Qed.
Ltac q := left; apply quiet_done; reflexivity.
Ltac few_args H args := destruct args as [|?a [|?b [|?p [|?z args]]]]; try (exfalso; cbn in H; destruct H; rewrite ?lenN_cons, ?lenN_nil in *; lia).
Lemma command_meant pr e f args s : In e (table pr) -> e_fn e = Some f -> count_error e (lenN args) = None -> ok s -> few (links s) -> ~ odd (e_name e :: args) ->
  meant s pr (e_name e :: args) (command ans pr f args s).
Proof.
  intros He Hf Hc Hok Hfew Ho. apply count_limits in Hc.
  assert (Name : forall n, n <> text "" -> e_name e = n -> True) by auto. clear Name.
  destruct f; cbn [command].
  - left. apply quiet_list.
  - left. apply quiet_show.
  - assert (E : pr = Wifi /\ e_name e = text "select" /\ lenN args <= 1) by (destruct pr; cbn [table] in He; repeat destruct He as [<-|He]; try discriminate; try (destruct He); cbn in Hc; destruct Hc; auto).
    destruct E as [-> [E Hn]]. rewrite E in *. few_args Hn args; cbn [lenN] in *; try (rewrite ?lenN_cons in Hn; lia).
    + right. exists [], None. constructor.
    + unfold cmd_select, meant. change (lenN [a] =? 0) with false. cbn [arg nth_error bind]. destruct (search_link (links s) a) as [l|] eqn:S1; [|q]. right.
      apply search_link_spec in S1. destruct (change_opt (cl_wfd l) sink_wfd (AskWfd (cl_label l) sink_wfd)) as [cs H]. exists cs, (Some (cl_label l)). econstructor; eauto.
  - assert (E : e_name e = text "set-friendly-name" /\ lenN args <= 2) by (destruct pr; cbn [table] in He; repeat destruct He as [<-|He]; try discriminate; try (destruct He); cbn in Hc; destruct Hc; auto).
    destruct E as [E Hn]. rewrite E in *. unfold cmd_set_friendly_name, link_and_value. few_args Hn args; try (rewrite ?lenN_cons in Hn; lia).
    + change (lenN [] <? 1) with true. cbn iota. q.
    + change (lenN [a] <? 1) with false. change (1 <? lenN [a]) with false. cbn [arg nth_error bind]. apply current_meant; [exact Hok|]. intros l Hl. right.
      destruct (change_opt (cl_name l) a (AskName (cl_label l) a)) as [cs H]. exists cs, (cur s). econstructor; eauto.
    + change (lenN [a; b] <? 1) with false. change (1 <? lenN [a; b]) with true. unfold meant. cbn [arg nth_error bind]. destruct (search_link (links s) a) as [l|] eqn:S1; [|q]. right.
      apply search_link_spec in S1. destruct (change_opt (cl_name l) b (AskName (cl_label l) b)) as [cs H]. exists cs, (cur s). econstructor; eauto.
  - assert (E : pr = Sink /\ e_name e = text "run" /\ 1 <= lenN args <= 1) by (destruct pr; cbn [table] in He; repeat destruct He as [<-|He]; try discriminate; try (destruct He); cbn in Hc; destruct Hc; auto).
    destruct E as [-> [E Hn]]. rewrite E in *. few_args Hn args; try (rewrite ?lenN_cons, ?lenN_nil in Hn; lia). unfold meant, cmd_run.
    destruct (cur s) as [t|] eqn:C; [left; unfold already; destruct (deref s t); cbn [bind]; [apply quiet_done; reflexivity|intros z o s' X; discriminate]|].
    cbn [arg nth_error bind]. destruct (search_link (links s) a) as [l|] eqn:S1; [|q]. destruct (cl_managed l) eqn:M; [|q]. right. apply search_link_spec in S1.
    destruct (change_opt (cl_wfd l) sink_wfd (AskWfd (cl_label l) sink_wfd)) as [c1 H1]. destruct (change_bool (cl_scan l) true (AskScan (cl_label l) true)) as [c2 H2].
    exists (c1 ++ c2), (Some (cl_label l)). econstructor; eauto.
  - assert (E : pr = Sink /\ e_name e = text "bind" /\ 1 <= lenN args <= 1) by (destruct pr; cbn [table] in He; repeat destruct He as [<-|He]; try discriminate; try (destruct He); cbn in Hc; destruct Hc; auto).
    destruct E as [-> [E Hn]]. rewrite E in *. few_args Hn args; try (rewrite ?lenN_cons, ?lenN_nil in Hn; lia). unfold meant, cmd_bind.
    destruct (cur s) as [t|] eqn:C; [left; unfold already; destruct (deref s t); cbn [bind]; [apply quiet_done; reflexivity|intros z o s' X; discriminate]|].
    cbn [arg nth_error bind links]. destruct (search_link (links s) a) as [l|] eqn:S1; [|left; intros z o s' X; unfold done in X; injection X as <- <- <-; auto].
    destruct (cl_managed l) eqn:M; [|left; intros z o s' X; unfold done in X; injection X as <- <- <-; auto]. right. apply search_link_spec in S1.
    destruct (change_opt (cl_wfd l) sink_wfd (AskWfd (cl_label l) sink_wfd)) as [c1 H1]. destruct (change_bool (cl_scan l) true (AskScan (cl_label l) true)) as [c2 H2].
    exists (c1 ++ c2), (Some (cl_label l)). econstructor; eauto.
  - assert (E : e_name e = text "set-managed" /\ lenN args <= 2 /\ (pr = Sink -> 2 <= lenN args)) by (destruct pr; cbn [table] in He; repeat destruct He as [<-|He]; try discriminate; try (destruct He); cbn in Hc; destruct Hc; repeat split; auto; discriminate).
    destruct E as [E [Hn Hs]]. rewrite E in *. few_args Hn args; try (rewrite ?lenN_cons in Hn; lia); unfold cmd_set_managed.
    + destruct pr; [specialize (Hs eq_refl); rewrite lenN_nil in Hs; lia|]. unfold link_and_value. change (lenN [] <? 1) with true. cbn iota. q.
    + destruct pr; [specialize (Hs eq_refl); rewrite lenN_cons, lenN_nil in Hs; lia|]. unfold link_and_value. change (lenN [a] <? 1) with false. change (1 <? lenN [a]) with false. cbn [arg nth_error bind].
      apply current_meant; [exact Hok|]. intros l Hl. right. destruct (odd_managed1 a Ho) as [b T]. destruct (change_bool (cl_managed l) b (AskManaged (cl_label l) b)) as [cs H]. exists cs, (cur s). econstructor; eauto.
    + assert (X : quiet s (done [Warn (text "unknown link " ++ a)] s)) by (apply quiet_done; reflexivity).
      assert (Y : forall l, search_link (links s) a = Some l -> exists cs c', means s pr [text "set-managed"; a; b] cs c').
      { intros l S1. apply search_link_spec in S1. destruct (odd_managed2 a b Ho) as [v T]. destruct (change_bool (cl_managed l) v (AskManaged (cl_label l) v)) as [cs H]. exists cs, (cur s). econstructor; eauto. }
      unfold meant. destruct pr; unfold link_and_value; try change (lenN [a; b] <? 1) with false; try change (1 <? lenN [a; b]) with true; cbn [arg nth_error bind];
        (destruct (search_link (links s) a) as [l|] eqn:S1; [right; exact (Y l eq_refl)|left; exact X]).
  - assert (E : pr = Wifi /\ e_name e = text "p2p-scan" /\ lenN args <= 2) by (destruct pr; cbn [table] in He; repeat destruct He as [<-|He]; try discriminate; try (destruct He); cbn in Hc; destruct Hc; auto).
    destruct E as [-> [E Hn]]. rewrite E in *. unfold cmd_p2p_scan.
    assert (Mk : forall l b, scan_usage s args l b -> cl_managed l = true -> exists cs c', means s Wifi (text "p2p-scan" :: args) cs c').
    { intros l b U M. destruct (change_bool (cl_scan l) b (AskScan (cl_label l) b)) as [cs H]. exists cs, (cur s). econstructor; eauto. }
    assert (St : forall x, str_eq x (text "stop") = true -> x = text "stop") by (intros x; apply str_eq_spec).
    assert (Sn : forall x, str_eq x (text "stop") = false -> x <> text "stop") by (intros x; apply str_eq_false).
    few_args Hn args; try (rewrite ?lenN_cons in Hn; lia); cbn [scan_args].
    + apply current_meant; [exact Hok|]. intros l Hl. destruct (cl_managed l) eqn:M; [|q]. right. apply (Mk l true); [constructor; exact Hl|exact M].
    + destruct (str_eq a (text "stop")) eqn:S1.
      * apply St in S1. subst a. apply current_meant; [exact Hok|]. intros l Hl. destruct (cl_managed l) eqn:M; [|q]. right. apply (Mk l false); [constructor; exact Hl|exact M].
      * unfold meant. destruct (search_link (links s) a) as [l|] eqn:S2; [|q]. destruct (cl_managed l) eqn:M; [|q]. right. apply (Mk l true); [|exact M]. apply Scan_link; [auto|apply search_link_spec; exact S2].
    + unfold meant. destruct (str_eq a (text "stop")) eqn:S1, (str_eq b (text "stop")) eqn:S2.
      * destruct Ho. right. right. left. exists a, b. split; [reflexivity|]. apply St in S1, S2. tauto.
      * apply St in S1. subst a. destruct (search_link (links s) b) as [l|] eqn:S3; [|q]. destruct (cl_managed l) eqn:M; [|q]. right. apply (Mk l false); [|exact M]. apply Scan_stop_link; [auto|apply search_link_spec; exact S3].
      * apply St in S2. subst b. destruct (search_link (links s) a) as [l|] eqn:S3; [|q]. destruct (cl_managed l) eqn:M; [|q]. right. apply (Mk l false); [|exact M]. apply Scan_link_stop; [auto|apply search_link_spec; exact S3].
      * destruct Ho. right. right. left. exists a, b. split; [reflexivity|]. apply Sn in S1, S2. tauto.
  - assert (E : pr = Wifi /\ e_name e = text "connect" /\ lenN args <= 3) by (destruct pr; cbn [table] in He; repeat destruct He as [<-|He]; try discriminate; try (destruct He); cbn in Hc; destruct Hc; auto).
    destruct E as [-> [E Hn]]. rewrite E in *. unfold cmd_connect. destruct args as [|a args]; [change (lenN [] <? 1) with true; cbn iota; q|].
    replace (lenN (a :: args) <? 1) with false by (symmetry; apply N.ltb_ge; rewrite lenN_cons; lia). unfold meant. cbn [arg nth_error bind].
    destruct (search_peer (links s) a) as [[l p]|] eqn:S1; [|q]. apply search_peer_spec in S1; [|exact Hfew|eapply not_bare; eauto]. destruct (cl_managed l) eqn:M.
    + right. destruct args as [|b [|c [|z args]]]; try (rewrite !lenN_cons in Hn; lia).
      * eexists _, (cur s). eapply Mean_connect; eauto.
      * destruct (method_dec b) as [Hm|Hm]; eexists _, (cur s); [eapply Mean_connect_by; eauto|eapply Mean_connect_pin; eauto].
      * pose proof (odd_connect _ _ _ Ho). eexists _, (cur s). eapply Mean_connect_all; eauto.
    + left. unfold of_peer. cbn [fst]. rewrite M.
      match goal with |- quiet s (do x <- ?y; _) => destruct y as [x|]; cbn [bind]; [apply quiet_done; reflexivity|intros z o s' X; discriminate] end.
  - assert (E : pr = Wifi /\ e_name e = text "disconnect" /\ 1 <= lenN args <= 1) by (destruct pr; cbn [table] in He; repeat destruct He as [<-|He]; try discriminate; try (destruct He); cbn in Hc; destruct Hc; auto).
    destruct E as [-> [E Hn]]. rewrite E in *. few_args Hn args; try (rewrite ?lenN_cons, ?lenN_nil in Hn; lia). unfold meant, cmd_disconnect. change (lenN [a] <? 1) with false. cbn [arg nth_error bind].
    destruct (search_peer (links s) a) as [[l p]|] eqn:S1; [|q]. apply search_peer_spec in S1; [|exact Hfew|eapply not_bare; eauto]. destruct (cl_managed l) eqn:M.
    + right. eexists _, (cur s). eapply Mean_disconnect; eauto.
    + left. unfold of_peer. cbn [fst snd]. rewrite M. apply quiet_done. reflexivity.
  - q.
Qed.
Theorem nothing_else pr prompt words s r o s' : ok s -> few (links s) -> ~ odd words -> cli_do ans pr prompt words s = Ok (r, o, s') ->
  calls o <> [] \/ cur s' <> cur s -> means s pr words (calls o) (cur s').
Proof.
  intros Hok Hf Ho E A. destruct words as [|w args]; [injection E as <- <- <-; destruct A as [A|A]; destruct A; reflexivity|].
  assert (R : forall w, (if str_eq w (text "help") then done (cli_help (table pr) prompt) s else Ok ((- EAGAIN)%Z, [], s)) = Ok (r, o, s') -> False).
  { clear E. intros v E. destruct (str_eq v (text "help")); unfold done in E; injection E as <- <- <-; destruct A as [A|A]; apply A; auto.
    unfold cli_help, calls. cbn [flat_map app]. clear. induction (table pr) as [|e es IH]; cbn [flat_map]; [reflexivity|]. rewrite flat_map_app, IH. destruct (negb (e_desc e) || skipped prompt (e_mode e)); reflexivity. }
  pose proof E as E0. unfold cli_do in E. destruct (find_entry (table pr) prompt w) as [e|] eqn:F; [|destruct (R w E)]. pose proof (find_entry_some _ _ _ _ F) as [He [-> Sk]].
  destruct (count_error e (lenN args)) as [m|] eqn:C; [injection E as <- <- <-; destruct A as [A|A]; destruct A; reflexivity|].
  destruct (e_fn e) as [f|] eqn:G; [|destruct (R _ E)].
  destruct (command_meant pr e f args s He G C Hok Hf Ho) as [Q|[cs [c' M]]].
  - destruct (command ans pr f args s) as [[[z o0] s0]|] eqn:K; cbn [bind] in E; [|discriminate]. injection E as _ <- <-. destruct (Q z o0 s0 eq_refl) as [X Y]. destruct A as [A|A]; contradiction.
  - assert (P : prompt = true \/ hd [] (e_name e :: args) <> text "select" /\ hd [] (e_name e :: args) <> text "p2p-scan").
    { destruct prompt; [auto|right]. cbn [hd]. destruct pr; cbn [table] in He; repeat destruct He as [<-|He]; try discriminate; try (destruct He); split; discriminate. }
    destruct (means_does pr prompt _ cs c' s Hok Hf Ho M P) as [z [o1 [s1 [E1 [_ [X Y]]]]]]. rewrite E1 in E0. injection E0 as <- <- <-. rewrite X, Y. exact M.
Qed.
End Ans.
