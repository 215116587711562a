From Coq Require Import String.
From Verif Require Import Base Text Mirror_Model Mirror_Spec Mirror_Client Mirror_Proofs Mirror_More PeerSig_Model PeerSig_Spec.
Local Open Scope list_scope.

Lemma link_peer_in ps t q : link_peer ps t = Some q -> In q ps.
Proof. induction ps as [|p ps IH]; cbn [link_peer]; [discriminate|]. destruct (case_eq (cp_label p) t); [intros [= <-]; left; reflexivity|intros E; right; exact (IH E)]. Qed.
Lemma sig_same n m : eq_text n m = true -> n = m.
Proof. apply eq_text_spec. Qed.
Lemma send_public i p n : dp_public p = false -> send i p n = [].
Proof. intros E. destruct n; cbn [send]; unfold provision_discovery, go_neg_request, formation_failure; rewrite E; reflexivity. Qed.
Lemma peer_fn_sent c i p n k args q : dp_public p = true -> means n k args -> find_peer c (peer_label i (dp_mac p)) = Some q ->
  map (peer_fn c) (send i p n) = [Call k q args].
Proof.
  intros E M Q. destruct M; cbn [send]; unfold provision_discovery, go_neg_request, formation_failure, dbus_asked, dbus_failure, emit; rewrite E; cbn [map];
    unfold peer_fn; cbn [g_path]; rewrite Q; reflexivity.
Qed.
Lemma follows os1 os2 c : Forall good_op os1 -> Forall good_op os2 -> follower os1 os2 c -> right false false false c (fst (run (daemon_after os1) os2)).
Proof. intros G1 G2 [c0 [F ->]]. destruct (always os1 os2 G1 G2) as [c [F' R]]. rewrite F in F'. injection F' as <-. exact R. Qed.

Lemma told os1 os2 c i l p mac n k args : Forall good_op os1 -> Forall good_op os2 -> follower os1 os2 c -> is_canon mac ->
  find_l (fst (run (daemon_after os1) os2)) i = Some l -> find_p (dl_peers l) mac = Some p -> dp_public p = true -> means n k args ->
  exists q, map (peer_fn c) (send i p n) = [Call k q args] /\ known_as c i mac q.
Proof.
  intros G1 G2 F C L P U M. pose proof (follows _ _ _ G1 G2 F) as [RL RP].
  assert (EM : dp_mac p = mac).
  { clear -P. induction (dl_peers l) as [|x ps IH]; cbn [find_p] in P; [discriminate|]. destruct (eq_text (dp_mac x) mac) eqn:E; [injection P as <-; apply eq_text_spec; exact E|exact (IH P)]. }
  assert (EI : dl_index l = i).
  { clear -L. induction (fst (run (daemon_after os1) os2)) as [|x d IH]; cbn [find_l] in L; [discriminate|]. destruct (dl_index x =? i) eqn:E; [injection L as <-; apply N.eqb_eq; exact E|exact (IH L)]. }
  specialize (RP i mac C). specialize (RL i). unfold d_peer in RP. unfold d_link in RL. rewrite L in RP, RL. rewrite P, U in RP.
  unfold c_peer in RP. destruct (find_peer c (peer_label i mac)) as [q|] eqn:Q; [|destruct RP].
  exists q. split; [apply peer_fn_sent; try assumption; rewrite EM; exact Q|].
  rewrite find_peer_plabel in Q by exact C. unfold known_as, link_label. unfold c_link, link_label in RL.
  destruct (find_link c (dec i)) as [cl|] eqn:LL; [|destruct RL]. exists cl. cbn [option_map both] in RL, RP.
  destruct RL as [RI _]. destruct RP as [RM _]. cbn [see_link v_index] in RI. cbn [see_peer w_mac] in RM.
  split; [reflexivity|]. split; [rewrite RI; exact EI|]. split; [exact (link_peer_in _ _ _ Q)|].
  rewrite EM in RM. destruct (cp_mac q) as [t|]; cbn [or_empty] in RM; [f_equal; exact RM|].
  destruct C as [b [[B _] ->]]. clear -B RM. exfalso. destruct b as [|? [|? [|? [|? [|? [|? [|]]]]]]]; try discriminate B. discriminate RM.
Qed.
Lemma hidden i p n : dp_public p = false -> send i p n = [].
Proof. apply send_public. Qed.
Lemma at_most i p n : (List.length (send i p n) <= 1)%nat.
Proof. destruct n as [[t|] pin|[t|] pin|r]; cbn [send]; unfold provision_discovery, go_neg_request, formation_failure, dbus_asked, dbus_failure, emit; destruct (dp_public p); cbn [List.length]; lia. Qed.

Lemma texts_exact n : forall l r, read_texts n l = Some r -> exists rest, l = map Some r ++ rest /\ List.length r = n.
Proof.
  induction n as [|n IH]; intros l r; cbn [read_texts]; [intros [= <-]; exists l; split; reflexivity|].
  destruct l as [|[t|] l]; try discriminate. destruct (read_texts n l) as [r'|] eqn:E; [|discriminate]. intros [= <-].
  destruct (IH _ _ E) as [rest [-> L]]. exists rest. split; [reflexivity|cbn [List.length]; rewrite L; reflexivity].
Qed.
Lemma only c m k q args : peer_fn c m = Call k q args ->
  exists t rest, g_path m = PeerPath t /\ find_peer c t = Some q /\ g_iface m = text "org.freedesktop.miracle.wifi.Peer" /\ g_args m = map Some args ++ rest
  /\ g_member m = match k with Prov => text "ProvisionDiscovery" | GoNeg => text "GoNegRequest" | Fail => text "FormationFailure" end
  /\ List.length args = match k with Fail => 1%nat | _ => 2%nat end.
Proof.
  unfold peer_fn. destruct (g_path m) as [t|t|] eqn:P; try discriminate. destruct (find_peer c t) as [q'|] eqn:Q; [|discriminate].
  assert (H : forall k' n', call k' n' q' m = Call k q args -> k' = k /\ q' = q /\ exists rest, g_args m = map Some args ++ rest /\ List.length args = n').
  { intros k' n'. unfold call. destruct (read_texts n' (g_args m)) as [r|] eqn:E; [|discriminate]. intros X. assert (k' = k /\ q' = q /\ r = args) as [-> [-> ->]] by (repeat split; congruence). split; [reflexivity|]. split; [reflexivity|]. apply texts_exact. exact E. }
  assert (S : forall t', is_signal m t' = true -> g_iface m = peer_iface /\ g_member m = t').
  { intros t'. unfold is_signal. intros X. apply andb_prop in X as [A B]. split; apply sig_same; assumption. }
  destruct (is_signal m (text "ProvisionDiscovery")) eqn:E1;
    [|destruct (is_signal m (text "GoNegRequest")) eqn:E2; [|destruct (is_signal m (text "FormationFailure")) eqn:E3; [|discriminate]]];
    intros X; apply H in X as [<- [<- [rest [A L]]]]; exists t, rest;
    [apply S in E1 as [I M]|apply S in E2 as [I M]|apply S in E3 as [I M]]; repeat split; assumption.
Qed.
Lemma unknown c m t : g_path m = PeerPath t -> find_peer c t = None -> peer_fn c m = Ignored.
Proof. intros P Q. unfold peer_fn. rewrite P, Q. reflexivity. Qed.

Lemma line_printed k q args : List.length args = match k with Fail => 1%nat | _ => 2%nat end -> printed k (cp_label q) args (line (Call k q args)).
Proof.
  destruct k; destruct args as [|a [|b [|]]]; try discriminate; intros _; cbn [line].
  - replace (_ ++ _ ++ _) with (joined [91 :: 27 :: text "[0;93mPROV"; 27 :: text "[0m] Peer: "; cp_label q; text " Type: "; a; text " PIN: "; b; [10]]) by reflexivity. constructor.
  - replace (_ ++ _ ++ _) with (joined [91 :: 27 :: text "[0;93mGO NEG"; 27 :: text "[0m] Peer: "; cp_label q; text " Type: "; a; text " PIN: "; b; [10]]) by reflexivity. constructor.
  - replace (_ ++ _ ++ _) with (joined [91 :: 27 :: text "[0;93mFAIL"; 27 :: text "[0m] Peer: "; cp_label q; text " Reason: "; a; [10]]) by reflexivity. constructor.
Qed.
Lemma print_wifictl c m k q args : peer_fn c m = Call k q args ->
  (k <> GoNeg -> printed k (cp_label q) args (wifictl_prints true (peer_fn c m))) /\ (k = GoNeg -> wifictl_prints true (peer_fn c m) = []).
Proof.
  intros E. destruct (only _ _ _ _ _ E) as [t [rest [_ [_ [_ [_ [_ L]]]]]]]. rewrite E. split; intros K.
  - unfold wifictl_prints. destruct k; [|congruence|]; apply line_printed; exact L.
  - subst k. reflexivity.
Qed.
Lemma print_sinkctl c m k q args ours : peer_fn c m = Call k q args ->
  (ours = true /\ or_empty (cp_wfd q) <> [] -> printed k (cp_label q) args (sinkctl_prints true ours (peer_fn c m)))
  /\ (ours = false \/ or_empty (cp_wfd q) = [] -> sinkctl_prints true ours (peer_fn c m) = []).
Proof.
  intros E. destruct (only _ _ _ _ _ E) as [t [rest [_ [_ [_ [_ [_ L]]]]]]]. rewrite E. unfold sinkctl_prints. split.
  - intros [-> W]. destruct (cp_wfd q) as [[|b w]|]; cbn [or_empty] in W; try congruence. apply line_printed. exact L.
  - intros [->|W]; [reflexivity|]. destruct (cp_wfd q) as [[|b w]|]; cbn [or_empty] in W; [|discriminate|]; rewrite Bool.orb_true_r; reflexivity.
Qed.
Lemma silent c m : (forall k q args, peer_fn c m <> Call k q args) -> forall running ours, wifictl_prints running (peer_fn c m) = [] /\ sinkctl_prints running ours (peer_fn c m) = [].
Proof. intros H running ours. destruct (peer_fn c m) as [k q args| |]; [destruct (H k q args eq_refl)|split; reflexivity..]. Qed.
