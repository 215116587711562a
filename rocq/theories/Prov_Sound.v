(** Connecting to peers: whole runs. *)
From Coq Require Import String.
From Verif Require Import Base Text Comm_Model Comm_Spec Comm_Proofs Prov_Model Prov_Spec Prov_Proofs Prov_Run.
From Verif Require Cli_Proofs.
Local Open Scope list_scope.

Lemma run_snoc h : forall s e s1 o1 s2 o2, run s h = Ret (s1, o1) -> step s1 e = Ret (s2, o2) -> run s (h ++ [e]) = Ret (s2, o1 ++ o2).
Proof.
  induction h as [|x h IH]; cbn [app run]; intros s e s1 o1 s2 o2 H1 H2.
  - injection H1 as <- <-. rewrite H2. cbn [obind fst snd]. now rewrite app_nil_r.
  - destruct (step s x) as [[sx ox]| |]; cbn [obind fst snd] in H1 |- *; try discriminate. destruct (run sx h) as [[sy oy]| |] eqn:E; cbn [obind fst snd] in H1; try discriminate.
    injection H1 as <- <-. rewrite (IH _ _ _ _ _ _ E H2). cbn [obind fst snd]. now rewrite app_assoc.
Qed.
Lemma run_safe h : exists s o, run init h = Ret (s, o) /\ good s.
Proof.
  induction h as [|e h IH] using rev_ind; [exists init, []; split; [reflexivity|apply good_init]|]. destruct IH as (s & o & E & G). destruct (step_eff s e G) as (s' & o' & E' & F).
  exists s', (o ++ o'). split; [eapply run_snoc; eauto|apply (e_good _ _ _ _ F)].
Qed.
Lemma run_good h s o : run init h = Ret (s, o) -> good s.
Proof. intros H. destruct (run_safe h) as (s' & o' & E & G). rewrite H in E. injection E as <- <-. exact G. Qed.
Lemma run_split h : forall s0 e s o, run s0 (h ++ [e]) = Ret (s, o) -> exists s1 o1 o2, run s0 h = Ret (s1, o1) /\ step s1 e = Ret (s, o2) /\ o = o1 ++ o2.
Proof.
  induction h as [|x h IH]; cbn [app run]; intros s0 e s o H.
  - destruct (step s0 e) as [[sx ox]| |] eqn:E; cbn [obind fst snd] in H; try discriminate. injection H as <- <-. exists s0, [], ox. rewrite app_nil_r. auto.
  - destruct (step s0 x) as [[sx ox]| |] eqn:E; cbn [obind fst snd] in H |- *; try discriminate. destruct (run sx (h ++ [e])) as [[sy oy]| |] eqn:E2; cbn [obind fst snd] in H; try discriminate.
    injection H as <- <-. destruct (IH _ _ _ _ E2) as (s1 & o1 & o2 & -> & H2 & ->). cbn [obind fst snd]. exists s1, (ox ++ o1), o2. rewrite app_assoc. auto.
Qed.
(** A property of runs, event by event. *)
Lemma run_ind (P : list event -> st -> list out -> Prop) : P [] init [] ->
  (forall h s o e s' o', run init h = Ret (s, o) -> good s -> P h s o -> step s e = Ret (s', o') -> eff s s' o' e -> P (h ++ [e]) s' (o ++ o')) ->
  forall h s o, run init h = Ret (s, o) -> P h s o.
Proof.
  intros H0 HS h. induction h as [|e h IH] using rev_ind; intros s o E; [injection E as <- <-; exact H0|].
  destruct (run_split _ _ _ _ _ E) as (s1 & o1 & o2 & E1 & E2 & ->). pose proof (run_good _ _ _ E1) as G. eapply HS; eauto. destruct (step_eff s1 e G) as (s' & o' & E3 & F). rewrite E2 in E3. injection E3 as <- <-. exact F.
Qed.
Lemma v_run_any m m' v v' e : v_run v = v_run v' -> v_run (sees m v e) = v_run (sees m' v' e).
Proof.
  intros H. destruct e as [[d|] a|a|d|d|d [t|]|d|a i|d t| | |d a g|d|go|mac|mac|b| |mac prov pin err|mac|err| ]; cbn [sees]; unfold asks, arrives; try exact H; try reflexivity.
  all: try (destruct (mine m _), (mine m' _); exact H). rewrite <- H. destruct (v_run v) eqn:EV; [|congruence]. destruct (mine m _), (mine m' _); cbn [v_run]; congruence.
Qed.
Lemma view_snoc mac h e : view_of mac (h ++ [e]) = sees mac (view_of mac h) e.
Proof. unfold view_of. now rewrite fold_left_app. Qed.
Lemma run_view h s o : run init h = Ret (s, o) -> Forall proper h -> forall mac, view_of mac h = mkView (s_run s) (look s mac).
Proof.
  revert h s o. apply (run_ind (fun h s o => Forall proper h -> forall mac, view_of mac h = mkView (s_run s) (look s mac))); [reflexivity|].
  intros h s o e s' o' _ G IH _ F HP mac. apply Forall_app in HP. destruct HP as [HP HPe]. inversion HPe; subst. rewrite view_snoc, (IH HP). rewrite (e_look _ _ _ _ F), (e_run _ _ _ _ F) by assumption.
  rewrite (v_run_any [] mac _ (mkView (s_run s) (look s mac)) e) by reflexivity. destruct (sees _ _ _); reflexivity.
Qed.
Lemma look_in s mac : good s -> (look s mac <> None <-> In mac (map p_mac (s_peers s))).
Proof.
  intros G. unfold look. destruct (named s mac) as [p|] eqn:E.
  - apply named_some in E. destruct E as [Hin <-]. split; [intros _; now apply in_map|congruence].
  - split; [congruence|]. intros H. now apply named_none in E.
Qed.
(** Who is known. *)
Lemma there_snoc h e mac : there (h ++ [e]) mac <-> tells mac e \/ (there h mac /\ e <> Lost (Some mac) /\ e <> Stopped).
Proof.
  split.
  - intros (h1 & x & h2 & E & Ht & HL & HS). destruct h2 as [|y h2] using rev_ind.
    + apply app_inj_tail in E. destruct E as [-> ->]. auto.
    + clear IHh2. replace (h1 ++ x :: h2 ++ [y]) with ((h1 ++ x :: h2) ++ [y]) in E by (rewrite <- app_assoc; reflexivity). apply app_inj_tail in E. destruct E as [-> <-]. right.
      rewrite in_app_iff in HL, HS. cbn [In] in HL, HS. split; [exists h1, x, h2; tauto|]. split; intros ->; tauto.
  - intros [Ht|((h1 & x & h2 & -> & Ht & HL & HS) & H1 & H2)].
    + exists h, e, []. repeat split; auto.
    + exists h1, x, (h2 ++ [e]). split; [rewrite <- app_assoc; reflexivity|]. split; [exact Ht|]. rewrite !in_app_iff. cbn [In]. split; intros [H|[H|[]]]; auto.
Qed.
Lemma mine_spec mac t : mine mac t = true <-> t = Some mac.
Proof. destruct t as [t|]; [|split; discriminate]. unfold mine. destruct (list_eq_dec N.eq_dec t mac) as [-> | H]; split; congruence. Qed.
Lemma view_there mac h : Forall direct h -> (v_ask (view_of mac h) <> None <-> there h mac).
Proof.
  induction h as [|e h IH] using rev_ind; intros HD.
  - split; [intros H; exfalso; apply H; reflexivity|]. intros (h1 & x & h2 & E & _). destruct h1; discriminate.
  - apply Forall_app in HD. destruct HD as [HD HDe]. inversion HDe as [|? ? De _]; subst. rewrite there_snoc, view_snoc. specialize (IH HD).
    assert (KEEP : (forall v, (v_ask (sees mac v e) <> None) <-> (v_ask v <> None)) -> ~ tells mac e -> e <> Lost (Some mac) -> e <> Stopped -> v_ask (sees mac (view_of mac h) e) <> None <-> tells mac e \/ (there h mac /\ e <> Lost (Some mac) /\ e <> Stopped)).
    { intros Hv Ht H1 H2. rewrite (Hv _). tauto. }
    assert (ASK : forall a w v, v_ask (asks mac a w v) <> None <-> v_ask v <> None) by (intros a w v; unfold asks; destruct (mine mac a); [|tauto]; cbn [v_ask]; destruct (v_ask v); split; congruence).
    assert (ARRV : forall a v, v_ask (arrives mac a v) <> None <-> (a = Some mac \/ v_ask v <> None)).
    { intros a v. unfold arrives. destruct (mine mac a) eqn:E; cbn [v_ask].
      - apply mine_spec in E. split; [auto|]. intros _. destruct (v_ask v); discriminate.
      - split; [auto|]. intros [H|H]; [apply mine_spec in H; congruence|exact H]. }
    assert (NT : (match e with Found (Some _) _ | Reply _ => False | _ => True end) -> ~ tells mac e) by (intros He [[a ->]| ->]; contradiction).
    destruct e as [[d|] a|a|d|d|d [t|]|d|a i|d t| | |d a g|d|go|m|m|b| |m prov pin err|m|err| ]; cbn [sees].
    1:{ cbn [direct] in De. subst a. rewrite ARRV, IH. split.
        - intros [H|H]; [injection H as ->; left; left; eauto|right; repeat split; [exact H|discriminate|discriminate]].
        - intros [[[a H]|H]|[H _]]; [injection H as -> _; auto|discriminate|auto]. }
    2:{ rewrite ARRV, IH. split.
        - intros [H|H]; [subst a; left; right; reflexivity|right; repeat split; [exact H|discriminate|discriminate]].
        - intros [[[a' H]|H]|[H _]]; [discriminate|injection H as ->; auto|auto]. }
    2:{ destruct (mine mac d) eqn:E; cbn [v_ask].
        - apply mine_spec in E. subst. split; [congruence|]. intros [[[a' H]|H]|[_ [H _]]]; [discriminate|discriminate|congruence].
        - rewrite IH. split; [intros H; right; repeat split; [exact H| |discriminate]; intros E2; injection E2 as ->; assert (mine mac (Some mac) = true) by (now apply mine_spec); congruence|].
          intros [[[a' H]|H]|[H _]]; [discriminate|discriminate|exact H]. }
    all: try (apply KEEP; [intros v; cbn [sees]; first [apply ASK|tauto]|apply NT; exact I|discriminate|discriminate]).
    + apply KEEP; [|apply NT; exact I|discriminate|discriminate]. intros v. cbn [sees]. destruct (mine mac a); [|tauto]. cbn [v_ask]. destruct (v_ask v) as [[w|]|]; split; congruence.
    + cbn [v_ask]. split; [congruence|]. intros [[[a' H]|H]|[_ [_ H]]]; [discriminate|discriminate|congruence].
    + apply KEEP; [|apply NT; exact I|discriminate|discriminate]. intros v. cbn [sees]. destruct (v_run v); [apply ASK|tauto].
Qed.
Lemma known_there h s o : Forall proper h -> Forall direct h -> run init h = Ret (s, o) -> forall mac, In mac (map p_mac (s_peers s)) <-> there h mac.
Proof. intros HP HD HR mac. rewrite <- (view_there mac h HD), (run_view _ _ _ HR HP mac). cbn [v_ask]. symmetry. apply look_in. eapply run_good; eauto. Qed.
Lemma known_once h s o : run init h = Ret (s, o) -> NoDup (map p_mac (s_peers s)) /\ Forall (fun p => address (p_mac p) /\ p_public p = s_run s) (s_peers s).
Proof.
  intros H. pose proof (run_good _ _ _ H) as G. split; [apply (g_macs _ G)|]. pose proof (g_canon _ G) as A. pose proof (g_pub _ G) as B. rewrite Forall_forall in *. intros p Hp. auto.
Qed.
(** Requests to connect. *)
Lemma method_det w t m m' : method_is w t m -> method_is w t m' -> m = m'.
Proof. intros H H'. destruct H as [t H1 H2|t m pin [-> | ->] ->|t [-> | ->] ->]; inversion H'; subst; try congruence; try tauto; destruct H; congruence. Qed.
Lemma method_total w t : exists m, method_is w t m.
Proof.
  destruct (list_eq_dec N.eq_dec t []) as [-> | H1]; [destruct w as [[m p]|]; eexists; [eapply MAsked; eauto|eapply MDefault; auto]|].
  destruct (list_eq_dec N.eq_dec t (text "auto")) as [-> | H2]; [destruct w as [[m p]|]; eexists; [eapply MAsked; eauto|eapply MDefault; auto]|]. exists t. now constructor.
Qed.
Lemma pin_total w t : exists n, pin_is w t n.
Proof.
  destruct t as [|x t]; [|eexists; apply NGiven; discriminate]. destruct w as [[m [[|y p]|]]|].
  - exists None. apply NNone. intros ? ? H. congruence.
  - eexists. eapply NShown; [reflexivity|discriminate].
  - exists None. apply NNone. discriminate.
  - exists None. apply NNone. discriminate.
Qed.
Lemma request_total mac m n : exists r, request mac m n r.
Proof.
  destruct (list_eq_dec N.eq_dec m (text "pbc")) as [E|H1]; [eexists; now apply RPbc|].
  destruct (in_dec (list_eq_dec N.eq_dec) m [text "display"; text "pin"; text "keypad"]) as [H|H].
  - destruct n; eexists; [now apply RPin|now apply RNoPin].
  - eexists. apply RUnknown. intros [E|Hin]; [congruence|contradiction].
Qed.
Lemma pending_other s p : good s -> In p (s_peers s) -> (match s_pending s with Some id => negb (id =? p_id p) | None => false end = true <-> exists m, pend s = Some m /\ m <> p_mac p).
Proof.
  intros G Hin. pose proof (is_pending_spec s p G Hin) as H. unfold is_pending in H. destruct (s_pending s) as [id|] eqn:E.
  - destruct (pend_id _ _ G E) as (q & _ & _ & _ & EP). destruct H as [[-> HP]|[-> HP]]; cbn [negb]; split; try discriminate.
    + intros (m & H1 & H2). congruence.
    + intros _. exists (p_mac q). split; [exact EP|congruence].
    + reflexivity.
  - split; [discriminate|]. intros (m & Hm & _). unfold pend in Hm. rewrite E in Hm. discriminate.
Qed.
Lemma object_some s mac p : good s -> object s mac = Some p -> In p (s_peers s) /\ p_mac p = mac /\ s_run s = true /\ p_public p = true /\ named s mac = Some p.
Proof.
  intros G. unfold object. destruct (named s mac) as [q|] eqn:E; [|discriminate]. destruct (p_public q) eqn:E2; [|discriminate]. intros H. injection H as <-. pose proof E as E'.
  apply named_some in E. destruct E as [Hin Em]. repeat split; auto. rewrite <- E2. symmetry. now apply public_run.
Qed.
Lemma connect_spec h s o mac p prov pin err : Forall proper h -> run init h = Ret (s, o) -> object s mac = Some p ->
  exists w, v_ask (view_of mac h) = Some w /\
  forall m n r, method_is w prov m -> pin_is w pin n -> request mac m n r ->
  step s (Connect mac prov pin err) =
    if p_in p then Ret (s, [Returns 0])
    else if match pend s with Some m => negb (str_eq m mac) | None => false end then Ret (s, [Returns EALREADY])
    else match r with
         | None => Ret (s, [Returns EINVAL])
         | Some words => if err =? 0 then Ret (with_pending (Some (p_id p)) s, [Send words; Returns 0]) else Ret (s, [Returns err])
         end.
Proof.
  intros HP HR HO. pose proof (run_good _ _ _ HR) as G. pose proof (object_some _ _ _ G HO) as (Hin & Em & Er & Pu & En). subst mac. exists (ask_of p). rewrite (run_view _ _ _ HR HP). cbn [v_ask]. split; [unfold look; now rewrite En|].
  intros m n r Hm Hn Hr. cbn [step]. rewrite HO. unfold connect. rewrite Er. cbn [negb]. destruct (p_in p); [reflexivity|].
  assert (PO : match s_pending s with Some id => negb (id =? p_id p) | None => false end = match pend s with Some m0 => negb (str_eq m0 (p_mac p)) | None => false end).
  { pose proof (pending_other s p G Hin) as H. destruct (match s_pending s with Some id => negb (id =? p_id p) | None => false end).
    - destruct (proj1 H eq_refl) as (m0 & -> & Hne). symmetry. apply negb_true_iff. now apply Cli_Proofs.str_eq_false.
    - destruct (pend s) as [m0|]; [|reflexivity]. symmetry. apply negb_false_iff. destruct (str_eq m0 (p_mac p)) eqn:E; [reflexivity|]. apply Cli_Proofs.str_eq_false in E. discriminate (proj2 H). eauto. }
  rewrite PO. destruct (match pend s with Some m0 => _ | None => _ end); [reflexivity|]. clear PO.
  assert (EM : match (if is_empty prov || str_eq prov (text "auto") then None else Some prov) with Some t => t | None => match p_prov p with Some t => t | None => text "pbc" end end = m).
  { unfold ask_of in Hm. destruct Hm as [t H1 H2|t m pn Ht E|t Ht E].
    - apply Cli_Proofs.str_eq_false in H2. rewrite H2. destruct t; [congruence|reflexivity].
    - destruct (p_prov p); [|discriminate]. injection E as -> _. destruct Ht as [-> | ->]; reflexivity.
    - destruct (p_prov p); [discriminate|]. destruct Ht as [-> | ->]; reflexivity. }
  rewrite EM.
  assert (EN : match match (if is_empty pin then None else Some pin) with Some t => Some t | None => p_pin p end with Some t => if is_empty t then None else Some t | None => None end = n).
  { pose proof (g_pin _ G) as HG. rewrite Forall_forall in HG. specialize (HG p Hin). cbn beta in HG. unfold ask_of in Hn. destruct Hn as [t Ht|mm q E Hq|E].
    - destruct t; [congruence|reflexivity].
    - destruct (p_prov p); [|discriminate]. injection E as -> ->. cbn [is_empty]. destruct q; [congruence|reflexivity].
    - cbn [is_empty]. destruct (p_pin p) as [q|] eqn:E2; [|reflexivity]. destruct (p_prov p) as [t|]; [|specialize (HG eq_refl); discriminate]. rewrite (E t q eq_refl). reflexivity. }
  destruct Hr as [n' -> |q Hi|Hi|n' Hi].
  - rewrite Cli_Proofs.str_eq_refl. destruct (err =? 0); reflexivity.
  - replace (str_eq m (text "pbc")) with false by (destruct Hi as [<-|[<-|[<-|[]]]]; reflexivity).
    replace (str_eq m (text "display") || str_eq m (text "pin") || str_eq m (text "keypad")) with true by (destruct Hi as [<-|[<-|[<-|[]]]]; reflexivity).
    destruct (match (if is_empty pin then None else Some pin) with Some t => Some t | None => p_pin p end) as [t|]; [|discriminate]. destruct (is_empty t); [discriminate|]. injection EN as ->. destruct (err =? 0); reflexivity.
  - replace (str_eq m (text "pbc")) with false by (destruct Hi as [<-|[<-|[<-|[]]]]; reflexivity).
    replace (str_eq m (text "display") || str_eq m (text "pin") || str_eq m (text "keypad")) with true by (destruct Hi as [<-|[<-|[<-|[]]]]; reflexivity).
    destruct (match (if is_empty pin then None else Some pin) with Some t => Some t | None => p_pin p end) as [t|]; [|reflexivity]. destruct (is_empty t); [reflexivity|discriminate].
  - destruct (str_eq m (text "pbc")) eqn:E1; [exfalso; apply Hi; apply Cli_Proofs.str_eq_spec in E1; subst m; rewrite E1; cbn [In]; auto|].
    destruct (str_eq m (text "display") || str_eq m (text "pin") || str_eq m (text "keypad")) eqn:E2; [|reflexivity]. exfalso. apply Hi.
    apply orb_prop in E2. destruct E2 as [E2|E2]; [apply orb_prop in E2; destruct E2 as [E2|E2]|]; apply Cli_Proofs.str_eq_spec in E2; subst m; rewrite E2; cbn [In]; auto.
Qed.
Lemma connect_no_object s mac prov pin err : object s mac = None -> step s (Connect mac prov pin err) = Ret (s, [NoObject]).
Proof. intros H. cbn [step]. now rewrite H. Qed.

(** Attempts. *)
Lemma run_p2p h s o : run init h = Ret (s, o) -> ~ In (Ready false) h -> s_run s = true -> s_p2p s = true.
Proof.
  revert h s o. apply (run_ind (fun h s o => ~ In (Ready false) h -> s_run s = true -> s_p2p s = true)); [discriminate|].
  intros h s o e s' o' _ G IH _ F HN. rewrite in_app_iff in HN. cbn [In] in HN. rewrite (e_p2p _ _ _ _ F), (e_run _ _ _ _ F). assert (HI : s_run s = true -> s_p2p s = true) by tauto.
  destruct e as [[d|] a|a|d|d|d [t|]|d|a i|d t| | |d a g|d|go|mac|mac|b| |mac prov pin err|mac|err| ]; cbn [sees v_run]; unfold asks, arrives; try exact HI; try discriminate.
  all: try (destruct (mine _ _); exact HI).
  - intros _. destruct (s_run s); [auto|]. destruct b; [reflexivity|tauto].
  - destruct (s_run s); [|discriminate]. intros _. apply HI. reflexivity.
Qed.
Lemma sent_in o : sent o = true <-> exists w, In (Send w) o.
Proof.
  unfold sent. rewrite existsb_exists. split.
  - intros (x & Hx & H). destruct x; try discriminate. eauto.
  - intros (w & Hw). exists (Send w). auto.
Qed.
Lemma tried_snoc h e mac s o s' o' : run init h = Ret (s, o) -> step s e = Ret (s', o') ->
  (tried (h ++ [e]) mac <-> (exists prov pin, e = Connect mac prov pin 0 /\ sent o' = true) \/ (tried h mac /\ ~ ends mac e)).
Proof.
  intros HR HS. split.
  - intros (h1 & prov & pin & h2 & s1 & o1 & s2 & o2 & E & R1 & S1 & W & HF). destruct h2 as [|y h2] using rev_ind.
    + apply app_inj_tail in E. destruct E as [<- ->]. rewrite HR in R1. injection R1 as <- <-. rewrite HS in S1. injection S1 as <- <-. left. exists prov, pin. split; [reflexivity|now apply sent_in].
    + clear IHh2. replace (h1 ++ Connect mac prov pin 0 :: h2 ++ [y]) with ((h1 ++ Connect mac prov pin 0 :: h2) ++ [y]) in E by (rewrite <- app_assoc; reflexivity). apply app_inj_tail in E. destruct E as [-> <-].
      apply Forall_app in HF. destruct HF as [HF HFe]. inversion HFe; subst. right. split; [|assumption]. exists h1, prov, pin, h2, s1, o1, s2, o2. auto.
  - intros [(prov & pin & -> & W)|((h1 & prov & pin & h2 & s1 & o1 & s2 & o2 & -> & R1 & S1 & W & HF) & He)].
    + exists h, prov, pin, [], s, o, s', o'. repeat split; auto. now apply sent_in.
    + exists h1, prov, pin, (h2 ++ [e]), s1, o1, s2, o2. split; [rewrite <- app_assoc; reflexivity|]. repeat (split; [assumption|]). apply Forall_app. auto.
Qed.
Lemma pend_run s mac : good s -> pend s = Some mac -> s_run s = true.
Proof. intros G H. destruct (pend_some _ _ G H) as (p & _ & _ & _ & _ & R & _). exact R. Qed.
Lemma connect_sent s mac prov pin err s' o : step s (Connect mac prov pin err) = Ret (s', o) -> sent o = true -> err = 0 /\ match s_pending s with Some id => exists p, named s mac = Some p /\ id = p_id p | None => True end.
Proof.
  cbn [step]. unfold object. destruct (named s mac) as [p|]; [|intros H; injection H as <- <-; discriminate]. destruct (p_public p); [|intros H; injection H as <- <-; discriminate].
  unfold connect. destruct (negb _); [intros H; injection H as <- <-; discriminate|]. destruct (p_in p); [intros H; injection H as <- <-; discriminate|].
  destruct (match s_pending s with Some id => negb (id =? p_id p) | None => false end) eqn:E; [intros H; injection H as <- <-; discriminate|].
  assert (EP : match s_pending s with Some id => exists q, Some p = Some q /\ id = p_id q | None => True end).
  { destruct (s_pending s) as [id|]; [|exact I]. apply negb_false_iff, N.eqb_eq in E. eauto. }
  destruct (err =? 0) eqn:E0; [apply N.eqb_eq in E0; auto|].
  destruct (str_eq _ (text "pbc")); [intros H; injection H as <- <-; discriminate|]. destruct (_ || _); [|intros H; injection H as <- <-; discriminate].
  match goal with |- context [match ?x with Some t => if is_empty t then _ else _ | None => _ end] => destruct x as [t|] end; [|intros H; injection H as <- <-; discriminate].
  destruct (is_empty t); intros H; injection H as <- <-; discriminate.
Qed.
Lemma pend_tried h s o : run init h = Ret (s, o) -> ~ In (Ready false) h -> forall mac, pend s = Some mac <-> tried h mac.
Proof.
  intros HR. generalize HR. revert h s o HR. apply (run_ind (fun h s o => run init h = Ret (s, o) -> ~ In (Ready false) h -> forall mac, pend s = Some mac <-> tried h mac)).
  - intros _ _ mac. split; [discriminate|]. intros (h1 & prov & pin & h2 & s1 & o1 & s2 & o2 & E & _). destruct h1; discriminate.
  - intros h s o e s' o' HR G IH HS F _ HN mac. assert (HN' : ~ In (Ready false) h) by (rewrite in_app_iff in HN; tauto). specialize (IH HR HN').
    rewrite (tried_snoc _ _ _ _ _ _ _ HR HS), (e_pend _ _ _ _ F), <- IH.
    assert (SIMPLE : (forall pd b c, after pd e b c = pd) -> (forall m p q r, e <> Connect m p q r) -> ~ ends mac e -> after (pend s) e (s_run s && s_p2p s) (sent o') = Some mac <-> (exists prov pin, e = Connect mac prov pin 0 /\ sent o' = true) \/ (pend s = Some mac /\ ~ ends mac e)).
    { intros H1 H2 H3. rewrite H1. split; [auto|]. intros [(prov & pin & E & _)|[H _]]; [exfalso; eapply H2; eauto|exact H]. }
    assert (CLEAR : forall b c, after (pend s) e b c = None -> (forall m p q r, e <> Connect m p q r) -> ends mac e -> after (pend s) e b c = Some mac <-> (exists prov pin, e = Connect mac prov pin 0 /\ sent o' = true) \/ (pend s = Some mac /\ ~ ends mac e)).
    { intros b c -> H2 H3. split; [discriminate|]. intros [(prov & pin & E & _)|[_ H]]; [exfalso; eapply H2; eauto|contradiction]. }
    assert (ONE : forall a, (e = Lost (Some a) \/ e = StaDisconnected (Some a)) -> after (pend s) e (s_run s && s_p2p s) (sent o') = Some mac <-> (exists prov pin, e = Connect mac prov pin 0 /\ sent o' = true) \/ (pend s = Some mac /\ ~ ends mac e)).
    { intros a He. assert (Ha : forall pd b c, after pd e b c = match pd with Some m => if str_eq m a then None else pd | None => None end) by (intros; destruct He as [-> | ->]; reflexivity).
      assert (Hd : ends mac e <-> a = mac) by (destruct He as [-> | ->]; reflexivity). rewrite Ha, Hd. split.
      - destruct (pend s) as [m|]; [|discriminate]. destruct (str_eq m a) eqn:E; [discriminate|]. intros H. injection H as ->. apply Cli_Proofs.str_eq_false in E. right. split; congruence.
      - intros [(prov & pin & E & _)|[-> H]]; [destruct He as [-> | ->]; discriminate|]. rewrite (proj2 (Cli_Proofs.str_eq_false mac a)) by congruence. reflexivity. }
    destruct e as [d a|a|[d|]|d|d t|d|a i|d t| | |d a g|[d|]|go|m|m|b| |m prov pin err|m|err| ].
    all: try (apply SIMPLE; [reflexivity|discriminate|cbn [ends]; tauto]).
    all: try (apply CLEAR; [reflexivity|discriminate|exact I]).
    all: try (solve [eapply ONE; eauto]).
    + cbn [after]. split.
      * destruct (sent o') eqn:W; [|intros H; right; split; [exact H|cbn [ends]; tauto]]. intros H. injection H as ->. left. destruct (connect_sent _ _ _ _ _ _ _ HS W) as [-> _]. eauto.
      * intros [(prov' & pin' & E & W)|[H _]]; [injection E as <- <- <- ->; now rewrite W|]. destruct (sent o') eqn:W; [|exact H]. destruct (connect_sent _ _ _ _ _ _ _ HS W) as [_ Hp].
        destruct (pend_some _ _ G H) as (p & _ & _ & Ep & En & _). rewrite Ep in Hp. destruct Hp as (p' & En' & Eid). f_equal. pose proof (named_some _ _ _ En') as [Hin' <-]. pose proof (named_some _ _ _ En) as [Hin <-].
        f_equal. eapply in_uniq; [apply (g_ids _ G)|exact Hin'|exact Hin|congruence].
    + destruct (pend s) as [m|] eqn:EP.
      * pose proof (pend_run _ _ G EP) as R. assert (P2 : s_p2p s = true) by (eapply run_p2p; eauto). rewrite R, P2. apply CLEAR; [cbn [after andb]; reflexivity|discriminate|exact I].
      * apply CLEAR; [cbn [after]; destruct (_ && _); reflexivity|discriminate|exact I].
Qed.
Lemma tried_one h a b : ~ In (Ready false) h -> tried h a -> tried h b -> a = b.
Proof. intros HN Ha Hb. destruct (run_safe h) as (s & o & E & G). apply (pend_tried _ _ _ E HN) in Ha, Hb. congruence. Qed.
(** Failures. *)
Lemma failed_tried h s o e s' o' mac r : ~ In (Ready false) h -> e <> Ready false -> run init h = Ret (s, o) -> step s e = Ret (s', o') -> In (Failed mac r) o' -> tried h mac /\ forall m, ~ tried (h ++ [e]) m.
Proof.
  intros HN He HR HS Hin. pose proof (run_good _ _ _ HR) as G. destruct (step_eff s e G) as (s1 & o1 & E & F). rewrite HS in E. injection E as <- <-. destruct (e_told _ _ _ _ F) as [T _]. destruct (T _ _ Hin) as [A B].
  split; [now apply (pend_tried _ _ _ HR HN)|]. intros m Hm. apply (pend_tried (h ++ [e]) s' (o ++ o')) in Hm; [congruence|eapply run_snoc; eauto|]. intros HX. apply in_app_or in HX. destruct HX as [HX|[HX|HX]]; [tauto|congruence|destruct HX].
Qed.
Lemma failure_told h s o mac : ~ In (Ready false) h -> run init h = Ret (s, o) -> tried h mac ->
  step s NegFailure = Ret (with_pending None s, [Failed mac (text "group owner negotiation failed")]) /\ step s FormFailure = Ret (with_pending None s, [Failed mac (text "unknown")])
  /\ (exists s' o', step s (Lost (Some mac)) = Ret (s', Failed mac (text "lost") :: o'))
  /\ (forall p, named s mac = Some p -> p_conn p = false -> exists s' o', step s (StaDisconnected (Some mac)) = Ret (s', Failed mac (text "disconnected") :: o')).
Proof.
  intros HN HR HT. pose proof (run_good _ _ _ HR) as G. apply (pend_tried _ _ _ HR HN) in HT. destruct (pend_some _ _ G HT) as (p & Hin & Em & Ep & En & R & Pu). pose proof (at_id_in _ _ G Hin) as Ha.
  assert (IP : is_pending s p = true) by (unfold is_pending; rewrite Ep; apply N.eqb_refl).
  repeat split.
  - cbn [step failure]. unfold failure. rewrite Ep, Ha. unfold formation_failure. now rewrite Pu, Em.
  - cbn [step failure]. unfold failure. rewrite Ep, Ha. unfold formation_failure. now rewrite Pu, Em.
  - cbn [step on]. rewrite En. unfold peer_free. rewrite IP. destruct (drop_group p) as [q oq]. unfold formation_failure. rewrite Pu, Em. do 2 eexists. reflexivity.
  - intros p' En' HC. rewrite En in En'. injection En' as <-. cbn [step on]. rewrite En, IP, HC. destruct (drop_group p) as [q oq]. unfold formation_failure. rewrite Pu, Em. do 2 eexists. reflexivity.
Qed.
Lemma failures_count h s o : run init h = Ret (s, o) -> forall mac, count (is_failure mac) o <= count (is_request mac) o.
Proof.
  intros HR mac. assert (H : count (is_failure mac) o + is_pend mac (pend s) <= count (is_request mac) o); [|lia]. revert h s o HR.
  apply (run_ind (fun h s o => count (is_failure mac) o + is_pend mac (pend s) <= count (is_request mac) o)); [rewrite !count_nil; apply N.le_refl|].
  intros h s o e s' o' _ _ IH _ F. destruct (e_told _ _ _ _ F) as [_ T]. specialize (T mac). rewrite !count_app. lia.
Qed.
(** Signals of provisioning. *)
Lemma asked_told h s o mac : Forall proper h -> run init h = Ret (s, o) -> object s mac <> None -> 
  (exists s', step s (PbcReq (Some mac)) = Ret (s', [Asked mac (text "pbc") []])) /\ (forall pin, exists s', step s (ShowPin (Some mac) (Some pin)) = Ret (s', [Asked mac (text "display") pin]))
  /\ (exists s', step s (EnterPin (Some mac)) = Ret (s', [Asked mac (text "pin") []])).
Proof.
  intros HP HR HO. pose proof (run_good _ _ _ HR) as G. destruct (object s mac) as [p|] eqn:E; [|congruence]. destruct (object_some _ _ _ G E) as (Hin & Em & _ & Pu & En).
  repeat split; intros; eexists; cbn [step provision]; rewrite En, Pu, Em; reflexivity.
Qed.
Lemma wanted_told h s o mac p i : Forall proper h -> run init h = Ret (s, o) -> object s mac = Some p -> p_in p = false ->
  exists s' w, v_ask (view_of mac h) = Some w /\ step s (NegRequest (Some mac) i) = Ret (s', [match w with Some (m, pin) => Wanted mac m (or_empty pin) | None => Wanted mac (text "pbc") [] end]).
Proof.
  intros HP HR HO HI. pose proof (run_good _ _ _ HR) as G. destruct (object_some _ _ _ G HO) as (Hin & Em & _ & Pu & En). rewrite (run_view _ _ _ HR HP). cbn [v_ask step on]. unfold look. rewrite En. unfold ask_of.
  destruct (p_prov p) as [t|] eqn:E; do 2 eexists; (split; [reflexivity|]).
  - rewrite HI, Pu, Em, E. reflexivity.
  - cbn [set_ask p_in p_public p_mac p_prov p_pin]. rewrite HI, Pu, Em. reflexivity.
Qed.
