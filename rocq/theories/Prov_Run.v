(** Connecting to peers: what each event does. *)
From Coq Require Import String.
From Verif Require Import Base Text Comm_Model Comm_Spec Comm_Proofs Prov_Model Prov_Spec Prov_Proofs.
From Verif Require Cli_Proofs.
Local Open Scope list_scope.

Definition ask_of (p : peer) : ask := match p_prov p with Some t => Some (t, p_pin p) | None => None end.
Definition look (s : st) (mac : list byte) : option ask := match named s mac with Some p => Some (ask_of p) | None => None end.
Definition sent (o : list out) : bool := existsb (fun x => match x with Send _ => true | _ => false end) o.
Definition after (pd : option (list byte)) (e : event) (scan snt : bool) : option (list byte) :=
  match e with
  | Lost (Some a) | StaDisconnected (Some a) => match pd with Some m => if str_eq m a then None else pd | None => None end
  | NegFailure | FormFailure | Stopped => None
  | StartScan _ => if scan then None else pd
  | Connect mac _ _ _ => if snt then Some mac else pd
  | _ => pd
  end.
Definition is_pend (mac : list byte) (pd : option (list byte)) : N := match pd with Some m => if list_eq_dec N.eq_dec m mac then 1 else 0 | None => 0 end.
Definition told_ok (s s' : st) (o : list out) : Prop :=
  (forall mac r, In (Failed mac r) o -> pend s = Some mac /\ pend s' = None)
  /\ (forall mac, count (is_failure mac) o + is_pend mac (pend s') <= count (is_request mac) o + is_pend mac (pend s)).
Record eff (s s' : st) (o : list out) (e : event) : Prop := mkEff {
  e_good : good s';
  e_run : s_run s' = v_run (sees [] (mkView (s_run s) None) e);
  e_p2p : s_p2p s' = match e with Ready b => if s_run s then s_p2p s else b | _ => s_p2p s end;
  e_look : proper e -> forall mac, look s' mac = v_ask (sees mac (mkView (s_run s) (look s mac)) e);
  e_pend : pend s' = after (pend s) e (s_run s && s_p2p s) (sent o);
  e_told : told_ok s s' o }.

Lemma pend_some s mac : good s -> pend s = Some mac -> exists p, In p (s_peers s) /\ p_mac p = mac /\ s_pending s = Some (p_id p) /\ named s mac = Some p /\ s_run s = true /\ p_public p = true.
Proof.
  intros G. unfold pend. destruct (s_pending s) as [id|] eqn:E; [|discriminate]. destruct (at_id s id) as [p|] eqn:E2; [|discriminate]. intros H. injection H as <-.
  apply at_id_some in E2. destruct E2 as [Hin <-]. exists p. assert (R : s_run s = true) by (apply (g_run _ G); congruence).
  repeat split; auto; [now apply named_in|]. rewrite <- R. now apply public_run.
Qed.
Lemma pend_id s id : good s -> s_pending s = Some id -> exists p, at_id s id = Some p /\ In p (s_peers s) /\ p_id p = id /\ pend s = Some (p_mac p).
Proof.
  intros G H. pose proof (g_pend _ G _ H) as Hin. apply in_map_iff in Hin. destruct Hin as (p & E & Hin). exists p. subst id. pose proof (at_id_in _ _ G Hin) as Ha. unfold pend. rewrite H, Ha. auto.
Qed.
Lemma is_pending_spec s p : good s -> In p (s_peers s) -> (is_pending s p = true /\ pend s = Some (p_mac p)) \/ (is_pending s p = false /\ pend s <> Some (p_mac p)).
Proof.
  intros G Hin. unfold is_pending. destruct (s_pending s) as [id|] eqn:E.
  - destruct (pend_id _ _ G E) as (q & Ha & Hq & Eq & Ep). rewrite Ep. destruct (id =? p_id p) eqn:E2.
    + apply N.eqb_eq in E2. left. split; [reflexivity|]. do 2 f_equal. eapply in_uniq; [apply (g_ids _ G)|exact Hq|exact Hin|congruence].
    + apply N.eqb_neq in E2. right. split; [reflexivity|]. intros H. injection H as H. apply E2. rewrite <- Eq. f_equal. eapply in_uniq; [apply (g_macs _ G)|exact Hq|exact Hin|exact H].
  - right. split; [reflexivity|]. unfold pend. rewrite E. discriminate.
Qed.
Lemma pend_put s p q : good s -> In p (s_peers s) -> alike p q -> pend (put q s) = pend s.
Proof.
  intros G Hin HA. unfold pend. cbn [put with_peers s_pending]. destruct (s_pending s) as [id|]; [|reflexivity]. rewrite (at_id_put _ _ _ _ G Hin HA).
  destruct (p_id p =? id) eqn:E; [|reflexivity]. apply N.eqb_eq in E. subst id. rewrite (at_id_in _ _ G Hin). destruct HA as (_ & -> & _). reflexivity.
Qed.
Lemma look_put s p q mac : good s -> In p (s_peers s) -> alike p q -> look (put q s) mac = if str_eq (p_mac p) mac then Some (ask_of q) else look s mac.
Proof. intros G Hin HA. unfold look. rewrite (named_put _ _ _ _ G Hin HA). now destruct (str_eq _ _). Qed.
Lemma pend_nopend s : pend (with_pending None s) = None. Proof. reflexivity. Qed.
Lemma pend_with s p : good s -> In p (s_peers s) -> pend (with_pending (Some (p_id p)) s) = Some (p_mac p).
Proof. intros G Hin. unfold pend. cbn [with_pending s_pending]. change (at_id (with_pending (Some (p_id p)) s) (p_id p)) with (at_id s (p_id p)). now rewrite (at_id_in _ _ G Hin). Qed.
Lemma count_app f a b : count f (a ++ b) = count f a + count f b.
Proof. unfold count. rewrite filter_app. unfold lenN. rewrite app_length. lia. Qed.
Lemma count_cons f x o : count f (x :: o) = (if f x then 1 else 0) + count f o.
Proof. unfold count. cbn [filter]. destruct (f x); unfold lenN; cbn [List.length]; lia. Qed.
Lemma count_nil f : count f [] = 0. Proof. reflexivity. Qed.
(** Outputs that tell of no failure. *)
Definition quiet (o : list out) : Prop := Forall (fun x => match x with Failed _ _ => False | _ => True end) o.
Lemma quiet_count o mac : quiet o -> count (is_failure mac) o = 0.
Proof. induction 1 as [|x o Hx H IH]; [reflexivity|]. rewrite count_cons, IH. destruct x; try reflexivity. contradiction. Qed.
Lemma told_quiet s s' o : quiet o -> (pend s' = pend s \/ pend s' = None) -> told_ok s s' o.
Proof.
  intros Q Hp. split.
  - intros mac r Hin. unfold quiet in Q. rewrite Forall_forall in Q. specialize (Q _ Hin). contradiction.
  - intros mac. rewrite (quiet_count _ _ Q). destruct Hp as [-> | ->]; cbn [is_pend]; lia.
Qed.
Lemma told_app s s1 s2 o1 o2 : told_ok s s1 o1 -> told_ok s1 s2 o2 -> (pend s1 = pend s \/ pend s1 = None) -> (pend s2 = None \/ quiet o1) -> told_ok s s2 (o1 ++ o2).
Proof.
  intros [A1 A2] [B1 B2] Hp Hq. split.
  - intros mac r Hin. apply in_app_or in Hin. destruct Hin as [Hin|Hin].
    + destruct Hq as [Hq|Hq]; [split; [exact (proj1 (A1 _ _ Hin))|exact Hq]|]. unfold quiet in Hq. rewrite Forall_forall in Hq. specialize (Hq _ Hin). contradiction.
    + destruct (B1 _ _ Hin) as [B3 B4]. destruct Hp as [Hp|Hp]; [split; congruence|congruence].
  - intros mac. rewrite !count_app. specialize (A2 mac). specialize (B2 mac). lia.
Qed.
Lemma told_fail s s' mac r o : pend s = Some mac -> pend s' = None -> quiet o -> told_ok s s' (Failed mac r :: o).
Proof.
  intros H1 H2 Q. split.
  - intros m r' [E|Hin]; [injection E as <- <-; auto|]. unfold quiet in Q. rewrite Forall_forall in Q. specialize (Q _ Hin). contradiction.
  - intros m. rewrite H1, H2, !count_cons, (quiet_count _ _ Q). cbn [is_pend is_failure is_request]. destruct (list_eq_dec N.eq_dec mac m); lia.
Qed.

(** Peers leave groups. *)
Lemma conn_changed_spec b p : exists q o, conn_changed b p = (q, o) /\ p_id q = p_id p /\ p_mac q = p_mac p /\ p_public q = p_public p /\ p_prov q = p_prov p /\ p_pin q = p_pin p /\ quiet o.
Proof. unfold conn_changed. destruct (Bool.eqb _ _); do 2 eexists; (split; [reflexivity|]); repeat split; [constructor|]. destruct (p_public p); repeat constructor. Qed.
Lemma drop_group_spec p : exists q o, drop_group p = (q, o) /\ p_id q = p_id p /\ p_mac q = p_mac p /\ p_public q = p_public p /\ p_prov q = p_prov p /\ p_pin q = p_pin p /\ quiet o.
Proof.
  unfold drop_group. destruct (p_in p); [|do 2 eexists; split; [reflexivity|]; repeat split; constructor].
  destruct (conn_changed_spec false (set_out p)) as (q & o & E & H). exists q, o. split; [exact E|]. exact H.
Qed.
Lemma same_alike s p q : good s -> In p (s_peers s) -> p_id q = p_id p -> p_mac q = p_mac p -> p_public q = p_public p -> p_prov q = p_prov p -> p_pin q = p_pin p -> alike p q.
Proof. intros G Hin A B C D E. repeat split; auto. rewrite D, E. pose proof (g_pin _ G) as H. rewrite Forall_forall in H. exact (H p Hin). Qed.
Lemma ask_same p q : p_prov q = p_prov p -> p_pin q = p_pin p -> ask_of q = ask_of p.
Proof. unfold ask_of. intros -> ->. reflexivity. Qed.
Lemma peer_free_spec s p : good s -> In p (s_peers s) -> exists s' o, peer_free s p = (s', o) /\ good s' /\ s_run s' = s_run s /\ s_p2p s' = s_p2p s /\ s_peers s' = s_peers (without (p_id p) s)
  /\ pend s' = match pend s with Some m => if str_eq m (p_mac p) then None else pend s | None => None end /\ told_ok s s' o /\ (s_pending s' = s_pending s \/ s_pending s' = None).
Proof.
  intros G Hin. unfold peer_free. destruct (drop_group_spec p) as (q & o & -> & E1 & E2 & E3 & _ & _ & Q). rewrite E1, E2, E3.
  destruct (is_pending_spec s p G Hin) as [[-> HP]|[Hf HP]]; [|rewrite Hf]; do 2 eexists; (split; [reflexivity|]).
  - assert (PN : pend (with_peers (filter (fun q => negb (p_id q =? p_id p)) (s_peers (with_pending None s))) (with_pending None s)) = None) by reflexivity.
    split; [apply (good_without (with_pending None s)); [now apply good_nopend|discriminate]|]. repeat (split; [reflexivity|]). split; [rewrite HP, Cli_Proofs.str_eq_refl; reflexivity|].
    split; [|right; reflexivity]. unfold formation_failure. pose proof (pend_some _ _ G HP) as (p' & Hin' & Em & _ & _ & R & Pu). rewrite (public_run _ _ G Hin), R. cbn [app].
    apply told_fail; [exact HP|exact PN|]. apply Forall_app. split; [exact Q|repeat constructor].
  - assert (Hne : s_pending s <> Some (p_id p)).
    { intros E. unfold is_pending in Hf. rewrite E, N.eqb_refl in Hf. discriminate. }
    assert (PP : pend (with_peers (filter (fun q => negb (p_id q =? p_id p)) (s_peers s)) s) = pend s).
    { unfold pend. cbn [with_peers s_pending]. destruct (s_pending s) as [id|] eqn:E; [|reflexivity]. change (at_id (with_peers _ s) id) with (at_id (without (p_id p) s) id). rewrite at_id_without; [reflexivity|congruence]. }
    split; [apply (good_without s); assumption|]. repeat (split; [reflexivity|]). split.
    { rewrite PP. destruct (pend s) as [m|]; [|reflexivity]. destruct (str_eq m (p_mac p)) eqn:E; [apply Cli_Proofs.str_eq_spec in E; congruence|reflexivity]. }
    split; [|left; reflexivity]. apply told_quiet; [|left; exact PP]. cbn [app]. apply Forall_app. split; [exact Q|]. destruct (p_public p); repeat constructor.
Qed.
Lemma free_all_spec fuel : forall s, good s -> (List.length (s_peers s) < fuel)%nat -> exists s' o, free_all fuel s = Ret (s', o) /\ good s' /\ s_run s' = s_run s /\ s_p2p s' = s_p2p s /\ s_peers s' = []
  /\ pend s' = None /\ told_ok s s' o.
Proof.
  induction fuel as [|fuel IH]; intros s G HL; [lia|]. cbn [free_all]. destruct (s_peers s) as [|p ps] eqn:E.
  - assert (PN : pend s = None). { unfold pend. destruct (s_pending s) as [id|] eqn:E2; [|reflexivity]. apply (g_pend _ G) in E2. rewrite E in E2. destruct E2. }
    exists s, []. split; [reflexivity|]. repeat (split; [assumption||reflexivity|]). apply told_quiet; [constructor|auto].
  - assert (Hin : In p (s_peers s)) by (rewrite E; left; reflexivity). destruct (peer_free_spec s p G Hin) as (s1 & o1 & -> & G1 & R1 & P1 & L1 & N1 & T1 & _).
    assert (HL1 : (List.length (s_peers s1) < fuel)%nat).
    { rewrite L1. unfold without. cbn [with_peers s_peers]. rewrite E. cbn [filter]. rewrite N.eqb_refl. cbn [negb].
      assert (HF : forall g (l : list peer), (List.length (filter g l) <= List.length l)%nat). { intros g l. induction l as [|a l IHl]; cbn [filter List.length]; [lia|]. destruct (g a); cbn [List.length]; lia. }
      specialize (HF (fun q => negb (p_id q =? p_id p)) ps). cbn [List.length] in HL. lia. }
    destruct (IH s1 G1 HL1) as (s2 & o2 & -> & G2 & R2 & P2 & L2 & N2 & T2). cbn [obind fst snd]. exists s2, (o1 ++ o2). split; [reflexivity|].
    split; [exact G2|]. split; [congruence|]. split; [congruence|]. split; [exact L2|]. split; [exact N2|].
    eapply told_app; [exact T1|exact T2| |left; exact N2]. rewrite N1. destruct (pend s) as [m|]; [|auto]. destruct (str_eq _ _); auto.
Qed.
Lemma publish_all_spec ps : publish_all ps = (map set_public ps, map (fun p => Added (p_mac p)) (filter (fun p => negb (p_public p)) ps)).
Proof.
  induction ps as [|p ps IH]; cbn [publish_all map filter]; [reflexivity|]. rewrite IH. unfold publish. destruct (p_public p) eqn:E; cbn [negb app map]; [|reflexivity].
  f_equal. f_equal. destruct p; cbn in *; subst; reflexivity.
Qed.
Lemma good_publish s p2p : good s -> good (mkSt true p2p (s_pending s) (map set_public (s_peers s)) (s_next s)).
Proof.
  intros [G1 G2 G3 G4 G5 G6 G7 G8]. constructor; cbn [s_peers s_next s_pending s_run]; rewrite ?map_map; cbn [set_public p_id p_mac]; auto.
  all: try (rewrite Forall_map; cbn [set_public p_id p_mac p_public p_prov p_pin]; auto). rewrite Forall_forall. auto.
Qed.
Lemma find_map_public f ps : (forall p, f (set_public p) = f p) -> find f (map set_public ps) = match find f ps with Some p => Some (set_public p) | None => None end.
Proof. intros H. induction ps as [|p ps IH]; cbn [map find]; [reflexivity|]. rewrite H. destruct (f p); auto. Qed.

(** The steps. *)
Lemma str_eq_dec a b : str_eq a b = if list_eq_dec N.eq_dec a b then true else false.
Proof. destruct (list_eq_dec N.eq_dec a b) as [-> | H]; [apply Cli_Proofs.str_eq_refl|now apply Cli_Proofs.str_eq_false]. Qed.
Lemma mine_eq mac a : mine mac (Some a) = str_eq a mac.
Proof. unfold mine. now rewrite str_eq_dec. Qed.
Lemma look_none s a mac : named s a = None -> str_eq a mac = true -> look s mac = None.
Proof. intros H E. apply Cli_Proofs.str_eq_spec in E. subst. unfold look. now rewrite H. Qed.
Lemma look_some s p mac : good s -> In p (s_peers s) -> str_eq (p_mac p) mac = true -> look s mac = Some (ask_of p).
Proof. intros G H E. apply Cli_Proofs.str_eq_spec in E. subst. unfold look. now rewrite named_in. Qed.
(** Events that change neither the view nor what is pending. *)
Lemma eff_put s p q o e : good s -> In p (s_peers s) -> alike p q -> quiet o ->
  s_run s = v_run (sees [] (mkView (s_run s) None) e) -> (match e with Ready _ => False | _ => True end) ->
  (proper e -> forall mac, (if str_eq (p_mac p) mac then Some (ask_of q) else look s mac) = v_ask (sees mac (mkView (s_run s) (look s mac)) e)) ->
  pend s = after (pend s) e (s_run s && s_p2p s) (sent o) -> eff s (put q s) o e.
Proof.
  intros G Hin HA Q HR HNR HL HP. constructor; auto.
  - now apply good_put with (p := p).
  - destruct e; try reflexivity. contradiction.
  - intros Hpr mac. rewrite (look_put _ _ _ _ G Hin HA). auto.
  - now rewrite (pend_put _ _ _ G Hin HA).
  - apply told_quiet; [exact Q|left; now apply pend_put with (p := p)].
Qed.
Lemma eff_same s o e : good s -> quiet o ->
  s_run s = v_run (sees [] (mkView (s_run s) None) e) -> (match e with Ready b => s_run s = true | _ => True end) ->
  (proper e -> forall mac, look s mac = v_ask (sees mac (mkView (s_run s) (look s mac)) e)) ->
  pend s = after (pend s) e (s_run s && s_p2p s) (sent o) -> eff s s o e.
Proof.
  intros G Q HR HNR HL HP. constructor; auto.
  - destruct e; try reflexivity. now rewrite HNR.
  - apply told_quiet; auto.
Qed.
Lemma eff_parse s a e o' : good s -> quiet o' -> (forall mac v, sees mac v e = arrives mac a v) -> (proper e -> address_if a) -> (forall pd b c, after pd e b c = pd) -> (match e with Ready _ => False | _ => True end) ->
  exists s' o, parse_peer s a = Ok (s', o) /\ eff s s' (o ++ o') e.
Proof.
  intros G Q' HS HA HP HN. destruct (parse_spec s a G) as (s' & o & E & [(-> & -> & H)|(t & key & -> & Er & Ha & En & -> & ->)]); do 2 eexists; (split; [exact E|]).
  - cbn [app]. apply eff_same; auto.
    + rewrite HS. unfold arrives. now destruct (mine _ _).
    + destruct e; auto.
    + intros Hp mac. rewrite HS. specialize (HA Hp). destruct a as [t|]; [|reflexivity]. destruct H as (key & Er & Hk & Hn). cbn [address_if] in HA. specialize (Hk HA). subst key.
      unfold arrives. rewrite mine_eq. destruct (str_eq t mac) eqn:Et; [|reflexivity]. apply Cli_Proofs.str_eq_spec in Et. subst. unfold look. cbn [v_ask]. destruct (named s mac); congruence.
  - assert (QQ : quiet ((if s_run s then [Added key] else []) ++ o')) by (apply Forall_app; split; [destruct (s_run s); repeat constructor|exact Q']).
    assert (PP : pend (with_new s key) = pend s).
    { unfold pend. cbn [with_new s_pending]. destruct (s_pending s) as [id|] eqn:Ep; [|reflexivity]. destruct (pend_id _ _ G Ep) as (p & Hat & Hin & Ei & _).
      rewrite at_id_new; [reflexivity|exact G|]. pose proof (g_lt _ G) as HL. rewrite Forall_forall in HL. specialize (HL p Hin). cbn beta in HL. lia. }
    constructor.
    + apply good_new; auto.
    + rewrite HS. unfold arrives. now destruct (mine _ _).
    + destruct e; try reflexivity. contradiction.
    + intros Hp mac. rewrite HS. specialize (HA Hp). cbn [address_if] in HA. rewrite (address_fix _ HA) in Er. injection Er as <-. unfold look at 1. rewrite (named_new _ _ _ En).
      unfold arrives. rewrite mine_eq. destruct (str_eq t mac) eqn:Et; [|reflexivity]. rewrite (look_none _ _ _ En Et). reflexivity.
    + rewrite HP. exact PP.
    + apply told_quiet; auto.
Qed.
Ltac easy_eff := first [reflexivity | exact I | (intros; reflexivity) | solve [constructor] | (cbn [proper]; tauto)].
Lemma eff_provision s a prov pin e : good s -> (forall mac v, sees mac v e = asks mac a (Some (prov, pin)) v) -> (forall pd b c, after pd e b c = pd) -> (match e with Ready _ => False | _ => True end) ->
  eff s (fst (provision s a prov pin)) (snd (provision s a prov pin)) e.
Proof.
  intros G HS HP HN. destruct a as [t|]; cbn [provision].
  2:{ cbn [fst snd]. apply eff_same; auto; [constructor|now rewrite HS|destruct e; auto; contradiction|intros _ mac; now rewrite HS]. }
  destruct (named s t) as [p|] eqn:En; cbn [fst snd].
  - apply named_some in En. destruct En as [Hin <-]. apply eff_put with (p := p); auto.
    + repeat split. discriminate.
    + destruct (p_public p); repeat constructor.
    + rewrite HS. unfold asks. now destruct (mine _ _).
    + intros _ mac. rewrite HS. unfold asks. rewrite mine_eq. destruct (str_eq (p_mac p) mac) eqn:E; [|reflexivity]. rewrite (look_some _ _ _ G Hin E). reflexivity.
  - apply eff_same; auto; [constructor|rewrite HS; unfold asks; now destruct (mine _ _)|destruct e; auto; contradiction|].
    intros _ mac. rewrite HS. unfold asks. rewrite mine_eq. destruct (str_eq t mac) eqn:E; [|reflexivity]. rewrite (look_none _ _ _ En E). reflexivity.
Qed.
Lemma step_eff s e : good s -> exists s' o, step s e = Ret (s', o) /\ eff s s' o e.
Proof.
  intros G. destruct e as [d a|a|d|d|d t|d|a i|d t| | |d a g|d|go|mac|mac|b| |mac prov pin err|mac|err| ]; cbn [step].
  - destruct d as [d|]; [|do 2 eexists; split; [reflexivity|]; apply eff_same; auto; easy_eff].
    destruct (eff_parse s a (Found (Some d) a) [Send [text "P2P_PEER"; d]] G) as (s' & o & -> & E); [repeat constructor|reflexivity|cbn [proper]; tauto|reflexivity|exact I|].
    cbn [lift obind fst snd]. eauto.
  - destruct (eff_parse s a (Reply a) [] G) as (s' & o & -> & E); [constructor|reflexivity|cbn [proper]; tauto|reflexivity|exact I|]. rewrite app_nil_r in E. cbn [lift]. eauto.
  - destruct d as [d|]; cbn [on]; [|do 2 eexists; split; [reflexivity|]; apply eff_same; auto; easy_eff].
    destruct (named s d) as [p|] eqn:En.
    + pose proof En as En'. apply named_some in En. destruct En as [Hin <-]. destruct (peer_free_spec s p G Hin) as (s' & o & -> & G' & R & P & L & NP & T & _). do 2 eexists. split; [reflexivity|].
      constructor; auto.
      * rewrite R. cbn [sees]. now destruct (mine _ _).
      * intros _ mac. cbn [sees]. rewrite mine_eq. unfold look at 1. replace (named s' mac) with (named (without (p_id p) s) mac) by (unfold named; now rewrite L). rewrite (named_without _ _ _ G Hin). destruct (str_eq (p_mac p) mac); reflexivity.
    + do 2 eexists. split; [reflexivity|]. apply eff_same; auto; [constructor|cbn [sees]; now destruct (mine _ _)| |].
      * intros _ mac. cbn [sees]. rewrite mine_eq. destruct (str_eq d mac) eqn:E; [|reflexivity]. rewrite (look_none _ _ _ En E). reflexivity.
      * cbn [after]. destruct (pend s) as [m|] eqn:E; [|reflexivity]. destruct (str_eq m d) eqn:E2; [|reflexivity]. apply Cli_Proofs.str_eq_spec in E2. subst. destruct (pend_some _ _ G E) as (p & _ & _ & _ & H & _). congruence.
  - pose proof (eff_provision s d (text "pbc") None (PbcReq d) G) as H. destruct (provision s d _ None) as [s' o]. do 2 eexists. split; [reflexivity|]. apply H; easy_eff.
  - destruct t as [t|]; [|do 2 eexists; split; [reflexivity|]; apply eff_same; auto; easy_eff].
    pose proof (eff_provision s d (text "display") (Some t) (ShowPin d (Some t)) G) as H. destruct (provision s d _ _) as [s' o]. do 2 eexists. split; [reflexivity|]. apply H; easy_eff.
  - pose proof (eff_provision s d (text "pin") None (EnterPin d) G) as H. destruct (provision s d _ None) as [s' o]. do 2 eexists. split; [reflexivity|]. apply H; easy_eff.
  - destruct a as [a|]; cbn [on]; [|do 2 eexists; split; [reflexivity|]; apply eff_same; auto; easy_eff].
    destruct (named s a) as [p|] eqn:En; do 2 eexists; (split; [reflexivity|]).
    + apply named_some in En. destruct En as [Hin <-]. apply eff_put with (p := p); auto; [| |cbn [sees]; now destruct (mine _ _)|].
      * destruct (p_prov p) eqn:E; [eapply alike_refl; eauto|]. repeat split; discriminate.
      * destruct (p_in _); [constructor|]. destruct (p_public _); repeat constructor.
      * intros _ mac. cbn [sees]. rewrite mine_eq. destruct (str_eq (p_mac p) mac) eqn:E; [|reflexivity]. rewrite (look_some _ _ _ G Hin E). cbn [v_ask]. unfold ask_of. destruct (p_prov p) eqn:E2; [rewrite E2|]; reflexivity.
    + apply eff_same; auto; [constructor|cbn [sees]; now destruct (mine _ _)|]. intros _ mac. cbn [sees]. rewrite mine_eq. destruct (str_eq a mac) eqn:E; [|reflexivity]. cbn [v_ask v_run]. rewrite (look_none _ _ _ En E). reflexivity.
  - destruct d as [d|]; cbn [on]; [|do 2 eexists; split; [reflexivity|]; apply eff_same; auto; easy_eff].
    destruct (named s d) as [p|] eqn:En; [|do 2 eexists; split; [reflexivity|]; apply eff_same; auto; easy_eff]. apply named_some in En. destruct En as [Hin <-].
    destruct (p_in p); [do 2 eexists; split; [reflexivity|]; apply eff_same; auto; easy_eff|]. destruct t as [t|]; [|do 2 eexists; split; [reflexivity|]; apply eff_same; auto; easy_eff].
    do 2 eexists. split; [reflexivity|]. apply eff_put with (p := p); auto; try easy_eff; [eapply same_alike; eauto|]. intros _ mac. cbn [sees v_ask]. destruct (str_eq (p_mac p) mac) eqn:E; [|reflexivity]. now rewrite (look_some _ _ _ G Hin E).
  - unfold failure. destruct (s_pending s) as [id|] eqn:E.
    + destruct (pend_id _ _ G E) as (p & -> & Hin & Ei & Ep). do 2 eexists. split; [reflexivity|]. destruct (pend_some _ _ G Ep) as (p' & _ & _ & _ & _ & R & _).
      constructor; try reflexivity; [now apply good_nopend|]. unfold formation_failure. rewrite (public_run _ _ G Hin), R. apply told_fail; [exact Ep|reflexivity|constructor].
    + do 2 eexists. split; [reflexivity|]. apply eff_same; auto; try easy_eff. cbn [after]. unfold pend. now rewrite E.
  - unfold failure. destruct (s_pending s) as [id|] eqn:E.
    + destruct (pend_id _ _ G E) as (p & -> & Hin & Ei & Ep). do 2 eexists. split; [reflexivity|]. destruct (pend_some _ _ G Ep) as (p' & _ & _ & _ & _ & R & _).
      constructor; try reflexivity; [now apply good_nopend|]. unfold formation_failure. rewrite (public_run _ _ G Hin), R. apply told_fail; [exact Ep|reflexivity|constructor].
    + do 2 eexists. split; [reflexivity|]. apply eff_same; auto; try easy_eff. cbn [after]. unfold pend. now rewrite E.
  - destruct a as [a|]; [|do 2 eexists; split; [reflexivity|]; apply eff_same; auto; easy_eff]. destruct d as [d|]; cbn [on]; [|do 2 eexists; split; [reflexivity|]; apply eff_same; auto; easy_eff].
    destruct (named s d) as [p|] eqn:En; [|do 2 eexists; split; [reflexivity|]; apply eff_same; auto; easy_eff]. apply named_some in En. destruct En as [Hin <-].
    destruct (p_in p); [do 2 eexists; split; [reflexivity|]; apply eff_same; auto; easy_eff|]. do 2 eexists. split; [reflexivity|].
    apply eff_put with (p := p); auto; try easy_eff; [eapply same_alike; eauto; destruct g; reflexivity|]. intros _ mac. cbn [sees v_ask]. destruct (str_eq (p_mac p) mac) eqn:E; [|reflexivity]. rewrite (look_some _ _ _ G Hin E). f_equal. apply ask_same; destruct g; reflexivity.
  - destruct d as [d|]; cbn [on]; [|do 2 eexists; split; [reflexivity|]; apply eff_same; auto; easy_eff].
    destruct (named s d) as [p|] eqn:En.
    2:{ do 2 eexists. split; [reflexivity|]. apply eff_same; auto; try easy_eff. cbn [after]. destruct (pend s) as [m|] eqn:E; [|reflexivity]. destruct (str_eq m d) eqn:E2; [|reflexivity]. apply Cli_Proofs.str_eq_spec in E2. subst. destruct (pend_some _ _ G E) as (p & _ & _ & _ & H & _). congruence. }
    apply named_some in En. destruct En as [Hin <-].
    assert (FIN : forall s1 q o, (s1 = s \/ s1 = with_pending None s) -> (s1 = s -> pend s <> Some (p_mac p)) -> (s1 = with_pending None s -> pend s = Some (p_mac p) \/ s1 = s) ->
      p_id q = p_id p -> p_mac q = p_mac p -> p_public q = p_public p -> p_prov q = p_prov p -> p_pin q = p_pin p ->
      (quiet o \/ exists r o', o = Failed (p_mac p) r :: o' /\ quiet o' /\ pend s = Some (p_mac p) /\ s1 = with_pending None s) -> eff s (put q s1) o (StaDisconnected (Some (p_mac p)))).
    { intros s1 q o HS HS1 HS2 E1 E2 E3 E4 E5 HO. assert (G1 : good s1) by (destruct HS as [-> | ->]; [assumption|now apply good_nopend]).
      assert (Hin1 : In p (s_peers s1)) by (destruct HS as [-> | ->]; assumption). assert (HA : alike p q) by (eapply same_alike; [exact G|exact Hin|..]; assumption).
      assert (PP : pend (put q s1) = after (pend s) (StaDisconnected (Some (p_mac p))) (s_run s && s_p2p s) (sent o)).
      { rewrite (pend_put _ _ _ G1 Hin1 HA). cbn [after]. destruct HS as [-> | ->].
        - destruct (pend s) as [m|] eqn:E; [|reflexivity]. destruct (str_eq m (p_mac p)) eqn:E6; [|reflexivity]. apply Cli_Proofs.str_eq_spec in E6. subst. exfalso. apply HS1; reflexivity.
        - destruct (HS2 eq_refl) as [HP | HE]; [rewrite HP, Cli_Proofs.str_eq_refl; reflexivity|]. assert (HN : pend s = None) by (rewrite <- HE; reflexivity). rewrite HN. reflexivity. }
      constructor.
      - now apply good_put with (p := p).
      - destruct HS as [-> | ->]; reflexivity.
      - destruct HS as [-> | ->]; reflexivity.
      - intros _ mac. cbn [sees v_ask]. rewrite (look_put _ _ _ _ G1 Hin1 HA). replace (look s1 mac) with (look s mac) by (destruct HS as [-> | ->]; reflexivity).
        destruct (str_eq (p_mac p) mac) eqn:E; [|reflexivity]. rewrite (look_some _ _ _ G Hin E). f_equal. now apply ask_same.
      - exact PP.
      - destruct HO as [Q|(r & o' & -> & Q & HP & ->)].
        + apply told_quiet; [exact Q|]. rewrite PP. cbn [after]. destruct (pend s); [|auto]. destruct (str_eq _ _); auto.
        + apply told_fail; [exact HP|now rewrite (pend_put _ _ _ G1 Hin1 HA)|exact Q]. }
    destruct (is_pending_spec s p G Hin) as [[-> HP]|[-> HP]].
    + destruct (p_conn p) eqn:EC.
      * destruct (conn_changed_spec false p) as (q & o & -> & A1 & A2 & A3 & A4 & A5 & Q). destruct (drop_group_spec q) as (q2 & o2 & -> & B1 & B2 & B3 & B4 & B5 & Q2). do 2 eexists. split; [reflexivity|].
        apply FIN; try congruence; auto. { intros Es. exfalso. assert (pend s = None) by (rewrite <- Es; reflexivity). congruence. } left. apply Forall_app. auto.
      * destruct (drop_group_spec p) as (q2 & o2 & -> & B1 & B2 & B3 & B4 & B5 & Q2). do 2 eexists. split; [reflexivity|].
        apply FIN; try congruence; auto. { intros Es. exfalso. assert (pend s = None) by (rewrite <- Es; reflexivity). congruence. }
        right. unfold formation_failure. destruct (pend_some _ _ G HP) as (p' & _ & _ & _ & _ & R & _). rewrite (public_run _ _ G Hin), R. cbn [app]. eauto 10.
    + destruct (drop_group_spec p) as (q2 & o2 & -> & B1 & B2 & B3 & B4 & B5 & Q2). do 2 eexists. split; [reflexivity|]. apply FIN; auto.
  - cbn [on]. destruct (named s go) as [p|] eqn:En; [|do 2 eexists; split; [reflexivity|]; apply eff_same; auto; easy_eff]. apply named_some in En. destruct En as [Hin <-]. do 2 eexists. split; [reflexivity|].
    apply eff_put with (p := p); auto; try easy_eff; [eapply same_alike; eauto|]. intros _ mac. cbn [sees v_ask]. destruct (str_eq (p_mac p) mac) eqn:E; [|reflexivity]. now rewrite (look_some _ _ _ G Hin E).
  - cbn [on]. destruct (named s mac) as [p|] eqn:En; [|do 2 eexists; split; [reflexivity|]; apply eff_same; auto; easy_eff]. apply named_some in En. destruct En as [Hin <-].
    destruct (drop_group_spec p) as (q & o & -> & A1 & A2 & A3 & A4 & A5 & Q). do 2 eexists. split; [reflexivity|].
    apply eff_put with (p := p); auto; try easy_eff; [eapply same_alike; eauto|]. intros _ m. cbn [sees v_ask]. destruct (str_eq (p_mac p) m) eqn:E; [|reflexivity]. rewrite (look_some _ _ _ G Hin E). f_equal. now apply ask_same.
  - cbn [on]. destruct (named s mac) as [p|] eqn:En; [|do 2 eexists; split; [reflexivity|]; apply eff_same; auto; easy_eff]. apply named_some in En. destruct En as [Hin <-].
    destruct (p_in p); [|do 2 eexists; split; [reflexivity|]; apply eff_same; auto; easy_eff]. destruct (conn_changed_spec true p) as (q & o & -> & A1 & A2 & A3 & A4 & A5 & Q). do 2 eexists. split; [reflexivity|].
    apply eff_put with (p := p); auto; try easy_eff; [eapply same_alike; eauto|]. intros _ m. cbn [sees v_ask]. destruct (str_eq (p_mac p) m) eqn:E; [|reflexivity]. rewrite (look_some _ _ _ G Hin E). f_equal. now apply ask_same.
  - destruct (s_run s) eqn:R; [do 2 eexists; split; [reflexivity|]; apply eff_same; auto; try easy_eff; rewrite R; reflexivity|].
    rewrite publish_all_spec. do 2 eexists. split; [reflexivity|]. constructor.
    + now apply good_publish.
    + reflexivity.
    + cbn [s_p2p]. now rewrite R.
    + intros _ mac. cbn [sees v_ask]. unfold look, named. cbn [s_peers]. rewrite find_map_public by reflexivity. destruct (find _ _); reflexivity.
    + cbn [after]. unfold pend, at_id. cbn [s_pending s_peers]. destruct (s_pending s); [|reflexivity]. rewrite find_map_public by reflexivity. destruct (find _ _); reflexivity.
    + apply told_quiet.
      * unfold quiet. rewrite Forall_map. apply Forall_forall. auto.
      * left. unfold pend, at_id. cbn [s_pending s_peers]. destruct (s_pending s); [|reflexivity]. rewrite find_map_public by reflexivity. destruct (find _ _); reflexivity.
  - destruct (free_all_spec (S (List.length (s_peers s))) s G) as (s' & o & -> & G' & R & P & L & NP & T); [lia|]. cbn [obind fst snd]. do 2 eexists. split; [reflexivity|].
    assert (SP : s_pending s' = None). { destruct (s_pending s') as [id|] eqn:E; [|reflexivity]. apply (g_pend _ G') in E. rewrite L in E. destruct E. }
    assert (PN : pend (mkSt false (s_p2p s') (s_pending s') (s_peers s') (s_next s')) = None) by (unfold pend; cbn [s_pending]; now rewrite SP).
    constructor; auto.
    + rewrite L, SP. constructor; cbn; try constructor; try discriminate. congruence.
    + intros _ mac. cbn [sees v_ask]. unfold look, named. cbn [s_peers]. now rewrite L.
  - unfold object. destruct (named s mac) as [p|] eqn:En; [|do 2 eexists; split; [reflexivity|]; apply eff_same; auto; try easy_eff; repeat constructor].
    destruct (p_public p) eqn:Pu; [|do 2 eexists; split; [reflexivity|]; apply eff_same; auto; try easy_eff; repeat constructor].
    apply named_some in En. destruct En as [Hin <-]. unfold connect.
    assert (NO : forall err, exists s' o, Ret (s, [Returns err]) = Ret (s', o) /\ eff s s' o (Connect (p_mac p) prov pin err)).
    { intros er. do 2 eexists. split; [reflexivity|]. apply eff_same; auto; try easy_eff; repeat constructor. }
    assert (NO' : forall er, exists s' o, Ret (s, [Returns er]) = Ret (s', o) /\ eff s s' o (Connect (p_mac p) prov pin err)).
    { intros er. do 2 eexists. split; [reflexivity|]. apply eff_same; auto; try easy_eff; repeat constructor. }
    destruct (negb (s_run s)) eqn:R; [apply NO'|]. destruct (p_in p) eqn:PI; [apply NO'|]. destruct (match s_pending s with Some id => negb (id =? p_id p) | None => false end) eqn:EP; [apply NO'|].
    apply negb_false_iff in R.
    assert (GO : forall w, exists s' o, Ret (if err =? 0 then (with_pending (Some (p_id p)) s, [Send (text "P2P_CONNECT" :: p_mac p :: w); Returns 0]) else (s, [Returns err])) = Ret (s', o) /\ eff s s' o (Connect (p_mac p) prov pin err)).
    { intros w. destruct (err =? 0); [|apply NO']. do 2 eexists. split; [reflexivity|]. constructor; try reflexivity.
      - now apply good_pend.
      - cbn [after]. now rewrite (pend_with _ _ G Hin).
      - split; [intros m r [E|[E|[]]]; discriminate|]. intros m. rewrite (pend_with _ _ G Hin), !count_cons. cbn [is_failure is_request is_pend count filter lenN List.length].
        destruct (list_eq_dec N.eq_dec (text "P2P_CONNECT") (text "P2P_CONNECT")) as [_|H]; [|congruence]. rewrite !count_nil. destruct (list_eq_dec N.eq_dec (p_mac p) m); cbn [andb]; lia. }
    destruct (str_eq _ (text "pbc")); [apply GO|]. destruct (_ || _); [|apply NO']. match goal with |- context [match ?x with Some t => if is_empty t then _ else _ | None => _ end] => destruct x as [t|] end; [|apply NO'].
    destruct (is_empty t); [apply NO'|apply GO].
  - unfold object. destruct (named s mac) as [p|] eqn:En.
    2:{ do 2 eexists. split; [reflexivity|]. apply eff_same; auto; try easy_eff; [repeat constructor|cbn [sees]; unfold asks; destruct (s_run s); cbn [v_run]; try reflexivity; now destruct (mine _ _)|].
        intros _ m. cbn [sees v_run]. destruct (s_run s); [|reflexivity]. unfold asks. rewrite mine_eq. destruct (str_eq mac m) eqn:E; [|reflexivity]. rewrite (look_none _ _ _ En E). reflexivity. }
    apply named_some in En. destruct En as [Hin <-]. pose proof (public_run _ _ G Hin) as PR. destruct (p_public p) eqn:Pu.
    + destruct (drop_group_spec (set_ask None None p)) as (q & o & -> & A1 & A2 & A3 & A4 & A5 & Q). cbn [set_ask p_id p_mac p_public p_prov p_pin] in *. do 2 eexists. split; [reflexivity|].
      apply eff_put with (p := p); auto; try easy_eff.
      * repeat split; auto.
      * apply Forall_app. split; [exact Q|repeat constructor].
      * cbn [sees v_run]. rewrite <- PR. unfold asks. now destruct (mine _ _).
      * intros _ m. cbn [sees v_run]. rewrite <- PR. unfold asks. rewrite mine_eq. destruct (str_eq (p_mac p) m) eqn:E; [|reflexivity]. rewrite (look_some _ _ _ G Hin E). cbn [v_ask]. unfold ask_of. now rewrite A4.
    + do 2 eexists. split; [reflexivity|]. apply eff_same; auto; try easy_eff; [repeat constructor|cbn [sees v_run]; now rewrite <- PR|]. intros _ m. cbn [sees v_run]. now rewrite <- PR.
  - destruct (negb _) eqn:E; do 2 eexists; (split; [reflexivity|]).
    + apply negb_true_iff in E. apply eff_same; auto; try easy_eff; [repeat constructor|]. cbn [after]. now rewrite E.
    + apply negb_false_iff in E. constructor; try reflexivity; [now apply good_nopend|cbn [after]; rewrite E; reflexivity|]. apply told_quiet; [destruct (err =? 0); repeat constructor|right; reflexivity].
  - destruct (negb _); do 2 eexists; (split; [reflexivity|]); apply eff_same; auto; try easy_eff; repeat constructor.
Qed.
