(** Connecting to peers: signals, and scans. *)
From Coq Require Import String.
From Verif Require Import Base Text Comm_Model Comm_Spec Comm_Proofs Prov_Model Prov_Spec Prov_Proofs Prov_Run Prov_Sound.
From Verif Require Cli_Proofs.
Local Open Scope list_scope.

Lemma same_refl a : same a a = true.
Proof. unfold same. destruct (list_eq_dec N.eq_dec a a); congruence. Qed.
Lemma same_no a b : a <> b -> same a b = false.
Proof. unfold same. destruct (list_eq_dec N.eq_dec a b); congruence. Qed.
Lemma follow_app mac a b : forall w, follow mac w (a ++ b) = match follow mac w a with Some w => follow mac w b | None => None end.
Proof. induction a as [|x a IH]; intros w; cbn [app follow]; [reflexivity|]. destruct (hears mac w x); [apply IH|reflexivity]. Qed.
(** What is said of one device. *)
Definition about (m : list byte) (o : out) : Prop := forall mac w, mac <> m -> hears mac w o = Some w.
Lemma about_follow m l mac w : Forall (about m) l -> mac <> m -> follow mac w l = Some w.
Proof. induction 1 as [|o l H F IH]; intros E; cbn [follow]; [reflexivity|]. rewrite (H mac w E). auto. Qed.
Lemma about_one m : (about m (Added m) /\ about m (Removed m)) /\ (forall b, about m (Connected m b)) /\ (forall r, about m (Failed m r)) /\ (forall a b, about m (Asked m a b)) /\ (forall a b, about m (Wanted m a b)).
Proof. unfold about. repeat split; intros; cbn [hears]; rewrite same_no by congruence; reflexivity. Qed.
Definition silent (l : list out) : Prop := forall mac w, follow mac w l = Some w.
Lemma silent_send w n : silent [Send w] /\ silent [Returns n] /\ silent [Send w; Returns n] /\ silent [NoObject] /\ silent [].
Proof. repeat split. Qed.
Definition chat (p : peer) (o : list out) (q : peer) : Prop :=
  (p_public p = false -> o = []) /\ Forall (about (p_mac p)) o /\
  forall k, k = None \/ k = Some (p_conn p) -> p_public p = true -> exists k', follow (p_mac p) (Some k) o = Some (Some k') /\ (k' = None \/ k' = Some (p_conn q)).
Lemma chat_nil p q : p_conn q = p_conn p -> chat p [] q.
Proof. intros E. split; [auto|]. split; [constructor|]. intros k Hk _. exists k. split; [reflexivity|]. now rewrite E. Qed.
Lemma chat_trans p q r a b : p_mac q = p_mac p -> p_public q = p_public p -> chat p a q -> chat q b r -> chat p (a ++ b) r.
Proof.
  intros E1 E2 (A1 & A2 & A3) (B1 & B2 & B3). split; [intros H; rewrite A1, B1 by congruence; reflexivity|]. split; [apply Forall_app; split; [exact A2|now rewrite <- E1]|].
  intros k Hk HP. destruct (A3 k Hk HP) as (k1 & F1 & K1). destruct (B3 k1 K1 ltac:(congruence)) as (k2 & F2 & K2). exists k2. split; [|exact K2]. rewrite follow_app, F1, <- E1. exact F2.
Qed.
Lemma chat_same p q q' o : p_conn q' = p_conn q -> chat p o q -> chat p o q'.
Proof. intros E (A1 & A2 & A3). split; [exact A1|]. split; [exact A2|]. intros k Hk HP. rewrite E. auto. Qed.
Lemma chat_one p o : about (p_mac p) o -> (forall k, hears (p_mac p) (Some k) o = Some (Some k)) -> chat p (if p_public p then [o] else []) p.
Proof.
  intros HA HH. destruct (p_public p) eqn:E; [|now apply chat_nil]. split; [congruence|]. split; [repeat constructor; exact HA|]. intros k Hk _. exists k. split; [|exact Hk]. cbn [follow]. now rewrite HH.
Qed.
Lemma chat_conn b p : chat p (snd (conn_changed b p)) (fst (conn_changed b p)) /\ p_conn (fst (conn_changed b p)) = b.
Proof.
  unfold conn_changed. destruct (Bool.eqb (p_conn p) b) eqn:E; cbn [fst snd]; [split; [now apply chat_nil|now apply Bool.eqb_prop]|]. split; [|reflexivity].
  destruct (p_public p) eqn:P; (split; [intros; congruence||reflexivity|]); (split; [repeat constructor; apply about_one|]); [|congruence]. intros k Hk _. exists (Some b). split; [|now right]. cbn [follow hears]. rewrite same_refl.
  destruct Hk as [-> | ->]; [reflexivity|]. destruct b, (p_conn p); try discriminate; reflexivity.
Qed.
Definition cin (p : peer) : Prop := p_conn p = true -> p_in p = true.
Lemma chat_drop p : cin p -> chat p (snd (drop_group p)) (fst (drop_group p)) /\ cin (fst (drop_group p)) /\ p_conn (fst (drop_group p)) = false.
Proof.
  intros C. unfold drop_group. destruct (p_in p) eqn:E.
  - destruct (chat_conn false (set_out p)) as [H1 H2]. split; [|split; [unfold cin; rewrite H2; discriminate|exact H2]]. destruct H1 as (A1 & A2 & A3). split; [exact A1|]. split; [exact A2|exact A3].
  - cbn [fst snd]. split; [now apply chat_nil|]. split; [exact C|]. destruct (p_conn p) eqn:X; [unfold cin in C; rewrite C in E by exact X; discriminate|reflexivity].
Qed.
Lemma chat_fail p r : chat p (formation_failure p r) p.
Proof. apply (chat_one p (Failed (p_mac p) r)); [apply about_one|]. intros k. cbn [hears]. now rewrite same_refl. Qed.

(** Steps that change one device. *)
Definition cins (s : st) : Prop := Forall cin (s_peers s).
Definition step_ok (s s' : st) (o : list out) : Prop := cins s' /\ forall mac w, knows w (on_bus s mac) -> exists w', follow mac w o = Some w' /\ knows w' (on_bus s' mac).
Lemma bus_of s p : good s -> In p (s_peers s) -> on_bus s (p_mac p) = if p_public p then Some (p_conn p) else None.
Proof. intros G Hin. unfold on_bus, object. rewrite (named_in s p G Hin). destruct (p_public p); reflexivity. Qed.
Lemma bus_put s p q mac : good s -> In p (s_peers s) -> alike p q -> on_bus (put q s) mac = if same (p_mac p) mac then if p_public p then Some (p_conn q) else None else on_bus s mac.
Proof.
  intros G Hin A. unfold on_bus, object. rewrite (named_put s p q mac G Hin A). rewrite str_eq_dec. fold (same (p_mac p) mac). destruct (same (p_mac p) mac); [|reflexivity]. destruct A as (_ & _ & -> & _). destruct (p_public p); reflexivity.
Qed.
Lemma ok_silent s o : cins s -> silent o -> step_ok s s o.
Proof. intros C Q. split; [exact C|]. intros mac w K. exists w. split; [apply Q|exact K]. Qed.
Lemma ok_pending s s' x o : step_ok s s' o -> step_ok s (with_pending x s') o.
Proof. intros H. exact H. Qed.
Lemma ok_put s p q o : good s -> cins s -> In p (s_peers s) -> alike p q -> cin q -> chat p o q -> step_ok s (put q s) o.
Proof.
  intros G C Hin A CQ (A1 & A2 & A3). split; [unfold cins, put, with_peers; cbn [s_peers]; apply forall_put; [exact CQ|exact C]|]. intros mac w K. rewrite (bus_put s p q mac G Hin A).
  destruct (list_eq_dec N.eq_dec mac (p_mac p)) as [-> | NE].
  - rewrite same_refl. rewrite (bus_of s p G Hin) in K. destruct (p_public p) eqn:P; [|rewrite A1 by reflexivity; exists w; split; [reflexivity|exact K]].
    destruct w as [k|]; [|destruct K]. cbn [knows] in K. destruct (A3 k K eq_refl) as (k' & F & K'). exists (Some k'). split; [exact F|exact K'].
  - rewrite same_no by congruence. exists w. split; [now apply (about_follow (p_mac p))|exact K].
Qed.
Lemma ok_app s s1 s2 a b : step_ok s s1 a -> step_ok s1 s2 b -> step_ok s s2 (a ++ b).
Proof. intros [_ H1] [C H2]. split; [exact C|]. intros mac w K. destruct (H1 mac w K) as (w1 & F1 & K1). destruct (H2 mac w1 K1) as (w2 & F2 & K2). exists w2. split; [now rewrite follow_app, F1|exact K2]. Qed.
Lemma cin_of s p : cins s -> In p (s_peers s) -> cin p.
Proof. unfold cins. rewrite Forall_forall. auto. Qed.
Lemma ok_gone s p : good s -> cins s -> In p (s_peers s) -> p_conn p = false -> step_ok s (without (p_id p) s) (if p_public p then [Removed (p_mac p)] else []).
Proof.
  intros G C Hin NC. split; [unfold cins, without, with_peers; cbn [s_peers]; now apply forall_filter|]. intros mac w K.
  assert (B : on_bus (without (p_id p) s) mac = if same (p_mac p) mac then None else on_bus s mac). { unfold on_bus, object. rewrite (named_without s p mac G Hin), str_eq_dec. fold (same (p_mac p) mac). destruct (same (p_mac p) mac); reflexivity. }
  rewrite B. destruct (list_eq_dec N.eq_dec mac (p_mac p)) as [-> | NE].
  - rewrite same_refl. rewrite (bus_of s p G Hin), NC in K. destruct (p_public p); [|exists w; split; [reflexivity|exact K]]. destruct w as [k|]; [|destruct K]. exists None. split; [|exact I]. cbn [follow hears]. rewrite same_refl. cbn [knows] in K. destruct K as [-> | ->]; reflexivity.
  - rewrite same_no by congruence. exists w. split; [|exact K]. apply (about_follow (p_mac p)); [|exact NE]. destruct (p_public p); repeat constructor. apply about_one.
Qed.
Lemma without_put s p q : p_id q = p_id p -> without (p_id p) (put q s) = without (p_id p) s.
Proof.
  intros E. unfold without, put, with_peers. cbn [s_peers s_run s_p2p s_pending s_next]. f_equal. induction (s_peers s) as [|x l IH]; cbn [map filter]; [reflexivity|].
  rewrite E in *. destruct (p_id x =? p_id p) eqn:X; [rewrite E, N.eqb_refl|rewrite X]; cbn [negb]; now rewrite IH.
Qed.
Lemma ok_free s p : good s -> cins s -> In p (s_peers s) -> step_ok s (fst (peer_free s p)) (snd (peer_free s p)).
Proof.
  intros G C Hin. pose proof (cin_of s p C Hin) as CP. unfold peer_free. destruct (chat_drop p CP) as (D1 & D2 & D3). destruct (drop_group_spec p) as (q & o & E & Ei & Em & Epu & Epr & Epi & _). rewrite E in *. cbn [fst snd] in D1, D2, D3.
  assert (A : alike p q) by (apply (same_alike s); auto).
  set (o1 := if is_pending s p then formation_failure p (text "lost") else []).
  assert (CH : chat p (o1 ++ o) q). { apply (chat_trans p p q); auto. unfold o1. destruct (is_pending s p); [apply chat_fail|now apply chat_nil]. }
  pose proof (ok_put s p q _ G C Hin A D2 CH) as H1. assert (Hq : In q (s_peers (put q s))). { unfold put, with_peers. cbn [s_peers]. apply in_map_iff. exists p. split; [now rewrite Ei, N.eqb_refl|exact Hin]. }
  pose proof (ok_gone (put q s) q (good_put s p q G Hin A) (proj1 H1) Hq D3) as H2. pose proof (ok_app _ _ _ _ _ H1 H2) as H. rewrite Ei, (without_put s p q Ei), <- app_assoc in H.
  unfold o1 in H. destruct (is_pending s p); cbn [fst snd]; rewrite Ei; exact H.
Qed.
Lemma ok_free_all fuel : forall s, good s -> cins s -> forall s' o, free_all fuel s = Ret (s', o) -> step_ok s s' o.
Proof.
  induction fuel as [|fuel IH]; intros s G C s' o; cbn [free_all]; (destruct (s_peers s) as [|p ps] eqn:E; [intros H; injection H as <- <-; apply ok_silent; [exact C|intros ? ?; reflexivity]|]); [discriminate|].
  assert (Hin : In p (s_peers s)) by (rewrite E; left; reflexivity). pose proof (ok_free s p G C Hin) as H1. destruct (peer_free_spec s p G Hin) as (s1 & o1 & E1 & G1 & _). rewrite E1 in *. cbn [fst snd] in H1.
  destruct (free_all fuel s1) as [[s2 o2]| |] eqn:E2; cbn [obind fst snd]; try discriminate. intros H. injection H as <- <-. eapply ok_app; [exact H1|]. apply IH; auto. apply H1.
Qed.
Lemma ok_new s key : good s -> cins s -> named s key = None -> step_ok s (with_new s key) (if s_run s then [Added key] else []).
Proof.
  intros G C HN. split; [unfold cins; cbn [with_new s_peers]; apply Forall_app; split; [exact C|repeat constructor; discriminate]|]. intros mac w K.
  assert (B : on_bus (with_new s key) mac = if same key mac then if s_run s then Some false else None else on_bus s mac). { unfold on_bus, object. rewrite (named_new s key mac HN), str_eq_dec. fold (same key mac). destruct (same key mac); [|reflexivity]. cbn [newcomer p_public p_conn]. destruct (s_run s); reflexivity. }
  rewrite B. destruct (list_eq_dec N.eq_dec mac key) as [-> | NE].
  - rewrite same_refl. assert (on_bus s key = None) as X by (unfold on_bus, object; now rewrite HN). rewrite X in K. destruct w; [destruct K|]. destruct (s_run s); [|exists None; split; [reflexivity|exact I]].
    exists (Some None). split; [cbn [follow hears]; now rewrite same_refl|now left].
  - rewrite same_no by congruence. exists w. split; [|exact K]. apply (about_follow key); [|exact NE]. destruct (s_run s); repeat constructor. apply about_one.
Qed.
Lemma ok_parse s a s' o : good s -> cins s -> parse_peer s a = Ok (s', o) -> step_ok s s' o.
Proof.
  intros G C E. destruct (parse_spec s a G) as (s1 & o1 & E1 & H). rewrite E in E1. injection E1 as <- <-. destruct H as [(-> & -> & _)|(a0 & key & _ & _ & _ & HN & -> & ->)]; [apply ok_silent; [exact C|intros ? ?; reflexivity]|now apply ok_new].
Qed.
(** wpa_supplicant is ready. *)
Lemma follow_added mac ps : forall w, NoDup (map p_mac ps) -> (In mac (map p_mac ps) -> w = None) -> follow mac w (map (fun p => Added (p_mac p)) ps) = Some (if existsb (fun p => same (p_mac p) mac) ps then Some None else w).
Proof.
  induction ps as [|p ps IH]; intros w ND HW; cbn [map follow existsb]; [reflexivity|]. inversion ND as [|? ? N1 N2]; subst. cbn [hears]. destruct (list_eq_dec N.eq_dec (p_mac p) mac) as [E|E].
  - rewrite E, same_refl. rewrite HW by (left; exact E). rewrite IH; [|exact N2|rewrite <- E; contradiction]. cbn [orb]. destruct (existsb _ ps); reflexivity.
  - rewrite (same_no _ _ E). cbn [orb]. apply IH; auto. intros H. apply HW. now right.
Qed.
Lemma named_exists s mac : existsb (fun p => same (p_mac p) mac) (s_peers s) = match named s mac with Some _ => true | None => false end.
Proof. unfold named. induction (s_peers s) as [|p l IH]; cbn [existsb find]; [reflexivity|]. rewrite str_eq_dec. fold (same (p_mac p) mac). destruct (same (p_mac p) mac); [reflexivity|exact IH]. Qed.
Lemma ok_ready s p2p : good s -> cins s -> s_run s = false -> step_ok s (mkSt true p2p (s_pending s) (map set_public (s_peers s)) (s_next s)) (map (fun p => Added (p_mac p)) (filter (fun p => negb (p_public p)) (s_peers s))).
Proof.
  intros G C R. split; [unfold cins; cbn [s_peers]; rewrite Forall_map; exact C|]. intros mac w K.
  assert (F : filter (fun p => negb (p_public p)) (s_peers s) = s_peers s). { pose proof (g_pub _ G) as GP. rewrite R in GP. induction GP as [|x l Hx H IH]; cbn [filter]; [reflexivity|]. rewrite Hx. cbn [negb]. now rewrite IH. }
  rewrite F. assert (X : on_bus s mac = None). { unfold on_bus, object. destruct (named s mac) as [p|] eqn:E; [|reflexivity]. apply named_some in E. rewrite (public_run s p G (proj1 E)), R. reflexivity. }
  rewrite X in K. destruct w; [destruct K|]. rewrite follow_added; [|apply (g_macs _ G)|reflexivity]. eexists. split; [reflexivity|]. rewrite named_exists.
  unfold on_bus, object, named. cbn [s_peers]. rewrite find_map_public by reflexivity. fold (named s mac). destruct (named s mac) as [p|]; [|exact I]. cbn [set_public p_public p_conn]. now left.
Qed.
Lemma on_ok s a f s' o : good s -> cins s -> on s a f = (s', o) -> (forall p mac, a = Some mac -> named s mac = Some p -> In p (s_peers s) -> p_mac p = mac -> cin p -> step_ok s (fst (f p)) (snd (f p))) -> step_ok s s' o.
Proof.
  intros G C E H. unfold on in E. destruct a as [a|]; [|injection E as <- <-; apply ok_silent; [exact C|intros ? ?; reflexivity]].
  destruct (named s a) as [p|] eqn:EN; [|injection E as <- <-; apply ok_silent; [exact C|intros ? ?; reflexivity]]. destruct (named_some _ _ _ EN) as [Hin Em]. specialize (H p a eq_refl EN Hin Em (cin_of s p C Hin)). rewrite E in H. exact H.
Qed.
Lemma ok_same s : cins s -> step_ok s s [].
Proof. intros C. apply ok_silent; [exact C|intros ? ?; reflexivity]. Qed.
Lemma ret_inj {A} (a b : A) : Ret a = Ret b -> a = b.
Proof. congruence. Qed.
Lemma ok_step s e s' o : good s -> cins s -> step s e = Ret (s', o) -> step_ok s s' o.
Proof.
  intros G C E. pose proof (ok_same s C) as ID.
  destruct e as [dev a|a|dev|dev|dev pin|dev|a i|dev iface| | |dev a group|dev|go|mac|mac|p2p| |mac prov pin err|mac|err|]; cbn [step] in E.
  - destruct dev as [d|]; [|injection E as <- <-; exact ID]. destruct (parse_peer s a) as [[s1 o1]|] eqn:P; cbn [lift obind fst snd] in E; [|discriminate]. injection E as <- <-.
    eapply ok_app; [exact (ok_parse s a s1 o1 G C P)|]. apply ok_silent; [exact (proj1 (ok_parse s a s1 o1 G C P))|intros ? ?; reflexivity].
  - destruct (parse_peer s a) as [[s1 o1]|] eqn:P; cbn [lift] in E; [|discriminate]. injection E as <- <-. now apply (ok_parse s a).
  - apply ret_inj in E. eapply on_ok; eauto. intros p m _ _ Hin _ _. now apply ok_free.
  - apply ret_inj in E. unfold provision in E. destruct dev as [m|]; [|injection E as <- <-; exact ID]. destruct (named s m) as [p|] eqn:EN; [|injection E as <- <-; exact ID]. injection E as <- <-. destruct (named_some _ _ _ EN) as [Hin Em].
    eapply ok_put; eauto; [repeat split; discriminate|exact (cin_of s p C Hin)|]. eapply chat_same; [|apply (chat_one p); [apply about_one|intros k; cbn [hears]; now rewrite same_refl]]. reflexivity.
  - destruct pin as [t|]; [|injection E as <- <-; exact ID]. apply ret_inj in E. unfold provision in E. destruct dev as [m|]; [|injection E as <- <-; exact ID]. destruct (named s m) as [p|] eqn:EN; [|injection E as <- <-; exact ID]. injection E as <- <-. destruct (named_some _ _ _ EN) as [Hin Em].
    eapply ok_put; eauto; [repeat split; discriminate|exact (cin_of s p C Hin)|]. eapply chat_same; [|apply (chat_one p); [apply about_one|intros k; cbn [hears]; now rewrite same_refl]]. reflexivity.
  - apply ret_inj in E. unfold provision in E. destruct dev as [m|]; [|injection E as <- <-; exact ID]. destruct (named s m) as [p|] eqn:EN; [|injection E as <- <-; exact ID]. injection E as <- <-. destruct (named_some _ _ _ EN) as [Hin Em].
    eapply ok_put; eauto; [repeat split; discriminate|exact (cin_of s p C Hin)|]. eapply chat_same; [|apply (chat_one p); [apply about_one|intros k; cbn [hears]; now rewrite same_refl]]. reflexivity.
  - apply ret_inj in E. eapply on_ok; eauto. intros p m _ _ Hin _ CP; cbv beta. cbn [fst snd]. set (q := match p_prov p with Some _ => p | None => set_ask (Some (text "pbc")) None p end).
    assert (Q : p_id q = p_id p /\ p_mac q = p_mac p /\ p_public q = p_public p /\ p_conn q = p_conn p /\ p_in q = p_in p /\ alike p q).
    { unfold q. destruct (p_prov p) eqn:X; [repeat split; pose proof (alike_refl s p G Hin) as (_ & _ & _ & H); exact H|]. repeat split. }
    destruct Q as (Q1 & Q2 & Q3 & Q4 & Q5 & Q6). eapply ok_put; eauto; [unfold cin; rewrite Q4, Q5; exact CP|]. rewrite Q5. destruct (p_in p); [now apply chat_nil|]. rewrite Q2, Q3. eapply chat_same; [exact Q4|].
    apply (chat_one p); [apply about_one|]. intros k. cbn [hears]. now rewrite same_refl.
  - apply ret_inj in E. eapply on_ok; eauto. intros p m _ _ Hin _ CP; cbv beta. destruct (p_in p) eqn:PI; [exact ID|]. destruct iface as [t|]; [|exact ID]. cbn [fst snd]. eapply ok_put; eauto; [apply (same_alike s); auto|now apply chat_nil].
  - unfold failure in E. destruct (s_pending s) as [id|]; [|injection E as <- <-; exact ID]. destruct (at_id s id) as [p|] eqn:EA; [|discriminate]. injection E as <- <-. apply ok_pending. apply at_id_some in EA. destruct EA as [Hin _].
    rewrite <- (put_same s p G Hin) at 2. eapply ok_put; eauto; [now apply (alike_refl s)|exact (cin_of s p C Hin)|apply chat_fail].
  - unfold failure in E. destruct (s_pending s) as [id|]; [|injection E as <- <-; exact ID]. destruct (at_id s id) as [p|] eqn:EA; [|discriminate]. injection E as <- <-. apply ok_pending. apply at_id_some in EA. destruct EA as [Hin _].
    rewrite <- (put_same s p G Hin) at 2. eapply ok_put; eauto; [now apply (alike_refl s)|exact (cin_of s p C Hin)|apply chat_fail].
  - destruct a as [t|]; [|injection E as <- <-; exact ID]. apply ret_inj in E. eapply on_ok; eauto. intros p m _ _ Hin _ CP; cbv beta. destruct (p_in p) eqn:PI; [exact ID|]. cbn [fst snd]. eapply ok_put; eauto.
    + destruct group; apply (same_alike s); auto. + destruct group; unfold cin; cbn; auto. + apply chat_nil. destruct group; reflexivity.
  - apply ret_inj in E. eapply on_ok; eauto. intros p m _ _ Hin _ CP; cbv beta.
    assert (X : exists q o1, (if is_pending s p then if p_conn p then let '(p, o) := conn_changed false p in (with_pending None s, p, o) else (with_pending None s, p, formation_failure p (text "disconnected")) else (s, p, [])) = (if is_pending s p then with_pending None s else s, q, o1)
      /\ chat p o1 q /\ cin q /\ p_id q = p_id p /\ p_mac q = p_mac p /\ p_public q = p_public p /\ p_prov q = p_prov p /\ p_pin q = p_pin p).
    { destruct (is_pending s p).
      - destruct (p_conn p) eqn:PC.
        + destruct (chat_conn false p) as [H1 H2]. destruct (conn_changed_spec false p) as (q & o1 & E1 & F1 & F2 & F3 & F4 & F5 & _). rewrite E1 in *. cbn [fst snd] in *. exists q, o1. split; [reflexivity|]. split; [exact H1|]. split; [unfold cin; congruence|auto].
        + exists p, (formation_failure p (text "disconnected")). split; [reflexivity|]. split; [apply chat_fail|]. auto 10.
      - exists p, []. split; [reflexivity|]. split; [now apply chat_nil|]. auto 10. }
    destruct X as (q & o1 & -> & CH & CQ & F1 & F2 & F3 & F4 & F5). destruct (chat_drop q CQ) as (D1 & D2 & D3). destruct (drop_group_spec q) as (r & o2 & E2 & I1 & I2 & I3 & I4 & I5 & _). rewrite E2 in *. cbn [fst snd] in *.
    assert (A : alike p r) by (apply (same_alike s); auto; congruence). assert (CC : chat p (o1 ++ o2) r) by (apply (chat_trans p q r); auto). pose proof (ok_put s p r _ G C Hin A D2 CC) as H. destruct (is_pending s p); exact H.
  - apply ret_inj in E. eapply on_ok; eauto. intros p m _ _ Hin _ CP; cbv beta. cbn [fst snd]. eapply ok_put; eauto; [apply (same_alike s); auto|unfold cin; cbn; auto|now apply chat_nil].
  - apply ret_inj in E. eapply on_ok; eauto. intros p m _ _ Hin _ CP; cbv beta. destruct (chat_drop p CP) as (D1 & D2 & D3). destruct (drop_group_spec p) as (r & o2 & E2 & I1 & I2 & I3 & I4 & I5 & _). rewrite E2 in *. cbn [fst snd] in *.
    eapply ok_put; eauto. apply (same_alike s); auto.
  - apply ret_inj in E. eapply on_ok; eauto. intros p m _ _ Hin _ CP; cbv beta. destruct (p_in p) eqn:PI; [|exact ID]. destruct (chat_conn true p) as [H1 H2]. destruct (conn_changed_spec true p) as (r & o2 & E2 & I1 & I2 & I3 & I4 & I5 & _).
    assert (PR : p_in r = true). { unfold conn_changed in E2. destruct (Bool.eqb (p_conn p) true); injection E2 as <- _; exact PI. }
    rewrite E2 in *. cbn [fst snd] in *. eapply ok_put; eauto; [apply (same_alike s); auto|unfold cin; auto].
  - destruct (s_run s) eqn:R; [injection E as <- <-; exact ID|]. rewrite publish_all_spec in E. injection E as <- <-. now apply ok_ready.
  - destruct (free_all (S (List.length (s_peers s))) s) as [[s1 o1]| |] eqn:F; cbn [obind fst snd] in E; try discriminate. injection E as <- <-. pose proof (ok_free_all _ s G C _ _ F) as H.
    destruct (free_all_spec (S (List.length (s_peers s))) s G ltac:(lia)) as (s2 & o2 & F2 & _ & _ & _ & L2 & _). rewrite F in F2. injection F2 as <- <-. destruct H as [H1 H2]. split; [exact H1|]. intros mac w K. destruct (H2 mac w K) as (w' & FW & KW). exists w'. split; [exact FW|].
    unfold on_bus, object, named in *. cbn [s_peers] in *. rewrite L2 in *. exact KW.
  - destruct (object s mac) as [p|]; [|injection E as <- <-; now apply ok_silent; [exact C|intros ? ?; reflexivity]]. apply ret_inj in E. revert E. unfold connect.
    assert (S1 : forall n, step_ok s s [Returns n]) by (intros n; apply ok_silent; [exact C|intros ? ?; reflexivity]).
    assert (S2 : forall x w n, step_ok s (with_pending x s) [Send w; Returns n]) by (intros x w n; apply ok_pending; apply ok_silent; [exact C|intros ? ?; reflexivity]).
    repeat match goal with |- context [if ?c then _ else _] => destruct c end; try (intros E; injection E as <- <-; auto); repeat match goal with |- context [match ?x with Some _ => _ | None => _ end] => destruct x end;
      repeat match goal with |- context [if ?c then _ else _] => destruct c end; try (intros E; injection E as <- <-; auto).
  - destruct (object s mac) as [p|] eqn:EO; [|injection E as <- <-; apply ok_silent; [exact C|intros ? ?; reflexivity]]. destruct (object_some s mac p G EO) as (Hin & _). pose proof (cin_of s p C Hin) as CP.
    destruct (chat_drop (set_ask None None p) CP) as (D1 & D2 & D3). destruct (drop_group_spec (set_ask None None p)) as (r & o2 & E2 & I1 & I2 & I3 & I4 & I5 & _). rewrite E2 in *. cbn [fst snd] in *. injection E as <- <-.
    assert (A : alike p r) by (repeat split; auto; congruence). assert (H : step_ok s (put r s) o2) by (eapply ok_put; eauto). eapply ok_app; [exact H|]. apply ok_silent; [apply H|intros ? ?; reflexivity].
  - destruct (negb _); injection E as <- <-; [apply ok_silent; [exact C|intros ? ?; reflexivity]|]. apply ok_pending. apply ok_silent; [exact C|]. intros ? ?. destruct (err =? 0); reflexivity.
  - destruct (negb _); injection E as <- <-; [exact ID|]. apply ok_silent; [exact C|intros ? ?; reflexivity].
Qed.
Lemma run_cins h s o : run init h = Ret (s, o) -> cins s.
Proof. revert h s o. apply run_ind; [constructor|]. intros h s o e s' o' E G C ES _. apply (ok_step s e s' o' G C ES). Qed.
Lemma run_ok h : forall s s' o, good s -> cins s -> run s h = Ret (s', o) -> step_ok s s' o.
Proof.
  induction h as [|e h IH]; intros s s' o G C E; cbn [run] in E; [apply ret_inj in E; injection E as <- <-; now apply ok_same|].
  destruct (step s e) as [[s1 o1]| |] eqn:E1; cbn [obind fst snd] in E; try discriminate. destruct (run s1 h) as [[s2 o2]| |] eqn:E2; cbn [obind fst snd] in E; try discriminate. injection E as <- <-.
  pose proof (ok_step s e s1 o1 G C E1) as H1. eapply ok_app; [exact H1|]. destruct (step_eff s e G) as (s1' & o1' & F & EF). rewrite E1 in F. injection F as <- <-. apply (IH s1 s2 o2); [apply EF|apply H1|exact E2].
Qed.
Theorem watched h s o h' s' o' mac w : run init h = Ret (s, o) -> run s h' = Ret (s', o') -> knows w (on_bus s mac) -> exists w', follow mac w o' = Some w' /\ knows w' (on_bus s' mac).
Proof. intros H H' K. destruct (run_ok h' s s' o' (run_good _ _ _ H) (run_cins _ _ _ H) H') as [_ X]. exact (X mac w K). Qed.
Lemma run_runs h s o : run init h = Ret (s, o) -> runs h = if s_run s then Some (s_p2p s) else None.
Proof.
  revert h s o. apply run_ind; [reflexivity|]. intros h s o e s' o' E G IH ES EF. unfold runs in *. rewrite fold_left_app. cbn [fold_left]. rewrite IH. clear IH E.
  assert (X : match e with Ready _ | Stopped => True | _ => s_run s' = s_run s /\ s_p2p s' = s_p2p s end). { pose proof (e_run _ _ _ _ EF) as R1. pose proof (e_p2p _ _ _ _ EF) as R2.
    destruct e as [[d|] a|a|d|d|d [t|]|d|a i|d t| | |d a g|d|go|mac|mac|b| |mac prov pin err|mac|err| ]; auto; (split; [rewrite R1|exact R2]); cbn [sees v_run]; unfold asks, arrives; try reflexivity; destruct (mine _ _), (s_run s); reflexivity. }
  destruct e as [| | | | | | | | | | | | | | |b| | | | | ]; try (destruct X as (-> & ->); reflexivity).
  - cbn [step] in ES. destruct (s_run s) eqn:R; [apply ret_inj in ES; injection ES as <- <-; now rewrite R|]. rewrite publish_all_spec in ES. apply ret_inj in ES. injection ES as <- <-. reflexivity.
  - cbn [step] in ES. destruct (free_all _ s) as [[a b]| |]; cbn [obind fst snd] in ES; try discriminate. apply ret_inj in ES. injection ES as <- <-. reflexivity.
Qed.
Theorem scans h s o err : run init h = Ret (s, o) ->
  step s (StartScan err) = match runs h with
    | Some true => Ret (with_pending None s, if err =? 0 then [Send [text "P2P_FIND"]; Returns 0] else [Returns err])
    | _ => Ret (s, [Returns EINVAL])
    end
  /\ step s StopScan = Ret (s, match runs h with Some true => [Send [text "P2P_STOP_FIND"]] | _ => [] end).
Proof. intros H. rewrite (run_runs h s o H). cbn [step]. destruct (s_run s), (s_p2p s); split; reflexivity. Qed.
