(** The picture stays right: signals say what changed. *)
From Coq Require Import String.
From Verif Require Import Base Text Comm_Spec Mirror_Model Mirror_Spec Mirror_Client.
Local Open Scope list_scope.

(** ** One peer *)
Definition pv (p : dpeer) : option pview :=
  if dp_public p then Some (mkPView (dp_mac p) (shown_name p) (dp_conn p) (shown p (dp_group p)) (shown p (dp_local p)) (shown p (dp_remote p)) (or_empty (dp_wfd p))) else None.
Definition okp (p : dpeer) : Prop := is_canon (dp_mac p) /\ (dp_conn p = true -> dp_group p <> None).
Definition words_p (ws : list word) (q : option pview) : option pview := fold_left (fun q w => word_p w q) ws q.
(** Words that make sense: what comes was not there, what changes is there. *)
Definition fit {A} (w : word) (o : option A) : Prop := match w with WAdd _ => o = None | WSet _ => o <> None | WDel => True end.
(** A peer that goes is not connected. *)
Definition fitc (w : word) (q : option pview) : Prop := fit w q /\ match w, q with WDel, Some v => w_conn v = false | _, _ => True end.
Fixpoint fit_p (ws : list word) (q : option pview) : Prop := match ws with [] => True | w :: ws => fitc w q /\ fit_p ws (word_p w q) end.
Lemma fit_p_app x : forall y q, fit_p (x ++ y) q <-> fit_p x q /\ fit_p y (words_p x q).
Proof. induction x as [|w x IH]; intros y q; cbn [app fit_p]; [unfold words_p; cbn [fold_left]; tauto|]. rewrite IH. unfold words_p. cbn [fold_left]. tauto. Qed.
Definition talk (a : bool) (i : N) (p : dpeer) (r : dpeer * list signal) : Prop :=
  dp_mac (fst r) = dp_mac p /\ okp (fst r)
  /\ exists ws, snd r = map (enc i) (map (OfPeer (dp_mac p)) ws) /\ forall o, both (same_peer a) o (pv p) -> fit_p ws o /\ both (same_peer a) (words_p ws o) (pv (fst r)).
Lemma talk_nil a i p p' : dp_mac p' = dp_mac p -> okp p' -> (forall o, both (same_peer a) o (pv p) -> both (same_peer a) o (pv p')) -> talk a i p (p', []).
Proof. intros H H' K. split; [exact H|]. split; [exact H'|]. exists []. split; [reflexivity|]. intros o Ho. split; [exact Logic.I|]. apply K, Ho. Qed.
Lemma talk_refl a i p : okp p -> talk a i p (p, []).
Proof. intros H. now apply talk_nil. Qed.
Lemma talk_app a i p p1 s1 p2 s2 : talk a i p (p1, s1) -> talk a i p1 (p2, s2) -> talk a i p (p2, s1 ++ s2).
Proof.
  intros (M1 & K1 & w1 & E1 & H1) (M2 & K2 & w2 & E2 & H2). cbn [fst snd] in *. split; [cbn [fst]; congruence|]. split; [exact K2|].
  exists (w1 ++ w2). cbn [fst snd]. split; [rewrite !map_app, E1, E2, M1; reflexivity|]. intros o Ho. rewrite fit_p_app. destruct (H1 o Ho) as (X1 & X2). destruct (H2 _ X2) as (X3 & X4). split; [split; assumption|]. unfold words_p. rewrite fold_left_app. exact X4.
Qed.
(** Tell some properties: enough that they make the view right. *)
Lemma talk_tell a i p p' ps : dp_mac p' = dp_mac p -> okp p' -> dp_public p' = dp_public p ->
  (forall v w w', pv p = Some w -> pv p' = Some w' -> same_peer a v w -> same_peer a (wprops ps v) w') -> talk a i p (p', tell_peer i p' ps).
Proof.
  intros M K P H. split; [exact M|]. split; [exact K|]. cbn [fst snd]. unfold tell_peer. rewrite P, M. unfold pv in *. rewrite P in *. destruct (dp_public p) eqn:D.
  - exists [WSet ps]. split; [reflexivity|]. intros [v|] Hv; cbn [both] in *; [|contradiction]. split; [cbn; repeat split; discriminate|]. cbn [words_p fold_left word_p option_map both]. eapply H; [reflexivity|reflexivity|exact Hv].
  - exists []. split; [reflexivity|]. intros o Ho. split; [exact Logic.I|exact Ho].
Qed.
Lemma connected_changed_talk a i p b : okp p -> (b = true -> dp_group p <> None) -> talk a i p (connected_changed i p b).
Proof.
  intros K Hb. unfold connected_changed. destruct (Bool.eqb (dp_conn p) b) eqn:E; [apply talk_refl, K|].
  apply talk_tell; [reflexivity|split; [apply K|exact Hb]|reflexivity|]. unfold pv. cbn [dp_public]. intros v w w' E1 E2 (S1 & S2 & S3 & S4 & S5).
  destruct (dp_public p); [|discriminate]. injection E1 as <-. injection E2 as <-. cbn in S1, S2, S3, S4. unfold wprops, conn_props. cbn [fold_left wprop dp_conn]. repeat split; try assumption; reflexivity.
Qed.
Lemma drop_group_talk a i p : okp p -> talk a i p (drop_group i p) /\ dp_conn (fst (drop_group i p)) = false /\ dp_group (fst (drop_group i p)) = None /\ dp_public (fst (drop_group i p)) = dp_public p.
Proof.
  intros K. destruct (K) as [K1 K2]. unfold drop_group. destruct (dp_group p) as [g|] eqn:G.
  - unfold connected_changed. cbn [dp_conn dp_mac dp_public dp_name dp_wfd dp_group dp_local dp_remote]. destruct (Bool.eqb (dp_conn p) false) eqn:E.
    + split; [|cbn; split; [apply Bool.eqb_prop, E|split; reflexivity]]. apply Bool.eqb_prop in E.
      apply talk_nil; [reflexivity|split; [exact K1|cbn [dp_conn]; congruence]|]. unfold pv, shown, shown_name. cbn [dp_public dp_mac dp_name dp_conn dp_wfd dp_group]. rewrite E. auto.
    + split; [|cbn; auto]. apply talk_tell; [reflexivity|split; [exact K1|discriminate]|reflexivity|].
      unfold pv. cbn [dp_public]. intros v w w' E1 E2 (S1 & S2 & S3 & S4 & S5).
      destruct (dp_public p); [|discriminate]. injection E1 as <-. injection E2 as <-. cbn in S1, S2, S3, S4. unfold wprops, conn_props. cbn [fold_left wprop dp_conn]. repeat split; try assumption; reflexivity.
  - split; [apply talk_refl, K|]. cbn [fst]. split; [|split; [exact G|reflexivity]].
    destruct (dp_conn p); [|reflexivity]. exfalso. apply K2; auto.
Qed.
Lemma peer_props_view p : dp_public p = true -> pv p = Some (wprops (peer_props p) blank_p).
Proof. intros H. unfold pv. rewrite H. reflexivity. Qed.
Lemma start_peer_talk a i p : okp p -> talk a i p (start_peer i p).
Proof.
  intros K. unfold start_peer. destruct (dp_public p) eqn:P; [apply talk_refl, K|]. set (p' := mkDPeer _ true _ _ _ _ _ _).
  split; [reflexivity|]. split; [exact K|]. exists [WAdd (peer_props p')]. split; [reflexivity|]. cbn [fst]. rewrite (peer_props_view p') by reflexivity.
  unfold pv. rewrite P. intros [v|]; cbn [both]; [contradiction|]. intros _. split; [cbn; unfold fitc; cbn; auto|]. cbn [words_p fold_left word_p both]. repeat split; reflexivity.
Qed.
Lemma start_peer_public i p : dp_public (fst (start_peer i p)) = true.
Proof. unfold start_peer. destruct (dp_public p) eqn:P; [exact P|reflexivity]. Qed.
Lemma free_peer_talk a i p : okp p -> exists ws, free_peer i p = map (enc i) (map (OfPeer (dp_mac p)) ws) /\ forall o, both (same_peer a) o (pv p) -> fit_p ws o /\ words_p ws o = None.
Proof.
  intros K. unfold free_peer. destruct (drop_group_talk a i p K) as ((M & _ & ws & E & H) & Cn & _ & P). destruct (drop_group i p) as [p' s]. cbn [fst snd] in *. rewrite P, M, E.
  destruct (dp_public p) eqn:D.
  - exists (ws ++ [WDel]). split; [rewrite !map_app; reflexivity|]. intros o Ho. rewrite fit_p_app. destruct (H o Ho) as (H1 & H2). split; [split; [exact H1|]|].
    + cbn [fit_p]. unfold fitc. cbn [fit]. unfold pv in H2. rewrite P in H2. destruct (words_p ws o) as [v|]; [|contradiction]. destruct H2 as (_ & _ & H2 & _). cbn [w_conn] in H2. rewrite H2, Cn. auto.
    + unfold words_p. rewrite fold_left_app. reflexivity.
  - exists ws. split; [apply app_nil_r|]. intros o Ho. destruct (H o Ho) as (X & Y). split; [exact X|]. unfold pv in Y. rewrite P in Y. destruct (words_p ws o); [contradiction|reflexivity].
Qed.
Lemma found_talk a i (runs : bool) p name wfd : okp p -> talk a i p (
  let p := mkDPeer (dp_mac p) (dp_public p) (dp_conn p) (new_value (dp_name p) name) (dp_wfd p) (dp_group p) (dp_local p) (dp_remote p) in
  let s1 := match name with Some _ => tell_peer i p [Name (shown_name p)] | None => [] end in
  let p := mkDPeer (dp_mac p) (dp_public p) (dp_conn p) (dp_name p) (new_value (dp_wfd p) wfd) (dp_group p) (dp_local p) (dp_remote p) in
  let s2 := match wfd with Some _ => tell_peer i p [Wfd (or_empty (dp_wfd p))] | None => [] end in
  let '(p, s3) := if runs then start_peer i p else (p, []) in (p, s1 ++ s2 ++ s3)).
Proof.
  intros K. cbv zeta. set (p1 := mkDPeer (dp_mac p) (dp_public p) (dp_conn p) (new_value (dp_name p) name) (dp_wfd p) (dp_group p) (dp_local p) (dp_remote p)).
  set (s1 := match name with Some _ => _ | None => [] end). set (p2 := mkDPeer (dp_mac p1) _ _ _ _ _ _ _). set (s2 := match wfd with Some _ => _ | None => [] end).
  assert (T1 : talk a i p (p1, s1)).
  { destruct name as [t|]; [|apply talk_nil; [reflexivity|exact K|auto]]. apply talk_tell; [reflexivity|exact K|reflexivity|].
    unfold pv. intros v w w' E1 E2 (S1 & S2 & S3 & S4 & S5). unfold p1 in E2. cbn [dp_public] in E2.
    destruct (dp_public p); [|discriminate]. injection E1 as <-. injection E2 as <-. unfold wprops. cbn [fold_left wprop]. repeat split; cbn in *; try assumption; apply S5; assumption. }
  assert (T2 : talk a i p1 (p2, s2)).
  { destruct wfd as [t|]; [|apply talk_nil; [reflexivity|exact K|auto]]. apply talk_tell; [reflexivity|exact K|reflexivity|].
    unfold pv. intros v w w' E1 E2 (S1 & S2 & S3 & S4 & S5). unfold p2 in E2. cbn [dp_public] in E2.
    destruct (dp_public p1); [|discriminate]. injection E1 as <-. injection E2 as <-. unfold wprops. cbn [fold_left wprop]. repeat split; cbn in *; try assumption; apply S5; assumption. }
  assert (T3 : talk a i p2 (if runs then start_peer i p2 else (p2, []))) by (destruct runs; [apply start_peer_talk, K|apply talk_refl, K]).
  destruct (if runs then start_peer i p2 else (p2, [])) as [p3 s3]. eapply talk_app; [exact T1|]. eapply talk_app; [exact T2|exact T3].
Qed.

(** ** One link *)
Definition lv (l : dlink) : lview := mkLView (dl_index l) (dl_ifname l) (or_empty (dl_name l)) (dl_managed l) (scanning l) (or_empty (dl_wfd l)).
Definition okl (s : bool) (l : dlink) : Prop :=
  dl_index l <> 0 /\ (dl_managed l = false -> dl_run l = false /\ dl_peers l = []) /\ Forall okp (dl_peers l) /\ NoDup (map dp_mac (dl_peers l))
  /\ (s = true -> dl_scan l = true -> dl_managed l = true /\ dl_run l = true /\ dl_p2p l = true).
Definition pvo (o : option dpeer) : option pview := match o with Some p => pv p | None => None end.
Definition rel (m s a : bool) (o : option lview) (f : list byte -> option pview) (l : dlink) : Prop :=
  both (same_link m s) o (Some (lv l)) /\ forall mac, is_canon mac -> both (same_peer a) (f mac) (pvo (find_p (dl_peers l) mac)).
Fixpoint fits_l (ss : list saying) (o : option lview) : Prop :=
  match ss with [] => True | s :: ss => match s with OfLink w => fit w o | OfDone _ => o <> None | OfPeer _ _ => True end /\ fits_l ss (say_l s o) end.
Fixpoint fits_p (ss : list saying) (o : option lview) (mac : list byte) (q : option pview) : Prop :=
  match ss with
  | [] => True
  | s :: ss => match s with OfPeer m w => eq_text m mac = true -> o <> None /\ fitc w q | OfLink WDel => q = None | _ => True end /\ fits_p ss (say_l s o) mac (say_p s o mac q)
  end.
Definition fits (ss : list saying) (o : option lview) (f : list byte -> option pview) : Prop := fits_l ss o /\ forall mac, is_canon mac -> fits_p ss o mac (f mac).
Definition ltalk (m s a : bool) (l : dlink) (r : dlink * list signal) : Prop :=
  dl_index (fst r) = dl_index l /\ okl s (fst r)
  /\ exists ss, Forall sane ss /\ snd r = map (enc (dl_index l)) ss /\ forall o f, rel m s a o f l -> fits ss o f /\ rel m s a (says_l ss o) (fun mac => says_p ss o mac (f mac)) (fst r).
Lemma says_l_app x : forall y o, says_l (x ++ y) o = says_l y (says_l x o).
Proof. induction x as [|w x IH]; intros y o; [reflexivity|]. cbn [app says_l]. apply IH. Qed.
Lemma says_p_app x : forall y o mac q, says_p (x ++ y) o mac q = says_p y (says_l x o) mac (says_p x o mac q).
Proof. induction x as [|w x IH]; intros y o mac q; [reflexivity|]. cbn [app says_l says_p]. apply IH. Qed.
Lemma says_l_peer m ws : forall o, says_l (map (OfPeer m) ws) o = o.
Proof. induction ws as [|w ws IH]; intros o; [reflexivity|]. cbn [map says_l say_l]. apply IH. Qed.
Lemma says_p_peer m ws v mac : forall q, says_p (map (OfPeer m) ws) (Some v) mac q = if eq_text m mac then words_p ws q else q.
Proof.
  induction ws as [|w ws IH]; intros q; [destruct (eq_text m mac); reflexivity|]. cbn [map says_p say_l say_p]. rewrite IH. destruct (eq_text m mac); reflexivity.
Qed.
Lemma fits_l_app x : forall y o, fits_l (x ++ y) o <-> fits_l x o /\ fits_l y (says_l x o).
Proof. induction x as [|w x IH]; intros y o; cbn [app fits_l says_l]; [tauto|]. rewrite IH. tauto. Qed.
Lemma fits_p_app x : forall y o mac q, fits_p (x ++ y) o mac q <-> fits_p x o mac q /\ fits_p y (says_l x o) mac (says_p x o mac q).
Proof. induction x as [|w x IH]; intros y o mac q; cbn [app fits_p says_l says_p]; [tauto|]. rewrite IH. tauto. Qed.
Lemma fits_l_peer m ws : forall o, fits_l (map (OfPeer m) ws) o.
Proof. induction ws as [|w ws IH]; intros o; cbn [map fits_l]; auto. Qed.
Lemma fits_p_peer m ws v mac : forall q, (eq_text m mac = true -> fit_p ws q) -> fits_p (map (OfPeer m) ws) (Some v) mac q.
Proof.
  induction ws as [|w ws IH]; intros q H; cbn [map fits_p]; [exact Logic.I|]. split; [intros E; specialize (H E); split; [discriminate|apply H]|].
  cbn [say_l say_p]. apply IH. intros E. rewrite E. apply H, E.
Qed.
Lemma ltalk_nil m s a l l' : dl_index l' = dl_index l -> okl s l' -> (forall o f, rel m s a o f l -> rel m s a o f l') -> ltalk m s a l (l', []).
Proof. intros H H' K. split; [exact H|]. split; [exact H'|]. exists []. split; [constructor|]. split; [reflexivity|]. intros o f Ho. split; [split; [exact Logic.I|intros; exact Logic.I]|]. apply K, Ho. Qed.
Lemma ltalk_refl m s a l : okl s l -> ltalk m s a l (l, []).
Proof. intros H. now apply ltalk_nil. Qed.
Lemma ltalk_app m s a l l1 s1 l2 s2 : ltalk m s a l (l1, s1) -> ltalk m s a l1 (l2, s2) -> ltalk m s a l (l2, s1 ++ s2).
Proof.
  intros (I1 & K1 & w1 & F1 & E1 & H1) (I2 & K2 & w2 & F2 & E2 & H2). cbn [fst snd] in *. split; [cbn [fst]; congruence|]. split; [exact K2|].
  exists (w1 ++ w2). split; [apply Forall_app; split; assumption|]. cbn [fst snd]. split; [rewrite map_app, E1, E2, I1; reflexivity|]. intros o f Ho.
  destruct (H1 _ _ Ho) as ((X1 & X2) & X3). destruct (H2 _ _ X3) as ((X4 & X5) & A & B).
  split; [split; [apply fits_l_app; split; assumption|intros mac Hm; apply fits_p_app; auto]|]. split; [rewrite says_l_app; exact A|]. intros mac Hm. rewrite says_p_app. apply B, Hm.
Qed.
(** Tell properties of the link; its peers stay. *)
Lemma ltalk_tell m s a l l' ps : dl_index l' = dl_index l -> okl s l' -> dl_peers l' = dl_peers l ->
  (forall v, same_link m s v (lv l) -> same_link m s (vprops ps v) (lv l')) -> ltalk m s a l (l', tell_link l' ps).
Proof.
  intros I K P H. split; [exact I|]. split; [exact K|]. exists [OfLink (WSet ps)]. split; [repeat constructor|]. split; [unfold tell_link; cbn [snd fst]; rewrite I; reflexivity|].
  intros o f [A B]. split; [split; [destruct o; [cbn; split; [discriminate|exact Logic.I]|contradiction]|cbn; auto]|]. cbn [fst says_l say_l word_l says_p say_p]. split; [|rewrite P; exact B]. destruct o as [v|]; [|contradiction]. cbn [option_map both] in *. apply H, A.
Qed.
Lemma find_p_put ps p mac : find_p (put_p p ps) mac = if eq_text (dp_mac p) mac then option_map (fun _ => p) (find_p ps mac) else find_p ps mac.
Proof.
  induction ps as [|x ps IH]; [destruct (eq_text _ mac); reflexivity|]. unfold put_p. cbn [map]. fold (put_p p ps). destruct (eq_text (dp_mac x) (dp_mac p)) eqn:E; cbn [find_p]; rewrite IH.
  - apply eq_text_spec in E. rewrite E. destruct (eq_text (dp_mac p) mac); reflexivity.
  - destruct (eq_text (dp_mac p) mac) eqn:F; [|reflexivity]. apply eq_text_spec in F. subst mac. rewrite E. reflexivity.
Qed.
Lemma put_p_macs ps p : map dp_mac (put_p p ps) = map dp_mac ps.
Proof.
  induction ps as [|x ps IH]; [reflexivity|]. unfold put_p in *. cbn [map]. rewrite IH. f_equal. destruct (eq_text (dp_mac x) (dp_mac p)) eqn:E; [|reflexivity]. apply eq_text_spec in E. auto.
Qed.
Lemma put_p_ok ps p : okp p -> Forall okp ps -> Forall okp (put_p p ps).
Proof. intros H. induction 1 as [|x ps Hx _ IH]; [constructor|]. unfold put_p in *. cbn [map]. constructor; [|exact IH]. destruct (eq_text _ _); assumption. Qed.
Lemma find_p_in ps mac p : find_p ps mac = Some p -> In p ps /\ dp_mac p = mac.
Proof. induction ps as [|x ps IH]; cbn [find_p]; [discriminate|]. destruct (eq_text (dp_mac x) mac) eqn:E; [intros [= <-]; apply eq_text_spec in E; cbn [In]; auto|]. intros H. destruct (IH H). cbn [In]. auto. Qed.
Lemma find_p_none ps mac : find_p ps mac = None <-> ~ In mac (map dp_mac ps).
Proof.
  induction ps as [|x ps IH]; cbn [find_p map In]; [tauto|]. destruct (eq_text (dp_mac x) mac) eqn:E.
  - apply eq_text_spec in E. split; [discriminate|tauto].
  - rewrite IH. split; [|tauto]. intros H [F|F]; [apply eq_text_spec in F; congruence|tauto].
Qed.
Lemma on_peer_talk m s a l mac f : okl s l -> (forall p, find_p (dl_peers l) mac = Some p -> okp p -> talk a (dl_index l) p (f p)) -> ltalk m s a l (on_peer l mac f).
Proof.
  intros K H. unfold on_peer. destruct (find_p (dl_peers l) mac) as [p|] eqn:E; [|apply ltalk_refl, K]. destruct K as (K1 & K2 & K3 & K4 & K5).
  destruct (find_p_in _ _ _ E) as (Hin & <-). assert (Kp : okp p) by (rewrite Forall_forall in K3; auto).
  destruct (H p eq_refl Kp) as (M & Kp' & ws & Es & T). destruct (f p) as [p' s']. cbn [fst snd] in *. subst s'.
  split; [reflexivity|]. cbn [fst snd]. split.
  { split; [exact K1|]. cbn [with_peers dl_managed dl_run dl_peers dl_scan dl_p2p]. split; [|split; [apply put_p_ok; assumption|split; [rewrite put_p_macs; exact K4|exact K5]]].
    intros Hm. destruct (K2 Hm) as (R & P). rewrite P in E. discriminate. }
  exists (map (OfPeer (dp_mac p)) ws). split; [apply Forall_map, Forall_forall; intros w _; apply Kp|]. split; [reflexivity|].
  intros o g [A B]. destruct o as [v|]; [|contradiction]. split.
  { split; [apply fits_l_peer|]. intros mac Hm. apply fits_p_peer. intros F. apply eq_text_spec in F. subst mac. specialize (B _ Hm). rewrite E in B. apply T, B. }
  split; [rewrite says_l_peer; exact A|]. intros mac Hm. rewrite says_p_peer. cbn [with_peers dl_peers].
  rewrite find_p_put, M. specialize (B mac Hm). destruct (eq_text (dp_mac p) mac) eqn:F; [|exact B]. apply eq_text_spec in F. subst mac. rewrite E in *. cbn [option_map pvo] in *. apply T, B.
Qed.
(** Several peers one after the other. *)
Lemma start_peers_talk a i ps : Forall okp ps -> NoDup (map dp_mac ps) ->
  map dp_mac (fst (start_peers i ps)) = map dp_mac ps /\ Forall okp (fst (start_peers i ps))
  /\ exists ss, Forall sane ss /\ snd (start_peers i ps) = map (enc i) ss /\ (forall o, says_l ss o = o)
    /\ forall v f, (forall mac, In mac (map dp_mac ps) -> both (same_peer a) (f mac) (pvo (find_p ps mac))) ->
       forall mac, (In mac (map dp_mac ps) -> both (same_peer a) (says_p ss (Some v) mac (f mac)) (pvo (find_p (fst (start_peers i ps)) mac)))
                   /\ (~ In mac (map dp_mac ps) -> says_p ss (Some v) mac (f mac) = f mac) /\ fits_l ss (Some v) /\ fits_p ss (Some v) mac (f mac).
Proof.
  induction ps as [|p ps IH]; intros F N.
  - split; [reflexivity|]. split; [constructor|]. exists []. split; [constructor|]. split; [reflexivity|]. split; [reflexivity|]. intros v f _ mac. split; [intros []|]. split; [reflexivity|]. split; exact Logic.I.
  - inversion F as [|? ? Kp F']; subst. inversion N as [|? ? Np N']; subst. destruct (IH F' N') as (M & K & ss & S & E & L & H). clear IH.
    destruct (start_peer_talk a i p Kp) as (Mp & Kp' & ws & Ep & Hp). cbn [start_peers]. destruct (start_peer i p) as [p' s']. destruct (start_peers i ps) as [ps' t']. cbn [fst snd] in *.
    split; [cbn [map]; congruence|]. split; [constructor; assumption|]. exists (map (OfPeer (dp_mac p)) ws ++ ss).
    split; [apply Forall_app; split; [apply Forall_map, Forall_forall; intros w _; apply Kp|exact S]|]. split; [rewrite map_app; congruence|].
    split; [intros o; rewrite says_l_app, says_l_peer; apply L|]. intros v f Hf mac. rewrite says_p_app, fits_p_app, fits_l_app, says_l_peer, says_p_peer.
    assert (Y : fits_p (map (OfPeer (dp_mac p)) ws) (Some v) mac (f mac)).
    { apply fits_p_peer. intros Z. apply eq_text_spec in Z. subst mac. apply Hp. specialize (Hf (dp_mac p) (or_introl eq_refl)). cbn [find_p] in Hf. rewrite eq_text_refl in Hf. exact Hf. }
    assert (X : forall mac, In mac (map dp_mac ps) -> both (same_peer a) (f mac) (pvo (find_p ps mac))).
    { intros x Hx. specialize (Hf x (or_intror Hx)). cbn [find_p] in Hf. destruct (eq_text (dp_mac p) x) eqn:Z; [|exact Hf]. apply eq_text_spec in Z. congruence. }
    cbn [map In find_p]. rewrite Mp. destruct (eq_text (dp_mac p) mac) eqn:Z.
    + apply eq_text_spec in Z. subst mac. 
      destruct (H v (fun x => if eq_text (dp_mac p) x then words_p ws (f x) else f x)) with (mac := dp_mac p) as (_ & U & V & W).
      { intros x Hx. destruct (eq_text (dp_mac p) x) eqn:Z; [apply eq_text_spec in Z; congruence|]. apply X, Hx. }
      rewrite eq_text_refl in U, W. split; [|split; [tauto|split; [split; [apply fits_l_peer|exact V]|split; [exact Y|exact W]]]].
      intros _. rewrite (U Np). apply Hp. specialize (Hf (dp_mac p) (or_introl eq_refl)). cbn [find_p] in Hf. rewrite eq_text_refl in Hf. exact Hf.
    + destruct (H v f X mac) as (U & V & T1 & T2). split; [intros [W|W]; [apply eq_text_spec in W; congruence|exact (U W)]|]. split; [intros W; apply V; tauto|]. split; [split; [apply fits_l_peer|exact T1]|split; [exact Y|exact T2]].
Qed.
Lemma free_peers_talk a i ps : Forall okp ps -> NoDup (map dp_mac ps) ->
  exists ss, Forall sane ss /\ flat_map (free_peer i) ps = map (enc i) ss /\ (forall o, says_l ss o = o)
    /\ forall v f, (forall mac, In mac (map dp_mac ps) -> both (same_peer a) (f mac) (pvo (find_p ps mac))) ->
       forall mac, (In mac (map dp_mac ps) -> says_p ss (Some v) mac (f mac) = None) /\ (~ In mac (map dp_mac ps) -> says_p ss (Some v) mac (f mac) = f mac) /\ fits_l ss (Some v) /\ fits_p ss (Some v) mac (f mac).
Proof.
  induction ps as [|p ps IH]; intros F N.
  - exists []. split; [constructor|]. split; [reflexivity|]. split; [reflexivity|]. intros v f _ mac. split; [intros []|]. split; [reflexivity|]. split; exact Logic.I.
  - inversion F as [|? ? Kp F']; subst. inversion N as [|? ? Np N']; subst. destruct (IH F' N') as (ss & S & E & L & H). clear IH.
    destruct (free_peer_talk a i p Kp) as (ws & Ep & Hp). cbn [flat_map]. rewrite Ep, E.
    exists (map (OfPeer (dp_mac p)) ws ++ ss).
    split; [apply Forall_app; split; [apply Forall_map, Forall_forall; intros w _; apply Kp|exact S]|]. split; [rewrite map_app; reflexivity|].
    split; [intros o; rewrite says_l_app, says_l_peer; apply L|]. intros v f Hf mac. rewrite says_p_app, fits_p_app, fits_l_app, says_l_peer, says_p_peer.
    assert (Y : fits_p (map (OfPeer (dp_mac p)) ws) (Some v) mac (f mac)).
    { apply fits_p_peer. intros Z. apply eq_text_spec in Z. subst mac. apply Hp. specialize (Hf (dp_mac p) (or_introl eq_refl)). cbn [find_p] in Hf. rewrite eq_text_refl in Hf. exact Hf. }
    assert (X : forall mac, In mac (map dp_mac ps) -> both (same_peer a) (f mac) (pvo (find_p ps mac))).
    { intros x Hx. specialize (Hf x (or_intror Hx)). cbn [find_p] in Hf. destruct (eq_text (dp_mac p) x) eqn:Z; [|exact Hf]. apply eq_text_spec in Z. congruence. }
    cbn [map In]. destruct (eq_text (dp_mac p) mac) eqn:Z.
    + apply eq_text_spec in Z. subst mac. 
      destruct (H v (fun x => if eq_text (dp_mac p) x then words_p ws (f x) else f x)) with (mac := dp_mac p) as (_ & U & V & W).
      { intros x Hx. destruct (eq_text (dp_mac p) x) eqn:Z; [apply eq_text_spec in Z; congruence|]. apply X, Hx. }
      rewrite eq_text_refl in U, W. split; [|split; [tauto|split; [split; [apply fits_l_peer|exact V]|split; [exact Y|exact W]]]].
      intros _. rewrite (U Np). apply Hp. specialize (Hf (dp_mac p) (or_introl eq_refl)). cbn [find_p] in Hf. rewrite eq_text_refl in Hf. exact Hf.
    + destruct (H v f X mac) as (U & V & T1 & T2). split; [intros [W|W]; [apply eq_text_spec in W; congruence|exact (U W)]|]. split; [intros W; apply V; tauto|]. split; [split; [apply fits_l_peer|exact T1]|split; [exact Y|exact T2]].
Qed.
Lemma same_link_eq m s v w w' : same_link m s v w -> v_index w = v_index w' -> v_ifname w = v_ifname w' -> v_name w = v_name w' -> v_wfd w = v_wfd w' ->
  (m = true -> v_managed w = v_managed w') -> (s = true -> v_scan w = v_scan w') -> same_link m s v w'.
Proof. intros (A & B & C & D & E & F) H1 H2 H3 H4 H5 H6. repeat split; try congruence; intros G; [rewrite E, H5|rewrite F, H6]; auto. Qed.
Lemma stopped_talk m s a l : okl s l -> (s = true -> scanning l = false) -> ltalk m s a l (stopped l).
Proof.
  intros (K1 & K2 & K3 & K4 & K5) Hs. destruct (free_peers_talk a (dl_index l) (dl_peers l) K3 K4) as (ss & S & E & L & H).
  split; [reflexivity|]. unfold stopped. cbn [fst snd]. split.
  { split; [exact K1|]. cbn [with_peers with_state dl_managed dl_run dl_peers dl_scan dl_p2p]. split; [auto|]. split; [constructor|]. split; [constructor|].
    intros Hs' Hc. exfalso. destruct (K5 Hs' Hc) as (A & B & C). specialize (Hs Hs'). unfold scanning in Hs. rewrite A, B, C, Hc in Hs. discriminate. }
  exists ss. split; [exact S|]. split; [exact E|]. intros o f [A B]. destruct o as [v|]; [|contradiction].
  assert (X : forall mac, In mac (map dp_mac (dl_peers l)) -> both (same_peer a) (f mac) (pvo (find_p (dl_peers l) mac))).
  { intros x Hx. apply B. apply in_map_iff in Hx. destruct Hx as (p & <- & Hp). rewrite Forall_forall in K3. apply K3, Hp. }
  split; [split; [apply (H v f X [])|intros mac Hm; apply (H v f X mac)]|]. split.
  - rewrite L. cbn [both] in *. eapply same_link_eq; [exact A|reflexivity|reflexivity|reflexivity|reflexivity|reflexivity|].
    intros Hs'. cbn [lv v_scan]. rewrite (Hs Hs'). unfold scanning. cbn [with_peers with_state dl_managed dl_run]. rewrite andb_false_r. reflexivity.
  - intros mac Hm. cbn [with_peers dl_peers find_p pvo].
    destruct (H v f X mac) as (U & V & _). destruct (in_dec (list_eq_dec N.eq_dec) mac (map dp_mac (dl_peers l))) as [W|W]; [rewrite (U W); exact Logic.I|].
    rewrite (V W). specialize (B mac Hm). rewrite (proj2 (find_p_none _ _) W) in B. exact B.
Qed.
(** ** Every change of a link *)
Definition calml (m s a : bool) (l : dlink) (o : op) : Prop :=
  match o with
  | SetManaged _ b ok mine => (m = true -> dl_managed l = b \/ mine = true \/ b = true /\ ok = false) /\ (s = true -> b = false -> scanning l = false)
  | Failed _ => s = true -> scanning l = false
  | Addr _ mac loc rem => a = true -> forall p, find_p (dl_peers l) mac = Some p -> dp_conn p = true -> dp_local p = loc /\ dp_remote p = rem
  | _ => True
  end.
Lemma okl_peers s l ps : okl s l -> Forall okp ps -> NoDup (map dp_mac ps) -> dl_managed l = true -> okl s (with_peers ps l).
Proof. intros (K1 & K2 & K3 & K4 & K5) H H' Hm. split; [exact K1|]. cbn [with_peers dl_managed dl_run dl_peers dl_scan dl_p2p]. split; [congruence|]. auto. Qed.
Lemma find_p_app ps p mac : find_p (ps ++ [p]) mac = match find_p ps mac with Some q => Some q | None => if eq_text (dp_mac p) mac then Some p else None end.
Proof. induction ps as [|x ps IH]; cbn [app find_p]; [reflexivity|]. rewrite IH. destruct (eq_text (dp_mac x) mac); reflexivity. Qed.
Lemma find_p_filter ps m mac : find_p (filter (fun q => negb (eq_text (dp_mac q) m)) ps) mac = if eq_text m mac then None else find_p ps mac.
Proof.
  induction ps as [|x ps IH]; cbn [filter find_p]; [destruct (eq_text m mac); reflexivity|]. destruct (eq_text (dp_mac x) m) eqn:E; cbn [negb find_p]; rewrite IH.
  - apply eq_text_spec in E. rewrite E. destruct (eq_text m mac); reflexivity.
  - destruct (eq_text m mac) eqn:F; [|reflexivity]. apply eq_text_spec in F. subst mac. rewrite E. reflexivity.
Qed.
Lemma filter_macs m ps : NoDup (map dp_mac ps) -> NoDup (map dp_mac (filter (fun q => negb (eq_text (dp_mac q) m)) ps)).
Proof.
  induction ps as [|x ps IH]; cbn [filter map]; intros H; [constructor|]. inversion H; subst. destruct (negb _); [|auto]. cbn [map]. constructor; [|auto].
  intros X. apply in_map_iff in X. destruct X as (q & E & Hq). apply filter_In in Hq. destruct Hq as (Hq & _). apply H2. rewrite <- E. now apply in_map.
Qed.
Lemma ltalk_pre m s a l l1 r : ltalk m s a l (l1, []) -> ltalk m s a l1 r -> ltalk m s a l r.
Proof. destruct r as [l2 s2]. intros H H'. exact (ltalk_app m s a l l1 [] l2 s2 H H'). Qed.
Ltac unl := cbn [with_peers with_state dl_index dl_ifname dl_name dl_wfd dl_managed dl_run dl_p2p dl_scan dl_peers] in *.
Lemma do_link_talk m s a l o : okl s l -> good_op o -> calml m s a l o -> ltalk m s a l (do_link l o).
Proof.
  intros K G C. destruct (K) as (K1 & K2 & K3 & K4 & K5).
  destruct o as [i t|i|i t|i t ok|i t ok|i b ok mine|i|i p2p|i|i b|i mac name wfd|i mac|i mac t|i mac x y|i mac|i mac]; cbn [do_link calml good_op] in *.
  - apply ltalk_refl, K.
  - apply ltalk_refl, K.
  - destruct (eq_text (dl_ifname l) t); [apply ltalk_refl, K|]. apply ltalk_tell; [reflexivity|exact K|reflexivity|].
    intros v (S1 & S2 & S3 & S4 & S5 & S6). repeat split; assumption.
  - destruct t as [|c t]; [apply ltalk_refl, K|]. destruct (dl_run l && negb ok); [apply ltalk_refl, K|]. apply ltalk_tell; [reflexivity|exact K|reflexivity|].
    intros v (S1 & S2 & S3 & S4 & S5 & S6). repeat split; assumption.
  - destruct (negb (dl_managed l) || dl_run l && negb ok); [apply ltalk_refl, K|]. apply ltalk_tell; [reflexivity|exact K|reflexivity|].
    intros v (S1 & S2 & S3 & S4 & S5 & S6). repeat split; assumption.
  - (* managed *)
    destruct C as (C1 & C2).
    (* the answer *)
    assert (D : forall l', okl s l' -> dl_index l' = dl_index l -> dl_managed l' = b ->
      forall l0, okl s l0 -> dl_index l0 = dl_index l -> dl_peers l' = dl_peers l0 -> dl_ifname l' = dl_ifname l0 -> dl_name l' = dl_name l0 -> dl_wfd l' = dl_wfd l0 ->
        (s = true -> scanning l' = scanning l0) -> (m = true -> mine = true \/ dl_managed l0 = b) -> ltalk m s a l0 (l', if mine then [Done (link_label (dl_index l)) b] else [])).
    { intros l' K' I' M' l0 K0 I0 P F1 F2 F3 Sc Hm. destruct mine.
      - split; [cbn [fst]; congruence|]. split; [exact K'|]. exists [OfDone b]. split; [repeat constructor|]. split; [cbn [snd map enc]; rewrite I0; reflexivity|].
        intros o f [A B]. split; [split; [destruct o; [cbn; split; [discriminate|exact Logic.I]|contradiction]|cbn; auto]|].
        cbn [fst says_l say_l word_l says_p say_p]. split; [|rewrite P; exact B]. destruct o as [v|]; [|contradiction]. cbn [option_map both vprops fold_left vprop] in *.
        destruct A as (S1 & S2 & S3 & S4 & S5 & S6). cbn [lv v_index v_ifname v_name v_managed v_scan v_wfd] in *. split; [cbn; congruence|]. split; [cbn; congruence|]. split; [cbn; congruence|]. split; [cbn; congruence|].
        split; [cbn; congruence|]. intros Hs. cbn. rewrite (Sc Hs). auto.
      - apply ltalk_nil; [congruence|exact K'|]. intros o f [A B]. split; [|rewrite P; exact B]. destruct o as [v|]; [|contradiction]. cbn [both] in *.
        eapply same_link_eq; [exact A|cbn; congruence..| |]; cbn [lv v_managed v_scan].
        + intros H. destruct (Hm H) as [W|W]; [discriminate|congruence].
        + intros H. symmetry. apply Sc, H. }
    destruct (Bool.eqb (dl_managed l) b) eqn:E.
    + apply Bool.eqb_prop in E. cbn [andb app]. apply D; auto.
    + destruct b.
      * destruct ok; cbn [andb app]; [|apply ltalk_refl, K]. assert (E' : dl_managed l = false) by (destruct (dl_managed l); [discriminate|reflexivity]). destruct (K2 E') as (R & P).
        apply D; unl; auto.
        -- split; [exact K1|]. unl. split; [discriminate|]. split; [exact K3|]. split; [exact K4|]. intros H1 H2. destruct (K5 H1 H2) as (W & _). congruence.
        -- intros _. unfold scanning. unl. rewrite R, E'. reflexivity.
        -- intros H. destruct (C1 H) as [W|[W|[_ W]]]; auto. congruence.
      * pose proof (stopped_talk m s a l K (fun H => C2 H eq_refl)) as T. destruct (stopped l) as [l1 s1] eqn:Es. unfold stopped in Es. injection Es as El1 _. assert (K' : okl s l1) by apply T.
        assert (I1 : dl_index l1 = dl_index l) by (rewrite <- El1; reflexivity). assert (R1 : dl_run l1 = false) by (rewrite <- El1; reflexivity). assert (P1 : dl_peers l1 = []) by (rewrite <- El1; reflexivity).
        cbn [andb]. eapply ltalk_app; [exact T|]. destruct K' as (J1 & J2 & J3 & J4 & J5). apply D; unl; auto.
        -- split; [exact J1|]. unl. split; [auto|]. split; [exact J3|]. split; [exact J4|]. intros H1 H2. destruct (J5 H1 H2) as (_ & W & _). congruence.
        -- split; [exact J1|]. auto.
        -- intros _. unfold scanning. unl. rewrite R1. cbn [andb]. rewrite andb_false_r. reflexivity.
        -- intros H. destruct (C1 H) as [W|[W|[W _]]]; auto; [|discriminate]. rewrite W in E. discriminate.
  - destruct (dl_run l || negb (dl_managed l)) eqn:E; [apply ltalk_refl, K|]. apply orb_false_iff in E. destruct E as (R & M). apply ltalk_nil; [reflexivity| |].
    + split; [exact K1|]. unl. split; [exact K2|]. split; [exact K3|]. split; [exact K4|]. discriminate.
    + intros o f [A B]. split; [|exact B]. destruct o as [v|]; [|contradiction]. cbn [both] in *. eapply same_link_eq; [exact A|reflexivity..|]. intros _. cbn [lv v_scan]. unfold scanning. unl. rewrite R, !andb_false_r. reflexivity.
  - destruct (dl_run l || negb (dl_managed l)) eqn:E; [apply ltalk_refl, K|]. apply orb_false_iff in E. destruct E as (R & M). apply negb_false_iff in M.
    destruct (start_peers_talk a (dl_index l) (dl_peers l) K3 K4) as (M' & K' & ss & S & Es & L & H). destruct (start_peers (dl_index l) (dl_peers l)) as [ps t]. cbn [fst snd] in *.
    assert (Sc : s = true -> dl_scan l = false) by (intros Hs; destruct (dl_scan l); [|reflexivity]; destruct (K5 Hs eq_refl) as (_ & W & _); congruence).
    split; [reflexivity|]. cbn [fst snd]. split.
    { split; [exact K1|]. unl. split; [congruence|]. split; [exact K'|]. split; [rewrite M'; exact K4|]. intros H1 H2. rewrite (Sc H1) in H2. discriminate. }
    exists ss. split; [exact S|]. split; [exact Es|]. intros o f [A B]. destruct o as [v|]; [|contradiction].
    assert (X : forall mac, In mac (map dp_mac (dl_peers l)) -> both (same_peer a) (f mac) (pvo (find_p (dl_peers l) mac))).
    { intros x Hx. apply B. apply in_map_iff in Hx. destruct Hx as (p & <- & Hp). rewrite Forall_forall in K3. apply K3, Hp. }
    split; [split; [apply (H v f X [])|intros mac Hm; apply (H v f X mac)]|]. split.
    + rewrite L. cbn [both] in *. eapply same_link_eq; [exact A|reflexivity..|]. intros Hs. cbn [lv v_scan]. unfold scanning. unl. rewrite (Sc Hs), !andb_false_r. reflexivity.
    + intros mac Hm. unl.
      destruct (H v f X mac) as (U & V & _). destruct (in_dec (list_eq_dec N.eq_dec) mac (map dp_mac (dl_peers l))) as [W|W]; [exact (U W)|].
      rewrite (V W). specialize (B mac Hm). rewrite (proj2 (find_p_none _ _) W) in B. rewrite <- M' in W. rewrite (proj2 (find_p_none _ _) W). exact B.
  - apply stopped_talk; assumption.
  - destruct (Bool.eqb (dl_scan l) b || b && negb (dl_run l && dl_p2p l)) eqn:E; [apply ltalk_refl, K|]. apply orb_false_iff in E. destruct E as (E1 & E2).
    apply ltalk_tell; [reflexivity| |reflexivity|].
    + split; [exact K1|]. unl. split; [exact K2|]. split; [exact K3|]. split; [exact K4|]. intros _ ->. cbn [andb] in E2. apply negb_false_iff, andb_true_iff in E2. destruct E2 as (R & P).
      split; [|auto]. destruct (dl_managed l); [reflexivity|]. destruct (K2 eq_refl) as (W & _). congruence.
    + intros v (S1 & S2 & S3 & S4 & S5 & S6). repeat split; assumption.
  - destruct (dl_managed l) eqn:M; cbn [negb]; [|apply ltalk_refl, K]. set (p0 := mkDPeer mac false false None None None None None).
    assert (T : ltalk m s a l (with_peers (match find_p (dl_peers l) mac with Some _ => dl_peers l | None => dl_peers l ++ [p0] end) l, [])).
    { destruct (find_p (dl_peers l) mac) as [q|] eqn:Q.
      - apply ltalk_nil; [reflexivity|apply okl_peers; assumption|auto].
      - assert (Z : NoDup (map dp_mac (dl_peers l ++ [p0]))).
        { rewrite map_app. cbn [map p0 dp_mac]. apply find_p_none in Q. apply NoDup_Add with (a := mac) (l := map dp_mac (dl_peers l)); [|split; assumption].
          rewrite <- (app_nil_r (map dp_mac (dl_peers l))) at 1. apply Add_app. }
        apply ltalk_nil; [reflexivity|apply okl_peers; [exact K| |exact Z|exact M]|].
        + apply Forall_app. split; [exact K3|]. constructor; [|constructor]. split; [exact G|discriminate].
        + intros o f [A B]. split; [exact A|]. intros x Hx. unl. specialize (B x Hx). rewrite find_p_app. destruct (find_p (dl_peers l) x) as [q|] eqn:W; [exact B|]. cbn [p0 dp_mac]. destruct (eq_text mac x); exact B. }
    apply (ltalk_pre _ _ _ _ _ _ T). assert (K' := proj1 (proj2 T)). cbn [fst] in K'. apply on_peer_talk; [exact K'|]. intros p _ Kp. apply found_talk, Kp.
  - destruct (find_p (dl_peers l) mac) as [p|] eqn:Q; [|apply ltalk_refl, K]. destruct (find_p_in _ _ _ Q) as (Hin & Hmac).
    assert (Kp : okp p) by (rewrite Forall_forall in K3; auto). destruct (free_peer_talk a (dl_index l) p Kp) as (ws & E & H).
    split; [reflexivity|]. cbn [fst snd]. split.
    { split; [exact K1|]. unl. split; [|split; [|split; [apply filter_macs, K4|exact K5]]].
      - intros Z. destruct (K2 Z) as (_ & P). rewrite P in Q. discriminate.
      - rewrite Forall_forall in *. intros q Hq. apply filter_In in Hq. apply K3, Hq. }
    exists (map (OfPeer (dp_mac p)) ws). split; [apply Forall_map, Forall_forall; intros w _; apply Kp|]. split; [exact E|].
    intros o f [A B]. destruct o as [v|]; [|contradiction]. split.
    { split; [apply fits_l_peer|]. intros x Hx. apply fits_p_peer. intros F. apply eq_text_spec in F. subst x. specialize (B _ Hx). rewrite Hmac, Q in B. rewrite Hmac. apply H, B. }
    split; [rewrite says_l_peer; exact A|]. intros x Hx. rewrite says_p_peer. unl. rewrite find_p_filter, Hmac. specialize (B x Hx).
    destruct (eq_text mac x) eqn:F; [|exact B]. apply eq_text_spec in F. subst x. rewrite Q in B. cbn [pvo] in B. rewrite (proj2 (H _ B)). exact Logic.I.
  - apply on_peer_talk; [exact K|]. intros p _ Kp. destruct (same_group (dp_group p) t); [apply talk_refl, Kp|].
    destruct (drop_group_talk a (dl_index l) p Kp) as (T & Cn & Gr & Pb). destruct (drop_group (dl_index l) p) as [p1 s1]. cbn [fst snd] in *.
    rewrite <- (app_nil_r s1). eapply talk_app; [exact T|]. destruct T as (Mp & Kp1 & _). cbn [fst] in *. apply talk_nil; [reflexivity|split; [apply Kp1|discriminate]|].
    unfold pv, shown, shown_name. cbn [dp_public dp_mac dp_name dp_conn dp_wfd dp_group]. rewrite Cn. auto.
  - apply on_peer_talk; [exact K|]. intros p Q Kp. apply talk_nil; [reflexivity|exact Kp|]. intros o. unfold pv, shown, shown_name. cbn [dp_public dp_mac dp_name dp_conn dp_wfd dp_group dp_local dp_remote].
    destruct (dp_public p); [|auto]. destruct o as [v|]; [|auto]. cbn [both]. intros (S1 & S2 & S3 & S4 & S5). cbn [w_mac w_name w_conn w_wfd w_iface w_local w_remote] in *. do 4 (split; [assumption|]). intros Ha. specialize (S5 Ha).
    destruct (dp_conn p) eqn:Z; [|exact S5]. destruct (C Ha p Q Z) as (<- & <-). exact S5.
  - apply on_peer_talk; [exact K|]. intros p _ Kp. destruct (dp_group p) as [g|] eqn:Gr; [|apply talk_refl, Kp]. apply connected_changed_talk; [exact Kp|congruence].
  - apply on_peer_talk; [exact K|]. intros p _ Kp. assert (T := connected_changed_talk a (dl_index l) p false Kp (fun H => match Bool.diff_false_true H with end)).
    destruct (connected_changed (dl_index l) p false) as [p1 s1]. assert (Kp1 : okp p1) by apply T. destruct (drop_group_talk a (dl_index l) p1 Kp1) as (T' & _). destruct (drop_group (dl_index l) p1) as [p2 s2]. eapply talk_app; eassumption.
Qed.

(** ** Every step of the daemon *)
Definition okd (s : bool) (d : daemon) : Prop := Forall (okl s) d /\ NoDup (map dl_index d).
Definition relo (m s a : bool) (o : option lview) (f : list byte -> option pview) (x : option dlink) : Prop :=
  match x with Some l => rel m s a o f l | None => o = None /\ forall mac, is_canon mac -> f mac = None end.
Lemma d_link_eq d i : d_link d i = option_map lv (find_l d i).
Proof. unfold d_link. destruct (find_l d i); reflexivity. Qed.
Lemma d_peer_eq d i mac : d_peer d i mac = match find_l d i with Some l => pvo (find_p (dl_peers l) mac) | None => None end.
Proof. unfold d_peer. destruct (find_l d i) as [l|]; [|reflexivity]. destruct (find_p (dl_peers l) mac); reflexivity. Qed.
Lemma right_at m s a c d : right m s a c d <-> forall i, relo m s a (c_link c i) (c_peer c i) (find_l d i).
Proof.
  unfold right. split.
  - intros [H1 H2] i. specialize (H1 i). specialize (H2 i). rewrite d_link_eq in H1. unfold relo. destruct (find_l d i) as [l|] eqn:E; cbn [option_map] in *.
    + split; [exact H1|]. intros mac Hm. specialize (H2 mac Hm). rewrite d_peer_eq, E in H2. exact H2.
    + split; [destruct (c_link c i); [contradiction|reflexivity]|]. intros mac Hm. specialize (H2 mac Hm). rewrite d_peer_eq, E in H2. destruct (c_peer c i mac); [contradiction|reflexivity].
  - intros H. split.
    + intros i. specialize (H i). rewrite d_link_eq. unfold relo in H. destruct (find_l d i) as [l|]; [apply H|]. destruct H as [-> _]. exact Logic.I.
    + intros i mac Hm. specialize (H i). rewrite d_peer_eq. unfold relo in H. destruct (find_l d i) as [l|]; [apply H, Hm|]. destruct H as [_ H]. rewrite (H mac Hm). exact Logic.I.
Qed.
Lemma find_l_in d i l : find_l d i = Some l -> In l d /\ dl_index l = i.
Proof. induction d as [|x d IH]; cbn [find_l]; [discriminate|]. destruct (N.eqb_spec (dl_index x) i) as [E|E]; [intros [= <-]; cbn [In]; auto|]. intros H. destruct (IH H). cbn [In]. auto. Qed.
Lemma find_l_none d i : find_l d i = None <-> ~ In i (map dl_index d).
Proof. induction d as [|x d IH]; cbn [find_l map In]; [tauto|]. destruct (N.eqb_spec (dl_index x) i) as [E|E]; [split; [discriminate|tauto]|]. rewrite IH. tauto. Qed.
Lemma find_l_put d l j : find_l (put_l l d) j = if dl_index l =? j then option_map (fun _ => l) (find_l d j) else find_l d j.
Proof.
  induction d as [|x d IH]; [destruct (_ =? j); reflexivity|]. unfold put_l. cbn [map]. fold (put_l l d). cbn [find_l]. destruct (N.eqb_spec (dl_index x) (dl_index l)) as [E|E]; rewrite IH.
  - rewrite E. destruct (dl_index l =? j); reflexivity.
  - destruct (N.eqb_spec (dl_index l) j) as [F|F]; [|reflexivity]. subst j. destruct (N.eqb_spec (dl_index x) (dl_index l)); [congruence|]. reflexivity.
Qed.
Lemma put_l_index l d : map dl_index (put_l l d) = map dl_index d.
Proof. induction d as [|x d IH]; [reflexivity|]. unfold put_l in *. cbn [map]. rewrite IH. f_equal. destruct (N.eqb_spec (dl_index x) (dl_index l)); congruence. Qed.
Lemma put_l_ok s l d : okl s l -> Forall (okl s) d -> Forall (okl s) (put_l l d).
Proof. intros H. induction 1 as [|x d Hx _ IH]; [constructor|]. unfold put_l in *. cbn [map]. constructor; [|exact IH]. destruct (_ =? _); assumption. Qed.
Lemma find_l_app d l j : find_l (d ++ [l]) j = match find_l d j with Some x => Some x | None => if dl_index l =? j then Some l else None end.
Proof. induction d as [|x d IH]; cbn [app find_l]; [reflexivity|]. rewrite IH. destruct (dl_index x =? j); reflexivity. Qed.
Lemma find_l_filter d i j : find_l (filter (fun x => negb (dl_index x =? i)) d) j = if i =? j then None else find_l d j.
Proof.
  induction d as [|x d IH]; cbn [filter find_l]; [destruct (i =? j); reflexivity|]. destruct (N.eqb_spec (dl_index x) i) as [E|E]; cbn [negb find_l]; rewrite IH.
  - rewrite E. destruct (i =? j); reflexivity.
  - destruct (N.eqb_spec i j) as [F|F]; [|reflexivity]. subst j. destruct (N.eqb_spec (dl_index x) i); [congruence|]. reflexivity.
Qed.
Lemma filter_index i d : NoDup (map dl_index d) -> NoDup (map dl_index (filter (fun x => negb (dl_index x =? i)) d)).
Proof.
  induction d as [|x d IH]; cbn [filter map]; intros H; [constructor|]. inversion H; subst. destruct (negb _); [|auto]. cbn [map]. constructor; [|auto].
  intros X. apply in_map_iff in X. destruct X as (q & E & Hq). apply filter_In in Hq. destruct Hq as (Hq & _). apply H2. rewrite <- E. now apply in_map.
Qed.
Lemma okl_weak s l : okl s l -> okl false l.
Proof. intros (K1 & K2 & K3 & K4 & K5). split; [exact K1|]. split; [exact K2|]. split; [exact K3|]. split; [exact K4|]. discriminate. Qed.
Lemma rel_weak m s a o f l : rel m s a o f l -> rel m false a o f l.
Proof. intros [A B]. split; [|exact B]. destruct o as [v|]; [|exact A]. destruct A as (S1 & S2 & S3 & S4 & S5 & S6). repeat split; try assumption. discriminate. Qed.
(** What a step says: it is about one link, it fits, and it is what happened. *)
Definition stalk (m s a : bool) (d : daemon) (i : N) (r : daemon * list signal) : Prop :=
  okd s (fst r) /\ (forall j, j <> i -> find_l (fst r) j = find_l d j)
  /\ exists ss, Forall sane ss /\ snd r = map (enc i) ss
    /\ forall o f, relo m s a o f (find_l d i) -> fits ss o f /\ relo m s a (says_l ss o) (fun mac => says_p ss o mac (f mac)) (find_l (fst r) i).
Lemma stalk_refl m s a d i : okd s d -> stalk m s a d i (d, []).
Proof.
  intros H. split; [exact H|]. split; [reflexivity|]. exists []. split; [constructor|]. split; [reflexivity|]. intros o f Ho. split; [split; [exact Logic.I|intros; exact Logic.I]|]. exact Ho.
Qed.
Lemma stalk_link m s a d l r : okd s d -> find_l d (dl_index l) = Some l -> ltalk m s a l r -> stalk m s a d (dl_index l) (put_l (fst r) d, snd r).
Proof.
  intros [K N] E (I & K' & ss & S & Es & T). split; [split; cbn [fst]; [apply put_l_ok; assumption|rewrite put_l_index; exact N]|].
  split; [intros j Hj; cbn [fst]; rewrite find_l_put, I; destruct (N.eqb_spec (dl_index l) j); congruence|]. exists ss. split; [exact S|]. split; [exact Es|].
  cbn [fst]. rewrite E, find_l_put, I, N.eqb_refl, E. exact T.
Qed.
Lemma step_talk m s a d o : okd s d -> good_op o -> calm m s a d o -> stalk m s a d (index_of o) (step d o).
Proof.
  intros K G C. unfold calm in C.
  assert (Main : forall l, find_l d (index_of o) = Some l -> stalk m s a d (index_of o) (let '(l, s) := do_link l o in (put_l l d, s))).
  { intros l E. rewrite E in C. destruct (find_l_in d _ l E) as (Hin & Hi).
    assert (T : ltalk m s a l (do_link l o)).
    { apply do_link_talk; [|exact G|exact C]. destruct K as [K _]. rewrite Forall_forall in K. auto. }
    rewrite <- Hi in *. pose proof (stalk_link m s a d l (do_link l o) K E T) as X. destruct (do_link l o) as [l' t]. exact X. }
  unfold step. destruct (find_l d (index_of o)) as [l|] eqn:E.
  - destruct o; try (exact (Main l eq_refl)). clear Main. cbn [index_of] in *. destruct (find_l_in d _ l E) as (Hin & Hi).
    assert (Kl : okl false l) by (destruct K as [K _]; rewrite Forall_forall in K; eapply okl_weak; eauto).
    assert (T : exists ss, Forall sane ss /\ (if dl_managed l then snd (stopped l) else []) = map (enc i) ss /\ forall o f, rel m s a o f l -> fits ss o f /\ forall mac, is_canon mac -> says_p ss o mac (f mac) = None).
    { destruct (dl_managed l) eqn:M.
      - destruct (stopped_talk m false a l Kl) as (_ & _ & ss & S & Es & T); [discriminate|]. rewrite Hi in Es. exists ss. split; [exact S|]. split; [exact Es|].
        intros o f H. apply rel_weak in H. destruct (T o f H) as (T1 & T2). split; [exact T1|]. intros mac Hm. destruct T2 as (_ & T2). specialize (T2 mac Hm). unfold stopped in T2. cbn [fst with_peers dl_peers find_p pvo] in T2. destruct (says_p ss o mac (f mac)); [contradiction|reflexivity].
      - exists []. split; [constructor|]. split; [reflexivity|]. intros o f [_ H]. split; [split; [exact Logic.I|intros; exact Logic.I]|]. intros mac Hm. specialize (H mac Hm). cbn [says_p].
        destruct Kl as (_ & Kl & _). rewrite (proj2 (Kl M)) in H. destruct (f mac); [contradiction|reflexivity]. }
    destruct T as (ss & S & Es & T). split; [|split].
    + cbn [fst]. destruct K as [K N]. split; [|apply filter_index, N]. rewrite Forall_forall in *. intros x Hx. apply filter_In in Hx. apply K, Hx.
    + intros j Hj. cbn [fst]. rewrite find_l_filter. destruct (N.eqb_spec i j); congruence.
    + exists (ss ++ [OfLink WDel]). split; [apply Forall_app; split; [exact S|repeat constructor]|]. split; [cbn [snd]; rewrite map_app, Es; reflexivity|].
      intros o f H. rewrite E in H. cbn [relo] in H. destruct (T o f H) as ((T1 & T2) & T3). split.
      * split; [apply fits_l_app; split; [exact T1|cbn; auto]|]. intros mac Hm. apply fits_p_app. split; [auto|]. cbn. auto.
      * cbn [fst]. rewrite find_l_filter, N.eqb_refl. cbn [relo]. split; [rewrite says_l_app; reflexivity|]. intros mac Hm. rewrite says_p_app. reflexivity.
  - destruct o; try (apply stalk_refl, K). clear Main. cbn [index_of] in *. destruct (N.eqb_spec i 0) as [Z|Z]; [apply stalk_refl, K|].
    set (l := mkDLink i ifname None None false false false false []). destruct K as [K N]. split; [|split].
    + cbn [fst]. split; [apply Forall_app; split; [exact K|]|].
      * constructor; [|constructor]. split; [exact Z|]. split; [auto|]. split; [constructor|]. split; [constructor|]. discriminate.
      * rewrite map_app. cbn [map l dl_index]. apply find_l_none in E. apply NoDup_Add with (a := i) (l := map dl_index d); [|split; assumption].
        rewrite <- (app_nil_r (map dl_index d)) at 1. apply Add_app.
    + intros j Hj. cbn [fst]. rewrite find_l_app. cbn [l dl_index]. destruct (find_l d j); [reflexivity|]. destruct (N.eqb_spec i j); congruence.
    + exists [OfLink (WAdd (link_props l))]. split; [repeat constructor|]. split; [reflexivity|]. rewrite E. intros o f [H1 H2]. rewrite H1. split; [split; [cbn; auto|cbn; auto]|].
      cbn [fst]. rewrite find_l_app, E. cbn [l dl_index]. rewrite N.eqb_refl. cbn [relo]. split.
      * cbn [says_l say_l word_l]. unfold vprops, link_props. cbn [fold_left vprop dl_index l]. destruct (N.eqb_spec i 0); [congruence|]. repeat split; reflexivity.
      * intros mac Hm. cbn [says_p say_p]. rewrite (H2 mac Hm). exact Logic.I.
Qed.
Lemma right_step m s a d o c : okd s d -> good_op o -> calm m s a d o -> right m s a c d -> right m s a (fst (hear_all c (snd (step d o)))) (fst (step d o)).
Proof.
  intros K G C R. destruct (step_talk m s a d o K G C) as (K' & E & ss & S & Es & T). rewrite Es. rewrite right_at in *. intros j.
  destruct (N.eq_dec j (index_of o)) as [->|Hj].
  - destruct (all_at (index_of o) ss c S) as (A & B). destruct (T _ _ (R (index_of o))) as (_ & H). rewrite A. unfold relo, rel in *. destruct (find_l (fst (step d o)) (index_of o)) as [l|].
    + split; [apply H|]. intros mac Hm. rewrite (B mac Hm). apply H, Hm.
    + split; [apply H|]. intros mac Hm. rewrite (B mac Hm). apply H, Hm.
  - destruct (all_else (index_of o) ss j Hj c S) as (A & B). rewrite A, (E j Hj). specialize (R j). unfold relo, rel in *. destruct (find_l d j) as [l|].
    + split; [apply R|]. intros mac Hm. rewrite (B mac Hm). apply R, Hm.
    + split; [apply R|]. intros mac Hm. rewrite (B mac Hm). apply R, Hm.
Qed.
Lemma okd_step m s a d o : okd s d -> good_op o -> calm m s a d o -> okd s (fst (step d o)).
Proof. intros K G C. apply (step_talk m s a d o K G C). Qed.
Lemma run_cons d o os : run d (o :: os) = (fst (run (fst (step d o)) os), snd (step d o) ++ snd (run (fst (step d o)) os)).
Proof. cbn [run]. destruct (step d o) as [d1 s1]. cbn [fst snd]. destruct (run d1 os). reflexivity. Qed.
Lemma right_run m s a os : forall d c, okd s d -> calm_all m s a d os -> right m s a c d -> right m s a (fst (hear_all c (snd (run d os)))) (fst (run d os)).
Proof.
  induction os as [|o os IH]; intros d c K C R; [exact R|]. destruct C as (G & C & C'). rewrite run_cons. cbn [fst snd]. rewrite hear_all_app.
  apply IH; [eapply okd_step; eassumption|exact C'|]. apply right_step; assumption.
Qed.
Lemma okd_run m s a os : forall d, okd s d -> calm_all m s a d os -> okd s (fst (run d os)).
Proof.
  induction os as [|o os IH]; intros d K C; [exact K|]. destruct C as (G & C & C'). rewrite run_cons. cbn [fst]. apply IH; [eapply okd_step; eassumption|exact C'].
Qed.
Lemma okd_nil s : okd s [].
Proof. split; constructor. Qed.
Lemma right_nil m s a : right m s a [] [].
Proof. apply right_at. intros i. cbn [find_l relo]. unfold c_link, link_label. rewrite find_link_nil. split; [reflexivity|]. intros mac Hm. apply c_peer_none; [exact Hm|]. unfold c_link, link_label. rewrite find_link_nil. reflexivity. Qed.
