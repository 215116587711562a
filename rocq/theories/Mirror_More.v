(** Asking for all objects, and signals that come from before the answer. *)
From Coq Require Import String Permutation.
From Verif Require Import Base Text Comm_Spec Mirror_Model Mirror_Spec Mirror_Client Mirror_Proofs.
Local Open Scope list_scope.

(** ** All objects *)
Lemma in_objects d p ps : In (p, ps) (objects d) <->
  (exists l, In l d /\ p = LinkPath (dec (dl_index l)) /\ ps = link_props l)
  \/ (exists l q, In l d /\ In q (dl_peers l) /\ dp_public q = true /\ p = PeerPath (peer_label (dl_index l) (dp_mac q)) /\ ps = peer_props q)
  \/ (p = OtherPath /\ ps = []).
Proof.
  unfold objects. rewrite in_app_iff, in_flat_map. cbn [In]. split.
  - intros [(l & Hl & [E|H])|[E|[]]].
    + injection E as <- <-. left. eauto.
    + apply in_flat_map in H. destruct H as (q & Hq & H). destruct (dp_public q) eqn:P; [|contradiction]. destruct H as [E|[]]. injection E as <- <-. right. left. eauto 10.
    + injection E as <- <-. auto.
  - intros [(l & Hl & -> & ->)|[(l & q & Hl & Hq & P & -> & ->)|(-> & ->)]].
    + left. exists l. cbn [In]. auto.
    + left. exists l. split; [exact Hl|]. right. apply in_flat_map. exists q. rewrite P. cbn [In]. auto.
    + auto.
Qed.
Lemma find_l_of d l : NoDup (map dl_index d) -> In l d -> find_l d (dl_index l) = Some l.
Proof.
  induction d as [|x d IH]; intros N; [intros []|]. inversion N; subst. cbn [find_l]. intros [->|H]; [rewrite N.eqb_refl; reflexivity|].
  destruct (N.eqb_spec (dl_index x) (dl_index l)) as [E|E]; [|auto]. exfalso. apply H1. rewrite E. now apply in_map.
Qed.
Lemma find_p_of ps p : NoDup (map dp_mac ps) -> In p ps -> find_p ps (dp_mac p) = Some p.
Proof.
  induction ps as [|x ps IH]; intros N; [intros []|]. inversion N; subst. cbn [find_p]. intros [->|H]; [rewrite eq_text_refl; reflexivity|].
  destruct (eq_text (dp_mac x) (dp_mac p)) eqn:E; [|auto]. apply eq_text_spec in E. exfalso. apply H1. rewrite E. now apply in_map.
Qed.
Lemma plabel_inj i mac j mac' : is_canon mac -> is_canon mac' -> peer_label i mac = peer_label j mac' -> i = j /\ mac = mac'.
Proof.
  intros H H' E. assert (B := break_plabel i mac H). assert (B' := break_plabel j mac' H'). rewrite E, B' in B. injection B as -> B. split; [|reflexivity]. symmetry. now apply dec_inj.
Qed.
Lemma link_view l : dl_index l <> 0 -> vprops (link_props l) blank_l = lv l.
Proof. intros H. unfold vprops, link_props. cbn [fold_left vprop]. destruct (N.eqb_spec (dl_index l) 0); [congruence|]. reflexivity. Qed.
Record partly (d : daemon) (ps : list path) (c : client) : Prop := {
  pa_l : forall i l, find_l d i = Some l -> In (LinkPath (dec i)) ps -> c_link c i = Some (lv l);
  pa_ln : forall i, ~ In (LinkPath (dec i)) ps -> c_link c i = None;
  pa_p : forall i l mac q, is_canon mac -> find_l d i = Some l -> find_p (dl_peers l) mac = Some q -> In (PeerPath (peer_label i mac)) ps -> c_peer c i mac = pv q;
  pa_pn : forall i mac, is_canon mac -> ~ In (PeerPath (peer_label i mac)) ps -> c_peer c i mac = None }.
Lemma fetch_cons c p ps os : fetch c ((p, ps) :: os) = if snd (add_object c p ps) then fetch (said c (Added p ps)) os else None.
Proof. cbn [fetch]. unfold said. cbn [hear]. destruct (add_object c p ps) as [[c' n] ok]. reflexivity. Qed.
Lemma fetch_partly d : okd false d -> forall os pre c,
  (forall x, In x os -> In x (objects d)) -> (forall y x z i mac, os = y ++ (PeerPath (peer_label i mac), x) :: z -> is_canon mac -> In (LinkPath (dec i)) (pre ++ map fst y)) ->
  partly d pre c -> exists c', fetch c os = Some c' /\ partly d (pre ++ map fst os) c'.
Proof.
  intros [K N]. induction os as [|[p ps] os IH]; intros pre c Hin Hfirst P.
  - exists c. cbn [map]. rewrite app_nil_r. split; [reflexivity|exact P].
  - rewrite fetch_cons. cbn [map fst]. replace (pre ++ p :: map fst os) with ((pre ++ [p]) ++ map fst os) by (rewrite <- app_assoc; reflexivity).
    assert (Hin' : forall x, In x os -> In x (objects d)) by (intros x Hx; apply Hin; right; exact Hx).
    assert (Hf' : forall y x z i mac, os = y ++ (PeerPath (peer_label i mac), x) :: z -> is_canon mac -> In (LinkPath (dec i)) ((pre ++ [p]) ++ map fst y)).
    { intros y x z i mac E Hm. specialize (Hfirst ((p, ps) :: y) x z i mac). cbn [app map fst] in Hfirst. rewrite <- app_assoc. apply Hfirst; [rewrite E; reflexivity|exact Hm]. }
    assert (O := Hin (p, ps) (or_introl eq_refl)). apply in_objects in O. destruct O as [(l & Hl & -> & ->)|[(l & q & Hl & Hq & Pq & -> & ->)|(-> & ->)]].
    + assert (Kl : okl false l) by (rewrite Forall_forall in K; auto). assert (F := find_l_of d l N Hl). set (i := dl_index l) in *.
      assert (Eok : snd (add_object c (LinkPath (dec i)) (link_props l)) = true) by (cbn [add_object]; destruct (find_link c (dec i)); reflexivity). rewrite Eok.
      apply IH; [exact Hin'|exact Hf'|]. destruct P as [P1 P2 P3 P4].
      destruct (said_at c i (OfLink (WAdd (link_props l))) Logic.I) as (A & B & _). pose proof (said_else c i (OfLink (WAdd (link_props l)))) as C. cbn [enc say_l word_l say_p] in *. unfold link_label in *.
      assert (A' : c_link (said c (Added (LinkPath (dec i)) (link_props l))) i = Some (lv l)).
      { rewrite A. destruct (in_dec (list_eq_dec N.eq_dec) (dec i) (flat_map (fun p => match p with LinkPath t => [t] | _ => [] end) pre)) as [W|W].
        - apply in_flat_map in W. destruct W as ([t|t|] & W1 & W2); try contradiction. destruct W2 as [->|[]]. rewrite (P1 i l F W1). reflexivity.
        - rewrite P2; [rewrite link_view; [reflexivity|apply Kl]|]. intros W'. apply W. apply in_flat_map. exists (LinkPath (dec i)). cbn [In]. auto. }
      assert (Pe : forall j mac, is_canon mac -> c_peer (said c (Added (LinkPath (dec i)) (link_props l))) j mac = c_peer c j mac).
      { intros j mac Hm. destruct (N.eq_dec j i) as [->|Hj]; [apply B, Hm|]. apply (C j Logic.I Hj), Hm. }
      constructor.
      * intros j l' F' I. destruct (N.eq_dec j i) as [->|Hj]; [congruence|]. rewrite (proj1 (C j Logic.I Hj)). apply P1; [exact F'|]. apply in_app_iff in I. destruct I as [I|[I|[]]]; [exact I|]. injection I as I. apply dec_inj in I. congruence.
      * intros j I. rewrite in_app_iff in I. cbn [In] in I. destruct (N.eq_dec j i) as [->|Hj]; [exfalso; apply I; auto|]. rewrite (proj1 (C j Logic.I Hj)). apply P2. tauto.
      * intros j l' mac q Hm F' Q I. rewrite Pe by exact Hm. apply (P3 j l' mac q Hm F' Q). apply in_app_iff in I. destruct I as [I|[I|[]]]; [exact I|discriminate].
      * intros j mac Hm I. rewrite Pe by exact Hm. apply P4; [exact Hm|]. rewrite in_app_iff in I. tauto.
    + assert (Kl : okl false l) by (rewrite Forall_forall in K; auto). assert (F := find_l_of d l N Hl). set (i := dl_index l) in *. set (m := dp_mac q) in *.
      assert (Kq : okp q) by (destruct Kl as (_ & _ & Kl & _); rewrite Forall_forall in Kl; auto). assert (Fq : find_p (dl_peers l) m = Some q) by (apply find_p_of; [apply Kl|exact Hq]).
      assert (Hm : is_canon m) by apply Kq. destruct P as [P1 P2 P3 P4].
      assert (L : c_link c i = Some (lv l)). { apply P1; [exact F|]. specialize (Hfirst [] (peer_props q) os i m eq_refl Hm). cbn [map] in Hfirst. rewrite app_nil_r in Hfirst. exact Hfirst. }
      assert (Eok : snd (add_object c (PeerPath (peer_label i m)) (peer_props q)) = true).
      { cbn [add_object]. rewrite find_peer_plabel, link_of_plabel by exact Hm. unfold c_link, link_label in L. destruct (find_link c (dec i)) as [x|]; [|discriminate]. destruct (link_peer (cl_peers x) (peer_label i m)); [reflexivity|]. destruct (peer_parse _ _). reflexivity. }
      rewrite Eok. apply IH; [exact Hin'|exact Hf'|].
      destruct (said_at c i (OfPeer m (WAdd (peer_props q))) Hm) as (A & B & _). pose proof (said_else c i (OfPeer m (WAdd (peer_props q)))) as C. cbn [enc say_l word_l say_p word_p sane] in *.
      assert (Li : forall j, c_link (said c (Added (PeerPath (peer_label i m)) (peer_props q))) j = c_link c j).
      { intros j. destruct (N.eq_dec j i) as [->|Hj]; [exact A|]. apply (C j Hm Hj). }
      assert (Pe : forall j mac, is_canon mac -> (j, mac) <> (i, m) -> c_peer (said c (Added (PeerPath (peer_label i m)) (peer_props q))) j mac = c_peer c j mac).
      { intros j mac Hmac D. destruct (N.eq_dec j i) as [->|Hj]; [|apply (C j Hm Hj), Hmac]. rewrite (B mac Hmac). destruct (eq_text m mac) eqn:E; [apply eq_text_spec in E; congruence|reflexivity]. }
      assert (Pm : c_peer (said c (Added (PeerPath (peer_label i m)) (peer_props q))) i m = pv q).
      { rewrite (B m Hm), eq_text_refl, L. destruct (in_dec (list_eq_dec N.eq_dec) (peer_label i m) (flat_map (fun p => match p with PeerPath t => [t] | _ => [] end) pre)) as [W|W].
        - apply in_flat_map in W. destruct W as ([t|t|] & W1 & W2); try contradiction. destruct W2 as [->|[]]. rewrite (P3 i l m q Hm F Fq W1). unfold pv. rewrite Pq. reflexivity.
        - rewrite P4; [symmetry; apply peer_props_view, Pq|exact Hm|]. intros W'. apply W. apply in_flat_map. exists (PeerPath (peer_label i m)). cbn [In]. auto. }
      constructor.
      * intros j l' F' I. rewrite Li. apply P1; [exact F'|]. apply in_app_iff in I. destruct I as [I|[I|[]]]; [exact I|discriminate].
      * intros j I. rewrite Li. apply P2. rewrite in_app_iff in I. tauto.
      * intros j l' mac q' Hmac F' Q I. destruct (N.eq_dec j i) as [->|Hj].
        -- destruct (list_eq_dec N.eq_dec mac m) as [->|Hmm]; [congruence|]. rewrite Pe; [|exact Hmac|congruence]. apply (P3 i l' mac q' Hmac F' Q). apply in_app_iff in I. destruct I as [I|[I|[]]]; [exact I|].
           injection I as I. apply plabel_inj in I; [|assumption..]. destruct I. congruence.
        -- rewrite Pe; [|exact Hmac|congruence]. apply (P3 j l' mac q' Hmac F' Q). apply in_app_iff in I. destruct I as [I|[I|[]]]; [exact I|]. injection I as I. apply plabel_inj in I; [|assumption..]. destruct I. congruence.
      * intros j mac Hmac I. rewrite in_app_iff in I. cbn [In] in I. rewrite Pe; [apply P4; tauto|exact Hmac|]. intros E. injection E as -> ->. apply I. auto.
    + cbn [add_object snd]. apply IH; [exact Hin'|exact Hf'|]. change (said c (Added OtherPath [])) with c. destruct P as [P1 P2 P3 P4]. constructor.
      * intros j l' F' I. apply P1; [exact F'|]. apply in_app_iff in I. destruct I as [I|[I|[]]]; [exact I|discriminate].
      * intros j I. apply P2. rewrite in_app_iff in I. tauto.
      * intros j l' mac q' Hmac F' Q I. apply (P3 j l' mac q' Hmac F' Q). apply in_app_iff in I. destruct I as [I|[I|[]]]; [exact I|discriminate].
      * intros j mac Hmac I. apply P4; [exact Hmac|]. rewrite in_app_iff in I. tauto.
Qed.
Lemma partly_nil d : partly d [] [].
Proof.
  assert (E : forall i, c_link [] i = None) by (intros i; unfold c_link, link_label; rewrite find_link_nil; reflexivity).
  constructor; [intros i l _ []|auto|intros i l mac q _ _ _ []|]. intros i mac Hm _. apply c_peer_none; auto.
Qed.
Lemma same_link_refl m s v : same_link m s v v.
Proof. repeat split; reflexivity. Qed.
Lemma same_peer_refl a v : same_peer a v v.
Proof. repeat split; reflexivity. Qed.
Lemma fetch_right d os : okd false d -> Permutation os (objects d) -> links_first os -> exists c, fetch [] os = Some c /\ right true true true c d.
Proof.
  intros K HP HF. destruct (fetch_partly d K os [] []) as (c & Ec & P).
  - intros x Hx. eapply Permutation_in; eassumption.
  - exact HF.
  - apply partly_nil.
  - exists c. split; [exact Ec|]. cbn [app] in P. destruct P as [P1 P2 P3 P4]. destruct K as [K N].
    assert (I : forall p ps, In (p, ps) (objects d) -> In p (map fst os)).
    { intros p ps H. apply in_map_iff. exists (p, ps). split; [reflexivity|]. eapply Permutation_in; [symmetry; exact HP|exact H]. }
    assert (J : forall p, In p (map fst os) -> exists ps, In (p, ps) (objects d)).
    { intros p H. apply in_map_iff in H. destruct H as ([p' ps] & <- & H). exists ps. eapply Permutation_in; [exact HP|exact H]. }
    apply right_at. intros i. unfold relo. destruct (find_l d i) as [l|] eqn:F.
    + destruct (find_l_in d i l F) as (Hl & Hi). assert (Kl : okl false l) by (rewrite Forall_forall in K; auto). split.
      * rewrite (P1 i l F); [apply same_link_refl|]. apply (I _ (link_props l)). apply in_objects. left. exists l. rewrite Hi. auto.
      * intros mac Hm. destruct (find_p (dl_peers l) mac) as [q|] eqn:Q; cbn [pvo].
        -- destruct (find_p_in _ _ _ Q) as (Hq & Hmac). destruct (dp_public q) eqn:Pq.
           ++ rewrite (P3 i l mac q Hm F Q); [unfold pv; rewrite Pq; apply same_peer_refl|]. apply (I _ (peer_props q)). apply in_objects. right. left. exists l, q. rewrite Hi, Hmac. auto.
           ++ rewrite P4; [unfold pv; rewrite Pq; exact Logic.I|exact Hm|]. intros X. apply J in X. destruct X as (ps & X). apply in_objects in X. destruct X as [(l' & _ & X & _)|[(l' & q' & Hl' & Hq' & Pq' & X & _)|(X & _)]]; try discriminate.
              injection X as X. assert (Kl' : okl false l') by (rewrite Forall_forall in K; auto). assert (Kq' : okp q') by (destruct Kl' as (_ & _ & Kl' & _); rewrite Forall_forall in Kl'; auto).
              apply plabel_inj in X; [|exact Hm|apply Kq']. destruct X as (X1 & X2). assert (F' := find_l_of d l' N Hl'). rewrite <- X1, F in F'. injection F' as <-.
              assert (Q' := find_p_of (dl_peers l) q' (proj1 (proj2 (proj2 (proj2 Kl)))) Hq'). rewrite <- X2, Q in Q'. injection Q' as <-. congruence.
        -- rewrite P4; [exact Logic.I|exact Hm|]. intros X. apply J in X. destruct X as (ps & X). apply in_objects in X. destruct X as [(l' & _ & X & _)|[(l' & q' & Hl' & Hq' & Pq' & X & _)|(X & _)]]; try discriminate.
           injection X as X. assert (Kl' : okl false l') by (rewrite Forall_forall in K; auto). assert (Kq' : okp q') by (destruct Kl' as (_ & _ & Kl' & _); rewrite Forall_forall in Kl'; auto).
           apply plabel_inj in X; [|exact Hm|apply Kq']. destruct X as (X1 & X2). assert (F' := find_l_of d l' N Hl'). rewrite <- X1, F in F'. injection F' as <-.
           assert (Q' := find_p_of (dl_peers l) q' (proj1 (proj2 (proj2 (proj2 Kl)))) Hq'). rewrite <- X2, Q in Q'. discriminate.
    + assert (L : c_link c i = None).
      { apply P2. intros X. apply J in X. destruct X as (ps & X). apply in_objects in X. destruct X as [(l' & Hl' & X & _)|[(l' & q' & _ & _ & _ & X & _)|(X & _)]]; try discriminate.
        injection X as X. apply dec_inj in X. rewrite X, (find_l_of d l' N Hl') in F. discriminate. }
      split; [exact L|]. intros mac Hm. apply c_peer_none; assumption.
Qed.
Lemma app_split {A} (x : A) a : forall b y z, a ++ b = y ++ x :: z -> (exists t, a = y ++ x :: t) \/ (exists t, y = a ++ t /\ b = t ++ x :: z).
Proof.
  induction a as [|w a IH]; intros b y z E; [right; exists y; auto|]. destruct y as [|v y]; cbn [app] in E; injection E as -> E.
  - left. exists a. reflexivity.
  - destruct (IH b y z E) as [(t & ->)|(t & -> & ->)]; [left; exists t; reflexivity|right; exists t; auto].
Qed.
Lemma links_first_app a b : links_first a -> links_first b -> links_first (a ++ b).
Proof.
  intros Ha Hb y x z i mac E Hm. destruct (app_split _ a b y z E) as [(t & ->)|(t & -> & ->)]; [exact (Ha y x t i mac eq_refl Hm)|].
  rewrite map_app. apply in_app_iff. right. exact (Hb t x z i mac eq_refl Hm).
Qed.
Lemma objects_first d : okd false d -> links_first (objects d).
Proof.
  intros [K _]. unfold objects. apply links_first_app.
  - induction K as [|l d Kl _ IH]; cbn [flat_map]; [intros [|? y] x z i mac E; discriminate|]. apply links_first_app; [|exact IH].
    intros y x z i mac E Hm. destruct y as [|w y]; cbn [app] in E; [discriminate|]. injection E as <- E. cbn [map fst In]. left. unfold link_label.
    assert (H : In (PeerPath (peer_label i mac), x) (y ++ (PeerPath (peer_label i mac), x) :: z)) by (apply in_app_iff; right; left; reflexivity). rewrite <- E in H.
    apply in_flat_map in H. destruct H as (q & Hq & H). destruct (dp_public q); [|contradiction]. destruct H as [H|[]]. injection H as H _.
    assert (Kq : okp q) by (destruct Kl as (_ & _ & Kl & _); rewrite Forall_forall in Kl; auto). apply plabel_inj in H; [|apply Kq|exact Hm]. destruct H as (-> & _). reflexivity.
  - intros [|w [|w' y]] x z i mac E; discriminate.
Qed.

(** ** Signals from before the answer *)
(** [E]: what two views agree in. *)
Section Race.
Context {V : Type} (E : list (V -> V -> Prop)).
Definition near (x i : V) (fin : option V) : Prop := Forall (fun e => e x i \/ exists v, fin = Some v /\ e x v) E.
Definition race (x i fin : option V) : Prop :=
  match x, i with
  | None, None => True
  | None, Some _ => fin = None
  | Some x, None => exists v, fin = Some v /\ Forall (fun e => e x v) E
  | Some x, Some i => near x i fin
  end.
Definition equiv (e : V -> V -> Prop) : Prop := (forall x, e x x) /\ (forall x y, e x y -> e y x) /\ (forall x y z, e x y -> e y z -> e x z).
(** Setting [ps]: each aspect is overwritten or left alone. *)
Definition setting (f : V -> V) : Prop := Forall (fun e : V -> V -> Prop => (forall x y, e (f x) (f y)) \/ forall x, e (f x) x) E.
Lemma near_set f x i fin : Forall equiv E -> setting f -> near x i fin -> near (f x) (f i) fin.
Proof.
  unfold setting, near. rewrite !Forall_forall. intros HE HS H e He. destruct (HE e He) as (Hr & Hs & Ht). destruct (HS e He) as [O|U]; [left; apply O|].
  destruct (H e He) as [A|(v & -> & A)]; [left|right; exists v; split; [reflexivity|]]; eauto.
Qed.
Lemma race_end x i fin : Forall equiv E -> race x i fin -> both (fun a b => Forall (fun e => e a b) E) i fin -> both (fun a b => Forall (fun e => e a b) E) x fin.
Proof.
  intros HE R B. destruct x as [x|], i as [i|], fin as [v|]; cbn [race both] in *; try exact Logic.I; try discriminate; try contradiction.
  - unfold near in R. rewrite Forall_forall in R, HE, B |- *. intros e He. destruct (HE e He) as (Hr & Hs & Ht). destruct (R e He) as [A|(w & Ew & A)]; [exact (Ht _ _ _ A (B e He))|]. injection Ew as ->. exact A.
  - destruct R as (v & Ev & _). discriminate.
Qed.
Lemma race_start x i fin : both (fun a b => Forall (fun e => e a b) E) x fin -> race x i fin.
Proof.
  destruct x as [x|], fin as [v|]; cbn [both race]; intros H; try contradiction; destruct i as [i|]; auto.
  - unfold near. rewrite Forall_forall in *. intros e He. right. exists v. split; [reflexivity|exact (H e He)].
  - exists v. auto.
Qed.
End Race.
Definition on {V T} (f : V -> T) (b : bool) (v w : V) : Prop := b = true -> f v = f w.
Lemma on_equiv {V T} (f : V -> T) b : equiv (on f b).
Proof. unfold on. split; [auto|]. split; intros; [symmetry; auto|]. rewrite H, H0; auto. Qed.
Definition el (m s : bool) : list (lview -> lview -> Prop) := [on v_index true; on v_ifname true; on v_name true; on v_wfd true; on v_managed m; on v_scan s].
Definition ep (a : bool) : list (pview -> pview -> Prop) := [on w_mac true; on w_name true; on w_conn true; on w_wfd true; on w_iface a; on w_local a; on w_remote a].
Lemma el_equiv m s : Forall equiv (el m s).
Proof. repeat (apply Forall_cons; [apply on_equiv|]). apply Forall_nil. Qed.
Lemma ep_equiv a : Forall equiv (ep a).
Proof. repeat (apply Forall_cons; [apply on_equiv|]). apply Forall_nil. Qed.
Lemma el_same m s v w : Forall (fun e => e v w) (el m s) <-> same_link m s v w.
Proof.
  unfold el, on, same_link. split.
  - intros H. inversion H as [|? ? A1 B1]; subst; clear H. inversion B1 as [|? ? A2 B2]; subst; clear B1. inversion B2 as [|? ? A3 B3]; subst; clear B2. inversion B3 as [|? ? A4 B4]; subst; clear B3.
    inversion B4 as [|? ? A5 B5]; subst; clear B4. inversion B5 as [|? ? A6 _]; subst; clear B5. auto 10.
  - intros (A1 & A2 & A3 & A4 & A5 & A6). repeat (apply Forall_cons; [auto|]). apply Forall_nil.
Qed.
Lemma ep_same a v w : Forall (fun e => e v w) (ep a) <-> same_peer a v w.
Proof.
  unfold ep, on, same_peer. split.
  - intros H. inversion H as [|? ? A1 B1]; subst; clear H. inversion B1 as [|? ? A2 B2]; subst; clear B1. inversion B2 as [|? ? A3 B3]; subst; clear B2. inversion B3 as [|? ? A4 B4]; subst; clear B3.
    inversion B4 as [|? ? A5 B5]; subst; clear B4. inversion B5 as [|? ? A6 B6]; subst; clear B5. inversion B6 as [|? ? A7 _]; subst; clear B6. auto 10.
  - intros (A1 & A2 & A3 & A4 & A5). repeat (apply Forall_cons; [auto; intros H; apply A5, H|]). apply Forall_nil.
Qed.
Lemma setting_id {V} (E : list (V -> V -> Prop)) : Forall equiv E -> setting E (fun x => x).
Proof. unfold setting. rewrite !Forall_forall. intros H e He. right. apply (H e He). Qed.
Lemma setting_comp {V} (E : list (V -> V -> Prop)) f g : Forall equiv E -> setting E f -> setting E g -> setting E (fun x => g (f x)).
Proof.
  unfold setting. rewrite !Forall_forall. intros H F G e He. destruct (H e He) as (Hr & Hs & Ht). destruct (G e He) as [O|U]; [left; auto|]. destruct (F e He) as [O|U']; [left|right]; eauto.
Qed.
Ltac overwritten := cbv beta; unfold on; first [right; intros x _; reflexivity|left; intros x y _; reflexivity].
Lemma vprop_setting m s p : setting (el m s) (fun v => vprop v p).
Proof.
  destruct p; unfold setting, el; try (match goal with n : N |- _ => cbn [vprop]; destruct (n =? 0) end).
  all: repeat (apply Forall_cons; [overwritten|]); apply Forall_nil.
Qed.
Lemma wprop_setting a p : setting (ep a) (fun v => wprop v p).
Proof. destruct p; unfold setting, ep; repeat (apply Forall_cons; [overwritten|]); apply Forall_nil. Qed.
Lemma vprops_setting m s ps : setting (el m s) (vprops ps).
Proof.
  unfold vprops. induction ps as [|p ps IH]; cbn [fold_left]; [apply setting_id, el_equiv|]. exact (setting_comp _ (fun v => vprop v p) (fun v => fold_left vprop ps v) (el_equiv m s) (vprop_setting m s p) IH).
Qed.
Lemma wprops_setting a ps : setting (ep a) (wprops ps).
Proof.
  unfold wprops. induction ps as [|p ps IH]; cbn [fold_left]; [apply setting_id, ep_equiv|]. exact (setting_comp _ (fun v => wprop v p) (fun v => fold_left wprop ps v) (ep_equiv a) (wprop_setting a p) IH).
Qed.
Lemma near_refl {V} (E : list (V -> V -> Prop)) x fin : Forall equiv E -> near E x x fin.
Proof. unfold near. rewrite !Forall_forall. intros H e He. left. exact (proj1 (H e He) x). Qed.
Lemma near_fin {V} (E : list (V -> V -> Prop)) x i v : Forall (fun e : V -> V -> Prop => e x v) E -> near E x i (Some v).
Proof. unfold near. rewrite !Forall_forall. intros H e He. right. exists v. split; [reflexivity|exact (H e He)]. Qed.
Lemma race_word_l m s w x i fin : fit w i -> race (el m s) x i fin -> race (el m s) (word_l w x) (word_l w i) fin.
Proof.
  intros F R. destruct w as [ps| |ps]; cbn [fit word_l] in *.
  - subst i. destruct x as [x|]; cbn [race] in *; [|apply near_refl, el_equiv]. destruct R as (v & -> & R). apply near_fin, R.
  - exact Logic.I.
  - destruct i as [i|]; [|congruence]. destruct x as [x|]; cbn [race option_map] in *; [|exact R]. apply near_set; [apply el_equiv|apply vprops_setting|exact R].
Qed.
Lemma race_word_p a w x i fin : fit w i -> race (ep a) x i fin -> race (ep a) (word_p w x) (word_p w i) fin.
Proof.
  intros F R. destruct w as [ps| |ps]; cbn [fit word_p] in *.
  - subst i. destruct x as [x|]; cbn [race] in *; [|apply near_refl, ep_equiv]. destruct R as (v & -> & R). apply near_fin, R.
  - exact Logic.I.
  - destruct i as [i|]; [|congruence]. destruct x as [x|]; cbn [race option_map] in *; [|exact R]. apply near_set; [apply ep_equiv|apply wprops_setting|exact R].
Qed.
(** All the objects of two programs. *)
Definition racing (m s a : bool) (cs ci : client) (d : daemon) : Prop :=
  (forall i, race (el m s) (c_link cs i) (c_link ci i) (d_link d i)) /\ forall i mac, is_canon mac -> race (ep a) (c_peer cs i mac) (c_peer ci i mac) (d_peer d i mac).
Lemma d_peer_none d i mac : d_link d i = None -> d_peer d i mac = None.
Proof. rewrite d_link_eq, d_peer_eq. destruct (find_l d i); [discriminate|reflexivity]. Qed.
Lemma racing_said m s a cs ci d i x : sane x -> racing m s a cs ci d -> fits_l [x] (c_link ci i) -> (forall mac, is_canon mac -> fits_p [x] (c_link ci i) mac (c_peer ci i mac)) ->
  racing m s a (said cs (enc i x)) (said ci (enc i x)) d.
Proof.
  intros Hs [R1 R2] F1 F2. destruct (said_at cs i x Hs) as (A1 & A2 & _). destruct (said_at ci i x Hs) as (B1 & B2 & _).
  split.
  - intros j. destruct (N.eq_dec j i) as [->|Hj]; [|rewrite (proj1 (said_else cs i x j Hs Hj)), (proj1 (said_else ci i x j Hs Hj)); apply R1].
    rewrite A1, B1. specialize (R1 i). destruct F1 as (F1 & _). destruct x as [w|mac w|b]; cbn [say_l]; [apply race_word_l; assumption|exact R1|apply race_word_l; assumption].
  - intros j mac Hm. destruct (N.eq_dec j i) as [->|Hj]; [|rewrite (proj2 (said_else cs i x j Hs Hj) mac Hm), (proj2 (said_else ci i x j Hs Hj) mac Hm); apply R2, Hm].
    rewrite (A2 mac Hm), (B2 mac Hm). assert (Q := R2 i mac Hm). destruct (F2 mac Hm) as (F & _). destruct x as [[ps| |ps]|mac' w|b]; cbn [say_p]; try exact Q; [exact Logic.I|].
    destruct (eq_text mac' mac); [|exact Q]. destruct (F eq_refl) as (Fo & Fw). specialize (R1 i). destruct (c_link ci i) as [vi|] eqn:Li; [|congruence].
    destruct (c_link cs i) as [vs|] eqn:Ls; [apply race_word_p; [apply Fw|exact Q]|]. cbn [race] in R1. rewrite (d_peer_none d i mac R1) in *.
    rewrite (c_peer_none cs i mac Hm Ls) in *. cbn [race]. destruct (word_p w (c_peer ci i mac)); [reflexivity|exact Logic.I].
Qed.
Lemma racing_all m s a d i ss : forall cs ci, Forall sane ss -> racing m s a cs ci d -> fits ss (c_link ci i) (c_peer ci i) ->
  racing m s a (fst (hear_all cs (map (enc i) ss))) (fst (hear_all ci (map (enc i) ss))) d.
Proof.
  induction ss as [|x ss IH]; intros cs ci S R [F1 F2]; [exact R|]. inversion S; subst. cbn [map]. rewrite !hear_all_cons. cbn [fits_l fits_p] in F1, F2.
  destruct (said_at ci i x) as (B1 & B2 & _); [assumption|]. apply IH; [assumption| |].
  - apply racing_said; [assumption|exact R|cbn [fits_l]; split; [apply F1|exact Logic.I]|]. intros mac Hm. cbn [fits_p]. split; [apply F2, Hm|exact Logic.I].
  - split; [rewrite B1; apply F1|]. intros mac Hm. rewrite B1, (B2 mac Hm). apply F2, Hm.
Qed.
Lemma racing_run m s a d1 os : forall d cs ci, okd s d -> calm_all m s a d os -> right m s a ci d -> racing m s a cs ci d1 ->
  racing m s a (fst (hear_all cs (snd (run d os)))) (fst (hear_all ci (snd (run d os)))) d1.
Proof.
  induction os as [|o os IH]; intros d cs ci K C R Q; [exact Q|]. destruct C as (G & C & C'). rewrite run_cons. cbn [snd]. rewrite !hear_all_app.
  apply IH; [eapply okd_step; eassumption|exact C'|apply right_step; assumption|].
  destruct (step_talk m s a d o K G C) as (_ & _ & ss & S & Es & T). rewrite Es. apply racing_all; [exact S|exact Q|]. rewrite right_at in R. apply T, R.
Qed.
Lemma right_both m s a c d : right m s a c d <-> (forall i, both (fun v w => Forall (fun e => e v w) (el m s)) (c_link c i) (d_link d i))
  /\ forall i mac, is_canon mac -> both (fun v w => Forall (fun e => e v w) (ep a)) (c_peer c i mac) (d_peer d i mac).
Proof.
  unfold right. split; intros [H1 H2]; (split; [intros i; specialize (H1 i)|intros i mac Hm; specialize (H2 i mac Hm)]).
  - destruct (c_link c i), (d_link d i); auto. cbn [both] in *. apply el_same, H1.
  - destruct (c_peer c i mac), (d_peer d i mac); auto. cbn [both] in *. apply ep_same, H2.
  - destruct (c_link c i), (d_link d i); auto. cbn [both] in *. apply el_same, H1.
  - destruct (c_peer c i mac), (d_peer d i mac); auto. cbn [both] in *. apply ep_same, H2.
Qed.
Lemma right_weak m s a c d : right true true true c d -> right m s a c d.
Proof.
  intros [H1 H2]. split.
  - intros i. specialize (H1 i). destruct (c_link c i), (d_link d i); auto. cbn [both] in *. destruct H1 as (A1 & A2 & A3 & A4 & A5 & A6). repeat split; auto.
  - intros i mac Hm. specialize (H2 i mac Hm). destruct (c_peer c i mac), (d_peer d i mac); auto. cbn [both] in *. destruct H2 as (A1 & A2 & A3 & A4 & A5). repeat split; auto; apply A5; reflexivity.
Qed.
Lemma okd_weak s d : okd s d -> okd false d.
Proof. intros [K N]. split; [|exact N]. eapply Forall_impl; [|exact K]. apply okl_weak. Qed.
(** Signals of what happened before the answer, heard after it, do no harm. *)
Lemma race_right m s a d os c : okd s d -> calm_all m s a d os -> right m s a c (fst (run d os)) ->
  right m s a (fst (hear_all c (snd (run d os)))) (fst (run d os)).
Proof.
  intros K C R. destruct (fetch_right d (objects d) (okd_weak _ _ K) (Permutation_refl _) (objects_first d (okd_weak _ _ K))) as (ci & _ & Ri). apply (right_weak m s a) in Ri.
  assert (Re := right_run m s a os d ci K C Ri). destruct (racing_run m s a (fst (run d os)) os d c ci K C Ri) as (Q1 & Q2).
  - apply right_both in R. destruct R as [R1 R2]. split; intros; apply race_start; auto.
  - apply right_both in Re. destruct Re as [E1 E2]. apply right_both. split.
    + intros i. exact (race_end _ _ _ _ (el_equiv m s) (Q1 i) (E1 i)).
    + intros i mac Hm. exact (race_end _ _ _ _ (ep_equiv a) (Q2 i mac Hm) (E2 i mac Hm)).
Qed.

(** ** What goes *)
Lemma leaves_one i ss : forall c, Forall sane ss -> fits ss (c_link c i) (c_peer c i) -> leaves c (map (enc i) ss).
Proof.
  induction ss as [|x ss IH]; intros c S [F1 F2]; cbn [map leaves]; [exact Logic.I|]. inversion S as [|? ? Sx S']; subst. destruct (said_at c i x Sx) as (B1 & B2 & _). cbn [fits_l fits_p] in F1, F2. split.
  - destruct x as [[ps| |ps]|mac [ps| |ps]|b]; cbn [enc leave]; try exact Logic.I.
    + intros j Hj mac Hm. apply dec_inj in Hj. subst j. apply (F2 mac Hm).
    + intros j mac' Hm E. cbn [sane] in Sx. apply plabel_inj in E; [|assumption..]. destruct E as (<- & <-). destruct (F2 mac Sx) as (F & _). destruct (F (eq_text_refl mac)) as (_ & _ & F'). destruct (c_peer c i mac); [|exact Logic.I]. exact F'.
  - apply IH; [exact S'|]. fold (said c (enc i x)). split; [rewrite B1; apply F1|]. intros mac Hm. rewrite B1, (B2 mac Hm). apply F2, Hm.
Qed.
Lemma leaves_app a : forall c b, leaves c (a ++ b) <-> leaves c a /\ leaves (fst (hear_all c a)) b.
Proof. induction a as [|x a IH]; intros c b; cbn [app leaves]; [cbn; tauto|]. rewrite hear_all_cons, IH. unfold said. tauto. Qed.
Lemma leaves_run m s a os : forall d c, okd s d -> calm_all m s a d os -> right m s a c d -> leaves c (snd (run d os)).
Proof.
  induction os as [|o os IH]; intros d c K C R; [exact Logic.I|]. destruct C as (G & C & C'). rewrite run_cons. cbn [snd]. apply leaves_app. split.
  - destruct (step_talk m s a d o K G C) as (_ & _ & ss & S & Es & T). rewrite Es. apply leaves_one; [exact S|]. rewrite right_at in R. apply T, R.
  - apply IH; [eapply okd_step; eassumption|exact C'|apply right_step; assumption].
Qed.
Lemma calm_good os : forall d, Forall good_op os -> calm_all false false false d os.
Proof.
  induction os as [|o os IH]; intros d H; [exact Logic.I|]. inversion H; subst. split; [assumption|]. split; [|auto].
  unfold calm. destruct (find_l d (index_of o)); [|exact Logic.I]. destruct o; try exact Logic.I; try discriminate. split; discriminate.
Qed.
(** ** A program that starts at any time *)
Lemma starts m s a os1 os2 os : calm_all false s false [] os1 -> Permutation os (objects (daemon_after os1)) -> links_first os -> calm_all m s a (daemon_after os1) os2 ->
  exists c, fetch [] os = Some c /\ right m s a (fst (hear_all c (snd (run (daemon_after os1) os2)))) (fst (run (daemon_after os1) os2)) /\ leaves c (snd (run (daemon_after os1) os2)).
Proof.
  intros C1 HP HF C2. assert (K := okd_run _ _ _ os1 [] (okd_nil s) C1). fold (daemon_after os1) in K.
  destruct (fetch_right (daemon_after os1) os (okd_weak _ _ K) HP HF) as (c & Ec & R). exists c. split; [exact Ec|]. apply (right_weak m s a) in R.
  split; [apply right_run; assumption|apply (leaves_run m s a); assumption].
Qed.
Lemma run_fst_app x : forall d y, fst (run d (x ++ y)) = fst (run (fst (run d x)) y).
Proof. induction x as [|o x IH]; intros d y; [reflexivity|]. cbn [app]. rewrite !run_cons. cbn [fst]. apply IH. Qed.
Lemma calm_all_weak s os : forall m a d, calm_all m s a d os -> calm_all false s false d os.
Proof.
  induction os as [|o os IH]; intros m a d H; [exact Logic.I|]. destruct H as (G & C & H). split; [exact G|]. split; [|eapply IH; exact H].
  unfold calm in *. destruct (find_l d (index_of o)); [|exact Logic.I]. destruct o; try exact Logic.I; try discriminate; [split; [discriminate|apply C]|exact C].
Qed.
Lemma late m s a os1 os2 os3 os : calm_all false s false [] os1 -> calm_all m s a (daemon_after os1) os2 -> Permutation os (objects (daemon_after (os1 ++ os2))) -> links_first os ->
  calm_all m s a (daemon_after (os1 ++ os2)) os3 ->
  exists c, fetch [] os = Some c
    /\ right m s a (fst (hear_all c (snd (run (daemon_after os1) os2) ++ snd (run (daemon_after (os1 ++ os2)) os3)))) (daemon_after (os1 ++ os2 ++ os3)).
Proof.
  intros C1 C2 HP HF C3. assert (K1 := okd_run _ _ _ os1 [] (okd_nil s) C1). fold (daemon_after os1) in K1.
  assert (E : daemon_after (os1 ++ os2) = fst (run (daemon_after os1) os2)) by apply run_fst_app.
  assert (K2 : okd s (daemon_after (os1 ++ os2))) by (rewrite E; eapply okd_run; eassumption).
  destruct (fetch_right _ os (okd_weak _ _ K2) HP HF) as (c & Ec & R). exists c. split; [exact Ec|]. apply (right_weak m s a) in R. rewrite hear_all_app.
  replace (daemon_after (os1 ++ os2 ++ os3)) with (fst (run (daemon_after (os1 ++ os2)) os3)) by (unfold daemon_after; rewrite app_assoc, <- run_fst_app; reflexivity).
  apply right_run; [exact K2|exact C3|]. rewrite E in *. apply race_right; assumption.
Qed.
Lemma since_start m s a os : calm_all m s a [] os -> right m s a (fst (hear_all [] (snd (run [] os)))) (daemon_after os).
Proof. intros C. apply right_run; [apply okd_nil|exact C|apply right_nil]. Qed.
Lemma okd_good os : Forall good_op os -> okd false (daemon_after os).
Proof. intros H. exact (okd_run _ _ _ os [] (okd_nil false) (calm_good os [] H)). Qed.
Lemma always os1 os2 : Forall good_op os1 -> Forall good_op os2 ->
  exists c, fetch [] (objects (daemon_after os1)) = Some c
            /\ right false false false (fst (hear_all c (snd (run (daemon_after os1) os2)))) (fst (run (daemon_after os1) os2)).
Proof.
  intros H1 H2. destruct (starts false false false os1 os2 (objects (daemon_after os1))) as (c & E & R & _); eauto using calm_good, Permutation_refl, objects_first, okd_good.
Qed.
Lemma fetched ops os : Forall good_op ops -> Permutation os (objects (daemon_after ops)) -> links_first os -> exists c, fetch [] os = Some c /\ right true true true c (daemon_after ops).
Proof. intros H. apply fetch_right, okd_good, H. Qed.
Lemma named_in_order ops : Forall good_op ops -> links_first (objects (daemon_after ops)).
Proof. intros H. apply objects_first, okd_good, H. Qed.
Lemma leaves_start ops : Forall good_op ops -> leaves [] (snd (run [] ops)).
Proof. intros H. eapply leaves_run; [apply okd_nil|apply calm_good, H|apply right_nil]. Qed.
(** ** Deciding [calm_all] *)
Definition eq_opt (x y : option (list byte)) : bool := match x, y with Some x, Some y => eq_text x y | None, None => true | _, _ => false end.
Definition calm_b (m s a : bool) (d : daemon) (o : op) : bool :=
  match find_l d (index_of o) with
  | None => true
  | Some l =>
      match o with
      | SetManaged _ b ok mine => (negb m || Bool.eqb (dl_managed l) b || mine || (b && negb ok)) && (negb s || b || negb (scanning l))
      | Failed _ => negb s || negb (scanning l)
      | Addr _ mac x y => negb a || match find_p (dl_peers l) mac with Some p => negb (dp_conn p) || (eq_opt (dp_local p) x && eq_opt (dp_remote p) y) | None => true end
      | _ => true
      end
  end.
Fixpoint calm_all_b (m s a : bool) (d : daemon) (os : list op) : bool := match os with [] => true | o :: os => calm_b m s a d o && calm_all_b m s a (fst (step d o)) os end.
Lemma eq_opt_spec x y : eq_opt x y = true -> x = y.
Proof. destruct x, y; cbn [eq_opt]; try discriminate; auto. intros H. apply eq_text_spec in H. congruence. Qed.
Lemma calm_b_spec m s a d o : calm_b m s a d o = true -> calm m s a d o.
Proof.
  unfold calm_b, calm. destruct (find_l d (index_of o)) as [l|]; [|auto]. destruct o; auto.
  - rewrite andb_true_iff, !orb_true_iff. intros ([[[A|A]|A]|A] & B); (split; [intros Hm|intros Hs Hb]); subst; cbn [negb] in *; auto; try discriminate.
    all: try (destruct B as [[B|B]|B]; try discriminate; destruct (scanning l); [discriminate|reflexivity]).
    + left. apply Bool.eqb_prop, A.
    + right. right. destruct b, ok; auto; discriminate.
  - rewrite orb_true_iff. intros [A|A] Hs; subst; [discriminate|]. destruct (scanning l); [discriminate|reflexivity].
  - rewrite orb_true_iff. intros [A|A] Ha p E C; subst; [discriminate|]. rewrite E, C in A. cbn [negb orb] in A. apply andb_true_iff in A. destruct A as (A & B). auto using eq_opt_spec.
Qed.
Lemma calm_all_b_spec m s a os : forall d, Forall good_op os -> calm_all_b m s a d os = true -> calm_all m s a d os.
Proof.
  induction os as [|o os IH]; intros d G H; [exact Logic.I|]. inversion G; subst. cbn [calm_all_b] in H. apply andb_true_iff in H. destruct H as (H & H').
  split; [assumption|]. split; [apply calm_b_spec, H|apply IH; assumption].
Qed.
(** ** What nobody is told *)
Definition some_mac : list byte := text "02:00:00:00:01:0a".
Lemma some_canon : is_canon some_mac.
Proof. exists [2; 0; 0; 0; 1; 10]. split; [split; [reflexivity|repeat (apply Forall_cons; [reflexivity|]); apply Forall_nil]|reflexivity]. Qed.
Ltac good := repeat (apply Forall_cons; [first [exact some_canon|exact Logic.I]|]); apply Forall_nil.
Lemma managed_stale : exists os, Forall good_op os /\ ~ right true false false (fst (hear_all [] (snd (run [] os)))) (daemon_after os).
Proof.
  exists [LinkNew 3 (text "wlan0"); SetManaged 3 true true false]. split; [good|]. intros [H _]. specialize (H 3). vm_compute in H. destruct H as (_ & _ & _ & _ & H & _). discriminate (H eq_refl).
Qed.
Lemma scanning_stale : exists os, Forall good_op os /\ right true false true (fst (hear_all [] (snd (run [] os)))) (daemon_after os)
  /\ exists v w, c_link (fst (hear_all [] (snd (run [] os)))) 3 = Some v /\ d_link (daemon_after os) 3 = Some w /\ v_managed w = true /\ v_scan v = true /\ v_scan w = false.
Proof.
  exists [LinkNew 3 (text "wlan0"); SetManaged 3 true true true; Started 3; Ready 3 true; Scan 3 true; Failed 3; Started 3; Ready 3 true]. split; [good|]. split.
  - apply since_start, calm_all_b_spec; [good|vm_compute; reflexivity].
  - eexists. eexists. split; [vm_compute; reflexivity|]. split; [vm_compute; reflexivity|]. repeat split; reflexivity.
Qed.
Lemma addresses_stale : exists os, Forall good_op os /\ right true true false (fst (hear_all [] (snd (run [] os)))) (daemon_after os)
  /\ exists v w, c_peer (fst (hear_all [] (snd (run [] os)))) 3 some_mac = Some v /\ d_peer (daemon_after os) 3 some_mac = Some w /\ w_conn v = true /\ w_remote v <> w_remote w.
Proof.
  exists [LinkNew 3 (text "wlan0"); SetManaged 3 true true true; Started 3; Ready 3 true; Found 3 some_mac None None; Group 3 some_mac (text "p2p0"); Addr 3 some_mac (Some (text "192.168.77.1")) (Some (text "192.168.77.2")); Conn 3 some_mac; Addr 3 some_mac (Some (text "192.168.77.1")) (Some (text "192.168.77.3"))].
  split; [good|]. split.
  - apply since_start, calm_all_b_spec; [good|vm_compute; reflexivity].
  - eexists. eexists. split; [vm_compute; reflexivity|]. split; [vm_compute; reflexivity|]. split; [reflexivity|discriminate].
Qed.
Lemma order_matters : exists ops os, Forall good_op ops /\ Permutation os (objects (daemon_after ops)) /\ fetch [] os = None.
Proof.
  exists [LinkNew 3 (text "wlan0"); SetManaged 3 true true true; Started 3; Ready 3 true; Found 3 some_mac None None].
  match goal with |- exists os, _ /\ Permutation os ?x /\ _ => exists (rev x) end. split; [good|]. split; [symmetry; apply Permutation_rev|]. vm_compute. reflexivity.
Qed.
