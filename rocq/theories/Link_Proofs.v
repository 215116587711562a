(** Proofs about the links of miracle-wifid. *)
From Coq Require Import String.
From Verif Require Import Base Text Text_Proofs Cli_Proofs Setup_Model Link_Model Link_Spec.
Local Open Scope list_scope.

(** ** Steps as changes of one link *)
Definition target (e : Link_Model.event) : N :=
  match e with
  | EUdev _ i _ _ _ | ESetManaged i _ _ | EName i _ | EWfd i _ | EUp i | EReply i _ | EFail i | ESpawn i => i
  end.
Definition allowed (c : mgr) (name : option (list byte)) : bool :=
  match m_iface c, name with None, _ => true | Some w, Some n => str_eq w n | _, None => false end.
Definition act_on (c : mgr) (e : Link_Model.event) (l : lnk) : lnk :=
  match e with
  | EUdev a i name tag ok =>
      let l := match a, name with Move, Some n => renamed n l | _, _ => l end in
      if m_rely c then set_managed ok (tag && negb (m_lazy c)) l
      else if allowed c name && negb (m_lazy c) then set_managed ok true l else l
  | ESetManaged _ b ok => set_managed ok b l
  | EName _ s => set_name s l
  | EWfd _ s => set_wfd_sub s l
  | EUp _ => match l_proc l with Some _ => if l_up l then l else with_su (started (l_su l)) (with_proc (l_proc l) true l) | None => l end
  | EReply _ a => match l_proc l with Some _ => reply c a l | None => l end
  | EFail _ => match l_proc l with Some _ => with_su (failed (l_su l)) (with_proc None false l) | None => l end
  | ESpawn _ => match l_at l, l_proc l with Some _, None => with_proc (Some (mkProc (l_ifname l) (l_conf l) [])) false l | _, _ => l end
  end.
Definition blank (i : N) (n : list byte) : lnk := mkL i n true false None None fresh None [] None false.
Definition created (c : mgr) (i : N) (n : list byte) (tag ok : bool) : lnk :=
  if (if m_rely c then tag else true) && negb (m_lazy c) then set_managed ok true (blank i n) else blank i n.
(** A device that becomes a link. *)
Definition fits (c : mgr) (n : list byte) : bool := allowed c (Some n) && negb (p2p_name n).

Lemma chosen_allowed c name b : chosen c name = Ok b -> b = allowed c name.
Proof. unfold chosen, allowed. destruct (m_iface c), name; now intros [= <-]. Qed.
Lemma chosen_some c n : chosen c (Some n) = Ok (allowed c (Some n)).
Proof. unfold chosen, allowed. now destruct (m_iface c). Qed.

Lemma tell_ix k l : l_ix (tell k l) = l_ix l.
Proof. unfold tell. now destruct (l_proc l). Qed.
Lemma tell_proj k l : l_ifname (tell k l) = l_ifname l /\ l_public (tell k l) = l_public l /\ l_managed (tell k l) = l_managed l /\ l_name (tell k l) = l_name l
  /\ l_wfd (tell k l) = l_wfd l /\ l_su (tell k l) = l_su l /\ l_at (tell k l) = l_at l /\ l_conf (tell k l) = l_conf l /\ l_up (tell k l) = l_up l.
Proof. unfold tell. destruct (l_proc l); cbn; tauto. Qed.
Lemma set_name_ix n l : l_ix (set_name n l) = l_ix l.
Proof. unfold set_name. destruct n; trivial. cbn. destruct (u_run (l_su l)); trivial. apply tell_ix. Qed.
Lemma set_managed_ix ok b l : l_ix (set_managed ok b l) = l_ix l.
Proof. unfold set_managed. destruct (Bool.eqb _ b); trivial. destruct b, ok; reflexivity. Qed.
Lemma up_ix c l : l_ix (supplicant_up c l) = l_ix l.
Proof. unfold supplicant_up. destruct (l_public l); trivial. destruct (m_host c); trivial. destruct (l_managed l); trivial. apply set_name_ix. Qed.
Lemma reply_ix c a l : l_ix (reply c a l) = l_ix l.
Proof.
  unfold reply. destruct (u_wait (l_su l)) as [|k w]; trivial. cbv zeta.
  destruct (negb _ && _); [rewrite up_ix|]; cbn [with_su l_ix]; destruct k; trivial;
    match goal with |- context[if ?b then _ else _] => destruct b end; trivial; apply tell_ix.
Qed.
Lemma act_ix c e l : l_ix (act_on c e l) = l_ix l.
Proof.
  destruct e; cbn [act_on].
  - cbv zeta. set (l1 := match a, name with Move, Some n => renamed n l | _, _ => l end).
    assert (E : l_ix l1 = l_ix l) by (unfold l1; destruct a, name; reflexivity).
    destruct (m_rely c); [now rewrite set_managed_ix|].
    destruct (allowed c name && negb (m_lazy c)); [now rewrite set_managed_ix|exact E].
  - apply set_managed_ix.
  - apply set_name_ix.
  - unfold set_wfd_sub. destruct (l_managed l); trivial. cbn. destruct (u_run _); trivial. apply tell_ix.
  - destruct (l_proc l); trivial. now destruct (l_up l).
  - destruct (l_proc l); trivial. apply reply_ix.
  - now destruct (l_proc l).
  - destruct (l_at l); trivial. now destruct (l_proc l).
Qed.
Lemma created_ix c i n tag ok : l_ix (created c i n tag ok) = i.
Proof. unfold created. destruct (_ && _); trivial. now rewrite set_managed_ix. Qed.

Lemma find_in ls i l : find ls i = Some l -> In l ls /\ l_ix l = i.
Proof.
  induction ls as [|x ls IH]; cbn [find]; [discriminate|].
  destruct (N.eqb_spec (l_ix x) i) as [E|E]; [intros [= <-]; now split; [left|]|].
  intros H. apply IH in H as [H1 H2]. now split; [right|].
Qed.
Lemma find_none ls i : find ls i = None <-> ~ In i (map l_ix ls).
Proof.
  induction ls as [|x ls IH]; cbn [find map In]; [tauto|].
  destruct (N.eqb_spec (l_ix x) i) as [E|E]; [split; [discriminate|tauto]|].
  rewrite IH. tauto.
Qed.
Lemma in_find ls l : NoDup (map l_ix ls) -> In l ls -> find ls (l_ix l) = Some l.
Proof.
  induction ls as [|x ls IH]; cbn [map find]; intros D I; [destruct I|].
  inversion D as [|? ? D1 D2]; subst. destruct I as [<-|I]; [now rewrite N.eqb_refl|].
  destruct (N.eqb_spec (l_ix x) (l_ix l)) as [E|E]; [|auto].
  contradict D1. rewrite E. now apply in_map.
Qed.
Lemma put_ix l ls : map l_ix (put l ls) = map l_ix ls.
Proof.
  unfold put. rewrite map_map. apply map_ext. intros x. now destruct (N.eqb_spec (l_ix x) (l_ix l)).
Qed.
Lemma put_in l ls x : In x (put l ls) -> (In x ls /\ l_ix x <> l_ix l) \/ x = l.
Proof.
  unfold put. rewrite in_map_iff. intros (y & E & I). destruct (N.eqb_spec (l_ix y) (l_ix l)); subst; auto.
Qed.
Lemma put_keep l ls x : In x ls -> l_ix x <> l_ix l -> In x (put l ls).
Proof. intros I D. unfold put. apply in_map_iff. exists x. split; [|exact I]. now destruct (N.eqb_spec (l_ix x) (l_ix l)). Qed.
Lemma put_new l ls x : find ls (l_ix l) = Some x -> In l (put l ls).
Proof.
  intros F. apply find_in in F as [I E]. unfold put. apply in_map_iff. exists x. split; [|exact I]. now rewrite E, N.eqb_refl.
Qed.
Lemma drop_in i ls x : In x (drop i ls) <-> In x ls /\ l_ix x <> i.
Proof. unfold drop. rewrite filter_In. now destruct (N.eqb_spec (l_ix x) i); cbn [negb]; intuition. Qed.

(** What a step does. *)
Inductive change (c : mgr) (e : Link_Model.event) (ls : list lnk) : list lnk -> Prop :=
| ch_none : find ls (target e) = None -> (forall a n tag ok, e = EUdev a (target e) (Some n) tag ok -> a = Remove \/ fits c n = false \/ target e = 0) -> change c e ls ls
| ch_null : target e = 0 -> (exists a name tag ok, e = EUdev a 0 name tag ok) -> change c e ls ls
| ch_drop name tag ok : e = EUdev Remove (target e) name tag ok -> target e <> 0 -> change c e ls (drop (target e) ls)
| ch_new a n tag ok : e = EUdev a (target e) (Some n) tag ok -> a <> Remove -> target e <> 0 -> find ls (target e) = None -> fits c n = true ->
    change c e ls (ls ++ [created c (target e) n tag ok])
| ch_act l : find ls (target e) = Some l -> (forall name tag ok, e <> EUdev Remove (target e) name tag ok) -> change c e ls (put (act_on c e l) ls).

Lemma upd_change c e ls f : (forall a i name tag ok, e <> EUdev a i name tag ok) -> (forall l, f l = act_on c e l) -> change c e ls (upd (target e) f ls).
Proof.
  intros N F. unfold upd. destruct (find ls (target e)) as [l|] eqn:E.
  - rewrite F. apply ch_act; [exact E|]. intros ? ? ?. apply N.
  - apply ch_none; [exact E|]. intros a n tag ok H. exfalso. exact (N _ _ _ _ _ H).
Qed.
Theorem step_change c e ls ls' : step_link c e ls = Ok ls' -> change c e ls ls'.
Proof.
  destruct e; cbn [step_link]; try (intros [= <-]; refine (upd_change c _ ls _ _ _); [intros; discriminate|reflexivity]).
  unfold udev. destruct (N.eqb_spec i 0) as [Z|Z].
  { intros [= <-]. subst i. apply ch_null; [reflexivity|]. eauto 6. }
  destruct (find ls i) as [l|] eqn:F.
  - destruct a.
    + intros [= <-]. exact (ch_drop c (EUdev Remove i name tag ok) ls name tag ok eq_refl Z).
    + cbv zeta. destruct (m_rely c) eqn:R.
      * intros [= <-]. pose proof (ch_act c (EUdev Move i name tag ok) ls l F) as K. cbn [act_on] in K. rewrite R in K. apply K. intros; discriminate.
      * destruct (chosen c name) as [b|] eqn:C; cbn [bind]; [|discriminate]. apply chosen_allowed in C. subst b. intros [= <-].
        pose proof (ch_act c (EUdev Move i name tag ok) ls l F) as K. cbn [act_on] in K. rewrite R in K. apply K. intros; discriminate.
    + cbv zeta. destruct (m_rely c) eqn:R.
      * intros [= <-]. pose proof (ch_act c (EUdev Other i name tag ok) ls l F) as K. cbn [act_on] in K. rewrite R in K. apply K. intros; discriminate.
      * destruct (chosen c name) as [b|] eqn:C; cbn [bind]; [|discriminate]. apply chosen_allowed in C. subst b. intros [= <-].
        pose proof (ch_act c (EUdev Other i name tag ok) ls l F) as K. cbn [act_on] in K. rewrite R in K. apply K. intros; discriminate.
  - assert (A : a = Remove \/ a <> Remove) by (destruct a; [now left|right; discriminate|right; discriminate]).
    destruct A as [->|A].
    { intros [= <-]. apply ch_none; [exact F|]. intros ? ? ? ? [= <- _ _ _]. now left. }
    intros H. assert (H' : add_link c i name tag ok ls = Ok ls') by (destruct a; [contradiction|exact H|exact H]). clear H.
    unfold add_link in H'. destruct name as [n|].
    2:{ injection H' as <-. apply ch_none; [exact F|]. intros; discriminate. }
    rewrite chosen_some in H'. cbn [bind] in H'. cbv zeta in H'.
    destruct (allowed c (Some n)) eqn:C; cbn [negb] in H'.
    2:{ injection H' as <-. apply ch_none; [exact F|]. intros ? ? ? ? [= _ <- _ _]. right; left. unfold fits. now rewrite C. }
    destruct (p2p_name n) eqn:P.
    { injection H' as <-. apply ch_none; [exact F|]. intros ? ? ? ? [= _ <- _ _]. right; left. unfold fits. now rewrite P, andb_false_r. }
    pose proof (ch_new c (EUdev a i (Some n) tag ok) ls a n tag ok eq_refl A Z F) as K. unfold fits in K. rewrite C, P in K. specialize (K eq_refl).
    unfold created in K. cbn [target] in K. unfold blank in K. cbn [l_managed] in H'.
    destruct (m_rely c); cbn [bind] in H'; destruct (m_host c); injection H' as <-; exact K.
Qed.

(** ** An invariant of each link is one of the list *)
Lemma inv_step (P : lnk -> Prop) c e ls ls' :
  (forall i n tag ok, e = EUdev Other i (Some n) tag ok \/ e = EUdev Move i (Some n) tag ok -> P (created c i n tag ok)) ->
  (forall l, find ls (target e) = Some l -> P l -> P (act_on c e l)) ->
  Forall P ls -> step_link c e ls = Ok ls' -> Forall P ls'.
Proof.
  intros HN HA H S. rewrite Forall_forall in *. apply step_change in S. intros x I. inversion S; subst; auto.
  - apply drop_in in I as [I _]. auto.
  - apply in_app_or in I as [I|[<-|[]]]; auto.
    destruct a; [contradiction| |]; eapply HN; eauto.
  - apply put_in in I as [[I _]| ->]; auto. apply HA; trivial. apply H. now apply find_in in H0.
Qed.
Lemma inv_run (P : lnk -> Prop) c es : forall ls ls',
  (forall e i n tag ok, In e es -> e = EUdev Other i (Some n) tag ok \/ e = EUdev Move i (Some n) tag ok -> P (created c i n tag ok)) ->
  (forall e l, In e es -> target e = l_ix l -> P l -> P (act_on c e l)) ->
  Forall P ls -> run_links c es ls = Ok ls' -> Forall P ls'.
Proof.
  induction es as [|e es IH]; intros ls ls' HN HA H; cbn [run_links]; [now intros [= <-]|].
  destruct (step_link c e ls) as [l1|] eqn:S; cbn [bind]; [|discriminate].
  apply IH.
  - intros e' i n tag ok I. apply HN. now right.
  - intros e' l I. apply HA. now right.
  - refine (inv_step P c e ls l1 _ _ H S).
    + intros i n tag ok. apply HN. now left.
    + intros l F. apply HA; [now left|]. apply find_in in F. symmetry. apply F.
Qed.
Lemma run_app c a b : forall ls, run_links c (a ++ b) ls = do l <- run_links c a ls; run_links c b l.
Proof. induction a as [|e a IH]; intros ls; cbn [app run_links bind]; [reflexivity|]. destruct (step_link c e ls); cbn [bind]; auto. Qed.

(** ** Which links exist *)
Lemma nodup_step c e ls ls' : NoDup (map l_ix ls) -> step_link c e ls = Ok ls' -> NoDup (map l_ix ls').
Proof.
  intros D S. apply step_change in S. inversion S; subst; auto.
  - clear -D. induction ls as [|x ls IH]; cbn [drop filter map]; [constructor|]. inversion D as [|? ? D1 D2]; subst.
    cbn [drop filter]. destruct (negb _); [|now apply IH]. cbn [map]. constructor; [|now apply IH].
    intros I. apply D1. apply in_map_iff in I as (y & E & I). rewrite <- E. apply in_map. now apply filter_In in I.
  - rewrite map_app. cbn [map]. rewrite created_ix. apply find_none in H2. clear -D H2.
    induction (map l_ix ls) as [|x l IH]; cbn [app]; [now repeat constructor|]. inversion D as [|? ? D1 D2]; subst. constructor.
    + intros I. apply in_app_or in I as [I|[<-|[]]]; [auto|]. apply H2. now left.
    + apply IH; trivial. intros I. apply H2. now right.
  - now rewrite put_ix.
Qed.
Theorem links_distinct c es : forall ls ls', NoDup (map l_ix ls) -> run_links c es ls = Ok ls' -> NoDup (map l_ix ls').
Proof.
  induction es as [|e es IH]; intros ls ls' D; cbn [run_links]; [now intros [= <-]|].
  destruct (step_link c e ls) as [l1|] eqn:S; cbn [bind]; [|discriminate]. apply IH. exact (nodup_step c e ls l1 D S).
Qed.

Lemma p2p_spec n : p2p_name n = true <-> exists r, n = text "p2p-" ++ r.
Proof.
  unfold p2p_name. rewrite str_eq_spec. split.
  - intros E. exists (dropN 4 n). rewrite <- E. symmetry. apply takeN_dropN.
  - intros (r & ->). reflexivity.
Qed.
Lemma fits_spec c n : fits c n = true <-> acceptable c n.
Proof.
  unfold fits, acceptable. rewrite andb_true_iff, negb_true_iff. split.
  - intros [A P]. split.
    + intros r E. assert (p2p_name n = true) by (apply p2p_spec; eauto). congruence.
    + intros w W. unfold allowed in A. rewrite W in A. now apply str_eq_spec.
  - intros [P A]. split.
    + unfold allowed. destruct (m_iface c) as [w|]; trivial. apply str_eq_spec. now apply A.
    + destruct (p2p_name n) eqn:E; trivial. apply p2p_spec in E as (r & ->). now destruct (P r).
Qed.
Lemma removes_dec i e : removes i e \/ ~ removes i e.
Proof.
  unfold removes. destruct e; try (right; intros (? & ? & ? & ?); discriminate).
  destruct a; try (right; intros (? & ? & ? & ?); discriminate).
  destruct (N.eq_dec i0 i) as [->|D]; [left; eauto|right]. intros (? & ? & ? & [= E _ _ _]). auto.
Qed.
(** One step of the two sides. *)
Definition offers (c : mgr) (i : N) (e : Link_Model.event) : Prop := exists a n tag ok, e = EUdev a i (Some n) tag ok /\ a <> Remove /\ acceptable c n.
Lemma seen_snoc c i es e : seen c i (es ++ [e]) <-> offers c i e \/ (seen c i es /\ ~ removes i e).
Proof.
  split.
  - intros (pre & a & n & tag & ok & post & E & A & F & R).
    destruct post as [|z post] using rev_ind.
    + apply app_inj_tail in E as [-> ->]. left. exists a, n, tag, ok. auto.
    + rewrite app_comm_cons, app_assoc in E. apply app_inj_tail in E as [-> ->]. right. split.
      * exists pre, a, n, tag, ok, post. split; [reflexivity|split; [exact A|split; [exact F|]]]. intros y I. apply R, in_or_app. now left.
      * apply R, in_or_app. right. now left.
  - intros [(a & n & tag & ok & -> & A & F)|[(pre & a & n & tag & ok & post & -> & A & F & R) N]].
    + exists es, a, n, tag, ok, []. split; [reflexivity|split; [exact A|split; [exact F|]]]. intros y [].
    + exists pre, a, n, tag, ok, (post ++ [e]). rewrite <- app_assoc. split; [reflexivity|split; [exact A|split; [exact F|]]].
      intros y I. apply in_app_or in I as [I|[<-|[]]]; auto.
Qed.
Lemma has_ix i ls : has_link i ls <-> In i (map l_ix ls).
Proof. unfold has_link. rewrite in_map_iff. split; intros (l & A & B); exists l; auto. Qed.
Lemma has_step c i e ls ls' : i <> 0 -> step_link c e ls = Ok ls' -> has_link i ls' <-> offers c i e \/ (has_link i ls /\ ~ removes i e).
Proof.
  intros Z S. pose proof (step_change _ _ _ _ S) as K. rewrite !has_ix. inversion K; subst.
  - split.
    + intros I. right. split; trivial. intros (name & tag & ok & ->). cbn [target] in H. apply find_none in H. contradiction.
    + intros [(a & n & tag & ok & -> & A & F)|[I _]]; trivial. destruct (H0 a n tag ok eq_refl) as [E|[E|E]]; [contradiction| |contradiction].
      apply fits_spec in F. congruence.
  - destruct H0 as (a & name & tag & ok & ->). split.
    + intros I. right. split; trivial. intros (? & ? & ? & [= _ E _ _]). symmetry in E. contradiction.
    + intros [(? & ? & ? & ? & [= _ E _ _] & _)|[I _]]; trivial. symmetry in E. contradiction.
  - rewrite <- !has_ix. rewrite H. cbn [target]. unfold has_link. split.
    + intros (l & I & E). apply drop_in in I as [I D]. right. split; [eauto|]. intros (? & ? & ? & [= E2 _ _ _]). congruence.
    + intros [(? & ? & ? & ? & [= <- _ _ _] & A & _)|[(l & I & E) R]]; [contradiction|]. exists l. split; trivial. apply drop_in. split; trivial.
      intros E2. apply R. rewrite E2 in E. rewrite E. unfold removes. eauto.
  - rewrite map_app, in_app_iff. cbn [map In]. rewrite created_ix. rewrite H. cbn [target]. split.
    + intros [I|[<-|[]]].
      * right. split; trivial. intros (? & ? & ? & [= E _ _ _]). auto.
      * left. exists a, n, tag, ok. split; [reflexivity|split; [trivial|]]. now apply fits_spec.
    + intros [(? & ? & ? & ? & [= _ <- _ _] & _)|[I _]]; auto.
  - rewrite put_ix. split.
    + intros I. right. split; trivial. intros (name & tag & ok & ->). cbn [target] in *. now destruct (H0 name tag ok).
    + intros [(a & n & tag & ok & -> & _)|[I _]]; trivial. cbn [target] in H. rewrite <- has_ix. apply find_in in H. exists l. exact H.
Qed.
Theorem links_exist c es i ls : i <> 0 -> run_links c es [] = Ok ls -> has_link i ls <-> seen c i es.
Proof.
  intros Z. revert ls. induction es as [|e es IH] using rev_ind; intros ls.
  - intros [= <-]. split; [now intros (l & [] & _)|]. intros (pre & a & n & tag & ok & post & E & _). now destruct pre.
  - rewrite run_app. destruct (run_links c es []) as [l1|]; cbn [bind run_links]; [|discriminate].
    destruct (step_link c e l1) as [l2|] eqn:S; cbn [bind]; [|discriminate]. intros [= <-].
    rewrite (has_step c i e l1 l2 Z S), seen_snoc, (IH l1 eq_refl). reflexivity.
Qed.
Theorem no_link_zero c es ls : run_links c es [] = Ok ls -> ~ has_link 0 ls.
Proof.
  intros H. assert (F : Forall (fun l => l_ix l <> 0) ls); [|intros (l & I & E); rewrite Forall_forall in F; exact (F l I E)].
  revert ls H. induction es as [|e es IH] using rev_ind; intros ls; [now intros [= <-]|].
  rewrite run_app. destruct (run_links c es []) as [l1|]; cbn [bind run_links]; [|discriminate].
  destruct (step_link c e l1) as [l2|] eqn:S; cbn [bind]; [|discriminate]. intros [= <-]. specialize (IH l1 eq_refl).
  apply step_change in S. rewrite Forall_forall in *. intros x I. inversion S; subst; auto.
  - apply drop_in in I as [I _]. auto.
  - apply in_app_or in I as [I|[<-|[]]]; auto. now rewrite created_ix.
  - apply put_in in I as [[I _]| ->]; auto. rewrite act_ix. apply IH. now apply find_in in H.
Qed.

Lemma step_defined c e ls : (forall a i tag ok, e <> EUdev a i None tag ok) -> exists ls', step_link c e ls = Ok ls'.
Proof.
  intros N. destruct e; cbn [step_link]; eauto. unfold udev. destruct (i =? 0); eauto.
  destruct name as [n|]; [|now destruct (N a i tag ok)].
  destruct (find ls i) as [l|].
  - destruct a; eauto; cbv zeta; destruct (m_rely c); eauto; rewrite chosen_some; cbn [bind]; eauto.
  - assert (A : exists ls', add_link c i (Some n) tag ok ls = Ok ls').
    { unfold add_link. rewrite chosen_some. cbn [bind]. destruct (negb _); eauto. destruct (p2p_name n); eauto. cbv zeta. destruct (m_rely c); cbn [bind]; eauto. }
    destruct a; eauto.
Qed.
Theorem named_defined c es : named es -> forall ls, exists ls', run_links c es ls = Ok ls'.
Proof.
  induction es as [|e es IH]; intros N ls; cbn [run_links]; eauto.
  destruct (step_defined c e ls) as [l1 S].
  { intros a i tag ok ->. exact (N a i None tag ok (or_introl eq_refl) eq_refl). }
  rewrite S. cbn [bind]. apply IH. intros a i name tag ok I. apply (N a i name tag ok). now right.
Qed.
(** Without --interface, or with RELY_UDEV, names do not matter. *)
Theorem free_defined c es : m_iface c = None -> forall ls, exists ls', run_links c es ls = Ok ls'.
Proof.
  intros F. induction es as [|e es IH]; intros ls; cbn [run_links]; eauto.
  assert (S : exists l1, step_link c e ls = Ok l1).
  { destruct e; cbn [step_link]; eauto. unfold udev. destruct (i =? 0); eauto.
    assert (CH : chosen c name = Ok true) by (unfold chosen; now rewrite F).
    destruct (find ls i) as [l|].
    - destruct a; eauto; cbv zeta; destruct (m_rely c); eauto; rewrite CH; cbn [bind]; eauto.
    - assert (A : exists ls', add_link c i name tag ok ls = Ok ls').
      { unfold add_link. destruct name as [n|]; eauto. rewrite CH. cbn [bind negb]. destruct (p2p_name n); eauto. cbv zeta. destruct (m_rely c); cbn [bind]; eauto. }
      destruct a; eauto. }
  destruct S as [l1 S]. rewrite S. cbn [bind]. apply IH.
Qed.

Lemma set_managed_ifname ok b l : l_ifname (set_managed ok b l) = l_ifname l.
Proof. unfold set_managed. destruct (Bool.eqb _ b); trivial. destruct b, ok; reflexivity. Qed.
Lemma set_name_ifname n l : l_ifname (set_name n l) = l_ifname l.
Proof. unfold set_name. destruct n; trivial. cbn. destruct (u_run _); trivial. apply tell_proj. Qed.
Lemma reply_ifname c a l : l_ifname (reply c a l) = l_ifname l.
Proof.
  unfold reply. destruct (u_wait (l_su l)) as [|k w]; trivial. cbv zeta.
  match goal with |- context[with_su ?u ?x] => assert (E : l_ifname (with_su u x) = l_ifname l) end.
  { cbn [with_su l_ifname]. destruct k; trivial; match goal with |- context[if ?b then _ else _] => destruct b end; trivial; apply tell_proj. }
  destruct (negb _ && _); [|exact E]. unfold supplicant_up. destruct (l_public _); [exact E|]. destruct (m_host c); [|exact E].
  destruct (l_managed _); [|exact E]. now rewrite set_name_ifname.
Qed.
Lemma act_ifname c e l : (forall i name tag ok, e <> EUdev Move i name tag ok) -> l_ifname (act_on c e l) = l_ifname l.
Proof.
  intros N. destruct e; cbn [act_on].
  - destruct a; [|now destruct (N i name tag ok)|]; cbv zeta; (destruct (m_rely c); [apply set_managed_ifname|]; destruct (_ && _); [apply set_managed_ifname|reflexivity]).
  - apply set_managed_ifname.
  - apply set_name_ifname.
  - unfold set_wfd_sub. destruct (l_managed l); trivial. cbn. destruct (u_run _); trivial. apply tell_proj.
  - destruct (l_proc l); trivial. now destruct (l_up l).
  - destruct (l_proc l); trivial. apply reply_ifname.
  - now destruct (l_proc l).
  - destruct (l_at l); trivial. now destruct (l_proc l).
Qed.
Lemma created_ifname c i n tag ok : l_ifname (created c i n tag ok) = n.
Proof. unfold created. destruct (_ && _); trivial. now rewrite set_managed_ifname. Qed.

Theorem only_chosen_unmoved c es ls : ~ moves es -> run_links c es [] = Ok ls -> only_chosen c ls.
Proof.
  intros M H w l W I. revert ls H l I. induction es as [|e es IH] using rev_ind; intros ls; [now intros [= <-] l []|].
  assert (M1 : ~ moves es). { intros (i & name & tag & ok & J). apply M. exists i, name, tag, ok. apply in_or_app. now left. }
  assert (M2 : forall i name tag ok, e <> EUdev Move i name tag ok). { intros i name tag ok ->. apply M. exists i, name, tag, ok. apply in_or_app. right. now left. }
  specialize (IH M1). rewrite run_app. destruct (run_links c es []) as [l1|]; cbn [bind run_links]; [|discriminate].
  destruct (step_link c e l1) as [l2|] eqn:S; cbn [bind]; [|discriminate]. intros [= <-] l I. specialize (IH l1 eq_refl).
  apply step_change in S. inversion S; subst; auto.
  - apply drop_in in I as [I _]. auto.
  - apply in_app_or in I as [I|[<-|[]]]; auto. rewrite created_ifname. apply fits_spec in H3 as [_ A]. symmetry. now apply A.
  - apply put_in in I as [[I _]| ->]; auto. rewrite act_ifname; auto. apply IH. now apply find_in in H.
Qed.
