From Coq Require Import Permutation.
From Verif Require Import Base Dlist_Model Dlist_Spec.

Lemma NoDup_app_remove_l {A} (a b : list A) : NoDup (a ++ b) -> NoDup b.
Proof. induction a as [|x a IH]; cbn; auto. intros H. inversion H; auto. Qed.
Lemma NoDup_app_remove_r {A} (a b : list A) : NoDup (a ++ b) -> NoDup a.
Proof.
  induction a as [|x a IH]; cbn; [constructor|]. intros H. inversion H; subst. constructor; auto.
  intros Hx. apply H2. apply in_or_app. now left.
Qed.

Ltac ina := repeat (first [progress rewrite in_app_iff in * | progress cbn [In app] in *]).

(** Following field [f] from [a] visits [l] and then [b]. *)
Fixpoint chain (f : N -> option N) (a : N) (l : list N) (b : N) : Prop :=
  match l with
  | [] => f a = Some b
  | x :: l => f a = Some x /\ chain f x l b
  end.

Lemma upd_eq f a v : upd f a v a = Some v.
Proof. unfold upd. now rewrite N.eqb_refl. Qed.
Lemma upd_neq f a v b : b <> a -> upd f a v b = f b.
Proof. unfold upd. destruct (N.eqb_spec b a); congruence. Qed.

Lemma chain_app f l1 : forall a x l2 b,
  chain f a (l1 ++ x :: l2) b <-> chain f a l1 x /\ chain f x l2 b.
Proof.
  induction l1 as [|y l1 IH]; intros a x l2 b; cbn [app chain]; [tauto|].
  rewrite IH. tauto.
Qed.

Lemma chain_ext f g l : forall a b,
  (forall x, In x (a :: l) -> f x = g x) -> chain f a l b -> chain g a l b.
Proof.
  induction l as [|y l IH]; intros a b H; cbn [chain].
  - intros Hc. rewrite <- H; [exact Hc|now left].
  - intros [H1 H2]. split; [rewrite <- H; [exact H1|now left]|].
    apply IH; [|exact H2]. intros x Hx. apply H. now right.
Qed.

Lemma chain_upd f k v a l b : ~ In k (a :: l) -> chain f a l b -> chain (upd f k v) a l b.
Proof.
  intros Hk. apply chain_ext. intros x Hx. symmetry. apply upd_neq. intros ->. contradiction.
Qed.

Lemma chain_first f a l b : chain f a l b -> f a = Some (first_of b l).
Proof. destruct l; cbn; tauto. Qed.

(** The node before position [l1] in a sequence headed by [a]. *)
Definition before (a : N) (l1 : list N) : N := first_of a (rev l1).

Lemma before_cons a x l1 : before a (x :: l1) = before x l1.
Proof.
  unfold before. cbn [rev]. destruct (rev l1) as [|y r]; reflexivity.
Qed.
Lemma before_In a l1 : In (before a l1) (a :: l1).
Proof.
  unfold before. destruct (rev l1) as [|y r] eqn:E; [now left|].
  right. apply in_rev. rewrite E. now left.
Qed.

Lemma chain_insert f n l1 : forall a l2 b,
  chain f a (l1 ++ l2) b -> NoDup (a :: l1 ++ l2) -> ~ In n (a :: l1 ++ l2) ->
  chain (upd (upd f n (first_of b l2)) (before a l1) n) a (l1 ++ n :: l2) b.
Proof.
  induction l1 as [|x l1 IH]; intros a l2 b Hc Hnd Hn.
  - cbn [app] in *. unfold before. cbn [rev first_of chain]. split; [apply upd_eq|].
    assert (Han : a <> n) by (intros ->; apply Hn; now left).
    inversion Hnd as [|? ? Ha Hnd']; subst.
    destruct l2 as [|y l2]; cbn [first_of chain] in *.
    + rewrite upd_neq by congruence. apply upd_eq.
    + destruct Hc as [H1 H2]. split; [rewrite upd_neq by congruence; apply upd_eq|].
      apply chain_upd; [exact Ha|]. apply chain_upd; [|exact H2].
      intros H. apply Hn. now right.
  - cbn [app chain] in *. destruct Hc as [H1 H2]. rewrite before_cons.
    inversion Hnd as [|? ? Ha Hnd']; subst. split.
    + rewrite upd_neq.
      * rewrite upd_neq; [exact H1|]. intros ->. apply Hn. now left.
      * intros ->. apply Ha. pose proof (before_In x l1) as H. destruct H as [H|H].
        -- rewrite <- H. now left.
        -- right. apply in_or_app. now left.
    + apply IH; auto. intros H. apply Hn. now right.
Qed.

Lemma chain_remove f e l1 : forall a l2 b,
  chain f a (l1 ++ e :: l2) b -> NoDup (a :: l1 ++ e :: l2) ->
  chain (upd f (before a l1) (first_of b l2)) a (l1 ++ l2) b.
Proof.
  induction l1 as [|x l1 IH]; intros a l2 b Hc Hnd.
  - cbn [app chain] in *. destruct Hc as [H1 H2]. unfold before. cbn [rev first_of].
    inversion Hnd as [|? ? Ha Hnd']; subst. inversion Hnd' as [|? ? He Hnd'']; subst.
    destruct l2 as [|y l2]; cbn [first_of chain] in *; [apply upd_eq|].
    split; [apply upd_eq|]. apply chain_upd; [|tauto].
    intros H. apply Ha. now right.
  - cbn [app chain] in *. destruct Hc as [H1 H2]. rewrite before_cons.
    inversion Hnd as [|? ? Ha Hnd']; subst. split.
    + rewrite upd_neq; [exact H1|]. intros ->. apply Ha.
      pose proof (before_In x l1) as H. destruct H as [H|H].
      * rewrite <- H. now left.
      * right. apply in_or_app. now left.
    + apply IH; auto.
Qed.

(** ** One list *)
Definition is_list (h : heap) (hd : N) (l : list N) : Prop :=
  chain (nx h) hd l hd /\ chain (pv h) hd (rev l) hd.

Lemma before_rev a l : before a (rev l) = first_of a l.
Proof. unfold before. now rewrite rev_involutive. Qed.

Lemma NoDup_rev_cons {A} (a : A) l : NoDup (a :: l) -> NoDup (a :: rev l).
Proof.
  intros H. inversion H; subst. constructor; [|now apply NoDup_rev].
  now rewrite <- in_rev.
Qed.

Definition mapped (h : heap) (a : N) : Prop := nx h a <> None /\ pv h a <> None.

Lemma chain_mapped f l : forall a b x, chain f a l b -> In x (a :: l) -> f x <> None.
Proof.
  induction l as [|y l IH]; intros a b x Hc Hx; cbn [chain] in Hc.
  - destruct Hx as [->|[]]. congruence.
  - destruct Hc as [H1 H2]. destruct Hx as [->|Hx]; [congruence|]. eapply IH; eauto.
Qed.
Lemma is_list_mapped h hd l x : is_list h hd l -> In x (hd :: l) -> mapped h x.
Proof.
  intros [H1 H2] Hx. split; [eapply chain_mapped; eauto|].
  eapply chain_mapped; [exact H2|]. destruct Hx; [now left|right; now apply -> in_rev].
Qed.

Lemma set_nx_ok h a v : mapped h a -> set_nx h a v = Ok (mkHeap (upd (nx h) a v) (pv h)).
Proof. intros [H _]. unfold set_nx. destruct (nx h a); congruence. Qed.
Lemma set_pv_ok h a v : mapped h a -> set_pv h a v = Ok (mkHeap (nx h) (upd (pv h) a v)).
Proof. intros [_ H]. unfold set_pv. destruct (pv h a); congruence. Qed.
Lemma mapped_upd_nx h a v x g : mapped (mkHeap (nx h) g) x -> mapped (mkHeap (upd (nx h) a v) g) x.
Proof.
  unfold mapped. cbn [nx pv]. unfold upd. intros [H1 H2].
  destruct (x =? a); split; auto; congruence.
Qed.
Lemma mapped_upd_pv h a v x f : mapped (mkHeap f (pv h)) x -> mapped (mkHeap f (upd (pv h) a v)) x.
Proof.
  unfold mapped. cbn [nx pv]. unfold upd. intros [H1 H2].
  destruct (x =? a); split; auto; congruence.
Qed.

Ltac mapped_tac :=
  repeat match goal with
         | |- mapped (mkHeap (upd ?f ?a ?v) ?g) ?x =>
             apply (mapped_upd_nx (mkHeap f g)); cbn [nx pv]
         | |- mapped (mkHeap ?f (upd ?g ?a ?v)) ?x =>
             apply (mapped_upd_pv (mkHeap f g)); cbn [nx pv]
         end.

(** Heap after linking [n] between [l1] and [l2] of the list of [hd]. *)
Definition linked_heap (h : heap) (hd n : N) (l1 l2 : list N) : heap :=
  mkHeap (upd (upd (nx h) n (first_of hd l2)) (before hd l1) n)
         (upd (upd (pv h) (first_of hd l2) n) n (before hd l1)).

Lemma heap_eta h : h = mkHeap (nx h) (pv h).
Proof. now destruct h. Qed.

Lemma link_run h n p q :
  mapped h p -> mapped h q -> mapped h n ->
  dl__link h p q n
  = Ok (mkHeap (upd (upd (nx h) n q) p n) (upd (upd (pv h) q n) n p)).
Proof.
  intros Hp Hq Hn. rewrite (heap_eta h) in Hp, Hq, Hn. unfold dl__link.
  rewrite set_pv_ok by (rewrite (heap_eta h); assumption). cbn [bind nx pv].
  rewrite set_nx_ok by (mapped_tac; assumption). cbn [bind nx pv].
  rewrite set_pv_ok by (mapped_tac; assumption). cbn [bind nx pv].
  rewrite set_nx_ok by (mapped_tac; assumption). reflexivity.
Qed.

Lemma first_of_In a l : In (first_of a l) (a :: l).
Proof. destruct l; [now left|right; now left]. Qed.

Lemma upd_swap_chain f q n p a l b :
  q <> n -> chain (upd (upd f n p) q n) a l b -> chain (upd (upd f q n) n p) a l b.
Proof.
  intros Hqn. apply chain_ext. intros x _. unfold upd.
  destruct (N.eqb_spec x q); destruct (N.eqb_spec x n); congruence.
Qed.

Lemma link_between h hd n l1 l2 :
  is_list h hd (l1 ++ l2) -> NoDup (hd :: l1 ++ l2) -> ~ In n (hd :: l1 ++ l2) -> mapped h n ->
  dl__link h (before hd l1) (first_of hd l2) n = Ok (linked_heap h hd n l1 l2)
  /\ is_list (linked_heap h hd n l1 l2) hd (l1 ++ n :: l2).
Proof.
  intros Hl Hnd Hn Hm.
  assert (Hp : In (before hd l1) (hd :: l1 ++ l2)).
  { destruct (before_In hd l1) as [H|H]; [rewrite <- H; now left|right; apply in_or_app; now left]. }
  assert (Hq : In (first_of hd l2) (hd :: l1 ++ l2)).
  { destruct (first_of_In hd l2) as [H|H]; [rewrite <- H; now left|right; apply in_or_app; now right]. }
  split.
  - apply link_run; auto; eapply is_list_mapped; eauto.
  - destruct Hl as [H1 H2]. split; cbn [linked_heap nx pv].
    + apply chain_insert; auto.
    + rewrite rev_app_distr. cbn [rev]. rewrite <- app_assoc. cbn [app].
      apply upd_swap_chain; [intros E; apply Hn; rewrite <- E; exact Hq|].
      rewrite <- (before_rev hd l2). unfold before at 1.
      apply (chain_insert (pv h) n (rev l2) hd (rev l1) hd).
      * rewrite <- rev_app_distr. exact H2.
      * rewrite <- rev_app_distr. now apply NoDup_rev_cons.
      * rewrite <- rev_app_distr. intros [H|H]; apply Hn; [now left|right; now apply in_rev].
Qed.

Definition unlinked_heap (h : heap) (hd e : N) (l1 l2 : list N) : heap :=
  mkHeap (upd (upd (nx h) (before hd l1) (first_of hd l2)) e 0)
         (upd (upd (pv h) (first_of hd l2) (before hd l1)) e 0).

Lemma chain_mid_first f a l1 e l2 b : chain f a (l1 ++ e :: l2) b -> f e = Some (first_of b l2).
Proof. rewrite chain_app. intros [_ H]. now apply chain_first. Qed.

Lemma unlink_from h hd e l1 l2 :
  is_list h hd (l1 ++ e :: l2) -> NoDup (hd :: l1 ++ e :: l2) -> ~ In 0 (hd :: l1 ++ e :: l2) ->
  nx h e = Some (first_of hd l2) /\ pv h e = Some (before hd l1)
  /\ dl_unlink h e = Ok (unlinked_heap h hd e l1 l2)
  /\ is_list (unlinked_heap h hd e l1 l2) hd (l1 ++ l2).
Proof.
  intros Hl Hnd H0.
  assert (Hp : In (before hd l1) (hd :: l1 ++ e :: l2)).
  { destruct (before_In hd l1) as [H|H]; [rewrite <- H; now left|right; apply in_or_app; now left]. }
  assert (Hq : In (first_of hd l2) (hd :: l1 ++ e :: l2)).
  { destruct (first_of_In hd l2) as [H|H]; [rewrite <- H; now left|right; apply in_or_app; right; now right]. }
  pose proof Hl as [H1 H2].
  assert (Hne : nx h e = Some (first_of hd l2)) by (eapply chain_mid_first; exact H1).
  assert (Hpe : pv h e = Some (before hd l1)).
  { rewrite rev_app_distr in H2. cbn [rev] in H2. rewrite <- app_assoc in H2. cbn [app] in H2.
    eapply chain_mid_first; exact H2. }
  assert (He : ~ In e (hd :: l1 ++ l2)).
  { intros H. change (hd :: l1 ++ e :: l2) with ((hd :: l1) ++ e :: l2) in Hnd.
    apply NoDup_remove_2 in Hnd. exact (Hnd H). }
  split; [exact Hne|]. split; [exact Hpe|]. split.
  - unfold dl_unlink, load. rewrite Hpe. cbn [bind].
    destruct (N.eqb_spec (before hd l1) 0) as [E|_]; [exfalso; apply H0; rewrite <- E; exact Hp|].
    rewrite Hne. cbn [bind].
    destruct (N.eqb_spec (first_of hd l2) 0) as [E|_]; [exfalso; apply H0; rewrite <- E; exact Hq|].
    pose proof (is_list_mapped _ _ _ _ Hl Hp) as Mp. pose proof (is_list_mapped _ _ _ _ Hl Hq) as Mq.
    assert (Me : mapped h e) by (split; congruence).
    rewrite (heap_eta h) in Mp, Mq, Me. unfold dl__unlink.
    rewrite set_pv_ok by (rewrite (heap_eta h); assumption). cbn [bind nx pv].
    rewrite set_nx_ok by (mapped_tac; assumption). cbn [bind nx pv].
    rewrite set_pv_ok by (mapped_tac; assumption). cbn [bind nx pv].
    rewrite set_nx_ok by (mapped_tac; assumption). reflexivity.
  - split; cbn [unlinked_heap nx pv].
    + apply chain_upd; [exact He|]. apply chain_remove with (e := e); auto.
    + rewrite rev_app_distr. apply chain_upd.
      * rewrite <- rev_app_distr. intros [H|H]; apply He; [now left|right; now apply in_rev].
      * rewrite <- (before_rev hd l2). unfold before at 2.
        apply chain_remove with (e := e).
        -- rewrite rev_app_distr in H2. cbn [rev] in H2. rewrite <- app_assoc in H2. exact H2.
        -- apply NoDup_rev_cons in Hnd. rewrite rev_app_distr in Hnd. cbn [rev] in Hnd.
           rewrite <- app_assoc in Hnd. exact Hnd.
Qed.

(** ** All lists *)
Record Inv (h : heap) (w : world) : Prop := mkInv {
  I_nodup : NoDup (addrs w);
  I_null : ~ In 0 (addrs w);
  I_lists : Forall (fun p => is_list h (fst p) (snd p)) (lists w);
  I_loose : Forall (fun a => nx h a = Some 0 /\ pv h a = Some 0) (loose w) }.

Definition flat (ls : list (N * list N)) : list N := concat (map (fun p => fst p :: snd p) ls).
Lemma addrs_split l1 hd l l2 f :
  addrs (mkW (l1 ++ (hd, l) :: l2) f) = flat l1 ++ (hd :: l) ++ flat l2 ++ f.
Proof. unfold addrs, flat. cbn [lists loose]. rewrite map_app, concat_app. cbn [map concat fst snd].
  rewrite <- !app_assoc. reflexivity. Qed.

Lemma In_flat p x ls : In p ls -> In x (fst p :: snd p) -> In x (flat ls).
Proof.
  intros Hp Hx. unfold flat. apply in_concat. exists (fst p :: snd p). split; [|exact Hx].
  apply in_map_iff. exists p. auto.
Qed.

Definition same_on (h h' : heap) (S : N -> Prop) : Prop :=
  forall a, S a -> nx h' a = nx h a /\ pv h' a = pv h a.

Lemma is_list_same h h' hd l (S : N -> Prop) :
  same_on h h' S -> (forall x, In x (hd :: l) -> S x) -> is_list h hd l -> is_list h' hd l.
Proof.
  intros Hs Hin [H1 H2]. split.
  - eapply chain_ext; [|exact H1]. intros x Hx. symmetry. apply Hs, Hin, Hx.
  - eapply chain_ext; [|exact H2]. intros x Hx. symmetry. apply Hs, Hin.
    destruct Hx; [now left|right; now apply in_rev].
Qed.

Lemma In_flat_inv x ls : In x (flat ls) -> exists p, In p ls /\ In x (fst p :: snd p).
Proof.
  unfold flat. intros H. apply in_concat in H as [y [Hy Hx]].
  apply in_map_iff in Hy as [p [<- Hp]]. eauto.
Qed.

Lemma NoDup_app_disj {A} (a b : list A) x : NoDup (a ++ b) -> In x a -> In x b -> False.
Proof.
  induction a as [|y a IH]; [intros _ []|]. cbn. intros H [->|Hx] Hb; inversion H; subst; auto.
  apply H2. apply in_or_app. auto.
Qed.

(** The workhorse: replace one list (and the loose nodes) by something built
    from the same addresses, changing memory only there. *)
Lemma change_one h h' l1 hd l l2 f l' f' :
  Inv h (mkW (l1 ++ (hd, l) :: l2) f) ->
  NoDup ((hd :: l') ++ f') ->
  (forall x, In x ((hd :: l') ++ f') -> In x ((hd :: l) ++ f)) ->
  same_on h h' (fun x => In x (flat l1) \/ In x (flat l2)) ->
  is_list h' hd l' -> Forall (fun a => nx h' a = Some 0 /\ pv h' a = Some 0) f' ->
  Inv h' (mkW (l1 ++ (hd, l') :: l2) f').
Proof.
  intros [Hnd H0 Hls Hlo] Hnd' Hsub Hsame Hl' Hlo'. rewrite addrs_split in *.
  assert (Hsplit : forall x, In x ((hd :: l) ++ f) -> ~ In x (flat l1) /\ ~ In x (flat l2)).
  { intros x Hx. split; intros Hin.
    - eapply NoDup_app_disj; [exact Hnd|exact Hin|].
      ina. tauto.
    - assert (Hnd2 : NoDup (flat l2 ++ (hd :: l) ++ f)).
      { apply NoDup_app_remove_l in Hnd.
        eapply Permutation_NoDup; [|exact Hnd].
        rewrite !app_assoc. apply Permutation_app_tail. apply Permutation_app_comm. }
      eapply NoDup_app_disj; [exact Hnd2|exact Hin|exact Hx]. }
  assert (Hx12 : NoDup (flat l1 ++ flat l2)).
  { clear -Hnd. induction (flat l1) as [|x a IH]; cbn [app] in *.
    - apply (NoDup_app_remove_l (hd :: l)) in Hnd. apply NoDup_app_remove_r in Hnd. exact Hnd.
    - inversion Hnd; subst. constructor; auto. intros Hin. apply H1.
      ina. tauto. }
  constructor.
  - rewrite addrs_split.
    assert (Hperm : Permutation ((flat l1 ++ flat l2) ++ ((hd :: l') ++ f'))
                      (flat l1 ++ (hd :: l') ++ flat l2 ++ f')).
    { rewrite <- !app_assoc. apply Permutation_app_head.
      rewrite !app_assoc. apply Permutation_app_tail. apply Permutation_app_comm. }
    eapply Permutation_NoDup; [exact Hperm|].
    assert (Hgen : forall a b : list N, NoDup a -> NoDup b -> (forall x, In x b -> ~ In x a) -> NoDup (a ++ b)).
    { clear. induction a as [|y a IH]; intros b Ha Hb Hd; [exact Hb|]. cbn. inversion Ha; subst.
      constructor; [|apply IH; auto; intros x Hx Hin; apply (Hd x Hx); now right].
      intros Hin. apply in_app_or in Hin as [Hin|Hin]; [contradiction|].
      apply (Hd y Hin). now left. }
    apply Hgen; auto. intros x Hx Hin. destruct (Hsplit x (Hsub x Hx)) as [A B].
    apply in_app_or in Hin. tauto.
  - rewrite addrs_split. intros Hin. apply H0.
    assert (Hc : In 0 (flat l1) \/ In 0 (flat l2) \/ In 0 ((hd :: l') ++ f')).
    { ina. tauto. }
    destruct Hc as [|[|Hc]]; [ina; tauto|ina; tauto|].
    apply Hsub in Hc. ina. tauto.
  - cbn [lists] in *. apply Forall_app in Hls as [Ha Hb]. inversion Hb; subst.
    apply Forall_app. split; [|constructor; [exact Hl'|]].
    + rewrite Forall_forall in *. intros p Hp. eapply is_list_same; [exact Hsame| |apply Ha; exact Hp].
      intros x Hx. left. eapply In_flat; eauto.
    + rewrite Forall_forall in *. intros p Hp. eapply is_list_same; [exact Hsame| |apply H3; exact Hp].
      intros x Hx. right. eapply In_flat; eauto.
  - exact Hlo'.
Qed.

Lemma inv_list h l1 hd l l2 f :
  Inv h (mkW (l1 ++ (hd, l) :: l2) f) ->
  is_list h hd l /\ NoDup (hd :: l) /\ ~ In 0 (hd :: l) /\ NoDup ((hd :: l) ++ f)
  /\ (forall x, In x ((hd :: l) ++ f) -> ~ (In x (flat l1) \/ In x (flat l2))).
Proof.
  intros [Hnd H0 Hls Hlo]. rewrite addrs_split in *. cbn [lists] in Hls.
  apply Forall_app in Hls as [_ Hb]. inversion Hb; subst.
  assert (Hnd2 : NoDup (((hd :: l) ++ f) ++ (flat l1 ++ flat l2))).
  { eapply Permutation_NoDup; [|exact Hnd].
    rewrite (Permutation_app_comm (flat l2) f).
    rewrite !app_assoc. apply Permutation_app_tail.
    rewrite <- !app_assoc. rewrite Permutation_app_comm.
    rewrite <- app_assoc. reflexivity. }
  split; [assumption|]. split.
  { do 2 apply NoDup_app_remove_r in Hnd2. exact Hnd2. }
  split.
  { intros Hin. apply H0. ina. tauto. }
  split; [apply NoDup_app_remove_r in Hnd2; exact Hnd2|].
  intros x Hx Hin. eapply NoDup_app_disj; [exact Hnd2|exact Hx|]. apply in_or_app. exact Hin.
Qed.

Lemma upd_other2 f a b v w x : x <> a -> x <> b -> upd (upd f a v) b w x = f x.
Proof. intros. rewrite !upd_neq; auto. Qed.

(** Linking anywhere. *)
Lemma link_world h l1 hd a b l2 f1 n f2 :
  Inv h (mkW (l1 ++ (hd, a ++ b) :: l2) (f1 ++ n :: f2)) ->
  exists h', dl__link h (before hd a) (first_of hd b) n = Ok h'
    /\ Inv h' (mkW (l1 ++ (hd, a ++ n :: b) :: l2) (f1 ++ f2))
    /\ same_on h h' (fun x => ~ In x (addrs (mkW (l1 ++ (hd, a ++ b) :: l2) (f1 ++ n :: f2)))).
Proof.
  intros HI. destruct (inv_list _ _ _ _ _ _ HI) as [Hl [Hnd [H0 [Hnf Hdis]]]].
  pose proof (I_loose _ _ HI) as Hlo. cbn [loose] in Hlo.
  assert (Hnm : mapped h n).
  { rewrite Forall_forall in Hlo. destruct (Hlo n) as [A B]; [apply in_or_app; right; now left|].
    split; congruence. }
  assert (Hn : ~ In n (hd :: a ++ b)).
  { intros Hin. eapply NoDup_app_disj; [exact Hnf|exact Hin|]. apply in_or_app; right; now left. }
  destruct (link_between h hd n a b Hl Hnd Hn Hnm) as [He Hl'].
  set (h' := linked_heap h hd n a b) in *.
  assert (Hp : In (before hd a) (hd :: a ++ b)).
  { destruct (before_In hd a) as [H|H]; [rewrite <- H; now left|right; apply in_or_app; now left]. }
  assert (Hq : In (first_of hd b) (hd :: a ++ b)).
  { destruct (first_of_In hd b) as [H|H]; [rewrite <- H; now left|right; apply in_or_app; now right]. }
  assert (Hsame : same_on h h' (fun x => ~ In x (hd :: a ++ b) /\ x <> n)).
  { intros x [Hx Hxn]. unfold h', linked_heap. cbn [nx pv].
    split; apply upd_other2; auto; intros ->; contradiction. }
  exists h'. split; [exact He|]. split.
  - eapply change_one; [exact HI| | | |exact Hl'|].
    + eapply Permutation_NoDup; [|exact Hnf].
      cbn [app]. apply perm_skip. rewrite <- !app_assoc. cbn [app].
      apply Permutation_app_head.
      rewrite app_assoc. symmetry. rewrite app_comm_cons.
      apply Permutation_cons_app. rewrite <- app_assoc. reflexivity.
    + intros x. ina. tauto.
    + intros x Hx. apply Hsame. split.
      * intros Hin. apply (Hdis x); [apply in_or_app; now left|exact Hx].
      * intros ->. apply (Hdis n); [|exact Hx].
        apply in_or_app; right; apply in_or_app; right; now left.
    + apply Forall_app in Hlo as [Lf1 Lf2]. inversion Lf2; subst.
      assert (Hf : forall x, In x (f1 ++ f2) -> ~ In x (hd :: a ++ b) /\ x <> n).
      { intros x Hx. split.
        - intros Hin. eapply NoDup_app_disj; [exact Hnf|exact Hin|].
          rewrite in_app_iff in *. cbn [In]. tauto.
        - intros ->. apply NoDup_app_remove_l in Hnf. apply NoDup_remove_2 in Hnf. contradiction. }
      apply Forall_forall. intros x Hx. destruct (Hsame x (Hf x Hx)) as [-> ->].
      rewrite Forall_forall in *. apply in_app_or in Hx as [Hx|Hx]; auto.
  - intros x Hx. apply Hsame. rewrite addrs_split in Hx. rewrite !in_app_iff in Hx. cbn [In] in Hx.
    split; [|intros ->; tauto]. intros Hin. cbn [In] in Hin. rewrite in_app_iff in Hin. apply Hx.
    rewrite !in_app_iff. tauto.
Qed.

Lemma unlink_world h l1 hd a e b l2 f :
  Inv h (mkW (l1 ++ (hd, a ++ e :: b) :: l2) f) ->
  exists h', dl_unlink h e = Ok h'
    /\ Inv h' (mkW (l1 ++ (hd, a ++ b) :: l2) (e :: f))
    /\ same_on h h' (fun x => ~ In x (addrs (mkW (l1 ++ (hd, a ++ e :: b) :: l2) f))).
Proof.
  intros HI. destruct (inv_list _ _ _ _ _ _ HI) as [Hl [Hnd [H0 [Hnf Hdis]]]].
  pose proof (I_loose _ _ HI) as Hlo. cbn [loose] in Hlo.
  destruct (unlink_from h hd e a b Hl Hnd H0) as [_ [_ [He Hl']]].
  set (h' := unlinked_heap h hd e a b) in *.
  assert (Hp : In (before hd a) (hd :: a ++ e :: b)).
  { destruct (before_In hd a) as [H|H]; [rewrite <- H; now left|right; apply in_or_app; now left]. }
  assert (Hq : In (first_of hd b) (hd :: a ++ e :: b)).
  { destruct (first_of_In hd b) as [H|H]; [rewrite <- H; now left|right; apply in_or_app; right; now right]. }
  assert (Hsame : same_on h h' (fun x => ~ In x (hd :: a ++ e :: b))).
  { intros x Hx. assert (x <> e) by (intros ->; apply Hx; right; apply in_or_app; right; now left).
    unfold h', unlinked_heap. cbn [nx pv].
    split; apply upd_other2; auto; intros ->; contradiction. }
  exists h'. split; [exact He|]. split.
  - eapply change_one; [exact HI| | | |exact Hl'|].
    + eapply Permutation_NoDup; [|exact Hnf].
      cbn [app]. apply perm_skip. rewrite <- !app_assoc. cbn [app].
      apply Permutation_app_head.
      apply Permutation_cons_app. reflexivity.
    + intros x. ina. tauto.
    + intros x Hx. apply Hsame. intros Hin. apply (Hdis x); [apply in_or_app; now left|exact Hx].
    + constructor.
      * unfold h', unlinked_heap. cbn [nx pv]. split; apply upd_eq.
      * apply Forall_forall. intros x Hx.
        assert (Hx' : ~ In x (hd :: a ++ e :: b)).
        { intros Hin. eapply NoDup_app_disj; [exact Hnf|exact Hin|exact Hx]. }
        destruct (Hsame x Hx') as [-> ->]. rewrite Forall_forall in Hlo. auto.
  - intros x Hx. apply Hsame. intros Hin. apply Hx. rewrite addrs_split, !in_app_iff. tauto.
Qed.

(** ** Walking *)
Lemma walk_ok f head : forall fuel a l,
  chain f a l head -> ~ In head l -> (length l < fuel)%nat ->
  walk fuel f (first_of head l) head = Ok (Some l).
Proof.
  intros fuel a l. revert fuel a. induction l as [|x l IH]; intros fuel a Hc Hn Hf;
    (destruct fuel as [|fuel]; [cbn [length] in Hf; lia|]); cbn [walk first_of].
  - now rewrite N.eqb_refl.
  - cbn [chain] in Hc. destruct Hc as [_ Hc].
    destruct (N.eqb_spec x head) as [->|Hx]; [exfalso; apply Hn; now left|].
    unfold load. rewrite (chain_first _ _ _ _ Hc). cbn [bind].
    rewrite (IH fuel x Hc) by (try (intros H; apply Hn; now right); cbn [length] in Hf; lia).
    reflexivity.
Qed.

(** Walking from inside [l] to [s], hopping over the head. *)
Lemma walk_but_tail f s head : forall l fuel x,
  chain f x l s -> ~ In s (x :: l) -> ~ In head (x :: l) -> s <> head ->
  (S (length l) < fuel)%nat ->
  walk_but fuel f x s head = Ok (Some (x :: l)).
Proof.
  induction l as [|y l IH]; intros fuel x Hc Hs Hh Hsh Hf;
    (destruct fuel as [|fuel]; [cbn [length] in Hf; lia|]); cbn [walk_but].
  - destruct (N.eqb_spec x s) as [->|_]; [exfalso; apply Hs; now left|].
    cbn [chain] in Hc. unfold load at 1. rewrite Hc. cbn [bind].
    destruct (N.eqb_spec s head) as [|_]; [contradiction|]. cbn [andb bind].
    destruct fuel as [|fuel]; [cbn [length] in Hf; lia|]. cbn [walk_but]. rewrite N.eqb_refl. reflexivity.
  - destruct (N.eqb_spec x s) as [->|_]; [exfalso; apply Hs; now left|].
    cbn [chain] in Hc. destruct Hc as [H1 Hc]. unfold load at 1. rewrite H1. cbn [bind].
    destruct (N.eqb_spec y head) as [->|_]; [exfalso; apply Hh; right; now left|]. cbn [andb bind].
    rewrite IH; auto; try (cbn [length] in Hf; lia); intros H; [apply Hs|apply Hh]; now right.
Qed.

Lemma walk_but_start f s head l fuel :
  chain f head l s -> ~ In s l -> ~ In head l -> s <> head -> (S (length l) < fuel)%nat ->
  walk_but fuel f (first_of s l) s head = Ok (Some l).
Proof.
  intros Hc Hs Hh Hsh Hf. destruct l as [|x l]; cbn [first_of].
  - destruct fuel; [cbn [length] in Hf; lia|]. cbn [walk_but]. rewrite N.eqb_refl. reflexivity.
  - cbn [chain] in Hc. destruct Hc as [_ Hc]. apply walk_but_tail; auto. cbn [length] in Hf. lia.
Qed.

Lemma walk_but_full f s head a : forall b fuel x,
  chain f x b head -> chain f head a s ->
  ~ In s (x :: b) -> ~ In head (x :: b) -> ~ In s a -> ~ In head a -> s <> head ->
  (S (length a) + S (length b) < fuel)%nat ->
  walk_but fuel f x s head = Ok (Some ((x :: b) ++ a)).
Proof.
  induction b as [|y b IH]; intros fuel x Hb Ha Hs Hh Hsa Hha Hsh Hf;
    (destruct fuel as [|fuel]; [lia|]); cbn [walk_but].
  - destruct (N.eqb_spec x s) as [->|_]; [exfalso; apply Hs; now left|].
    cbn [chain] in Hb. unfold load at 1. rewrite Hb. cbn [bind].
    rewrite N.eqb_refl. destruct (N.eqb_spec s head) as [|_]; [contradiction|]. cbn [negb andb].
    unfold load. rewrite (chain_first _ _ _ _ Ha). cbn [bind].
    rewrite (walk_but_start f s head a fuel) by (auto; cbn [length] in Hf; lia). reflexivity.
  - destruct (N.eqb_spec x s) as [->|_]; [exfalso; apply Hs; now left|].
    cbn [chain] in Hb. destruct Hb as [H1 Hb]. unfold load at 1. rewrite H1. cbn [bind].
    destruct (N.eqb_spec y head) as [->|_]; [exfalso; apply Hh; right; now left|]. cbn [andb bind].
    rewrite IH; auto; try (cbn in *; lia); try reflexivity; intros H; [apply Hs|apply Hh]; now right.
Qed.

Lemma walk_but_one_ok f head a s b fuel :
  chain f head (a ++ s :: b) head -> NoDup (head :: a ++ s :: b) ->
  (S (S (length (a ++ s :: b))) < fuel)%nat ->
  walk_but_one fuel f s head = Ok (Some (b ++ a)).
Proof.
  intros Hc Hnd Hf. apply chain_app in Hc as [Ha Hb].
  assert (Hsh : s <> head).
  { intros ->. inversion Hnd; subst. apply H1. apply in_or_app. right. now left. }
  assert (Hha : ~ In head (a ++ b)).
  { inversion Hnd; subst. intros H. apply H1. rewrite in_app_iff in *. cbn. tauto. }
  assert (Hsab : ~ In s (a ++ b)).
  { inversion Hnd; subst. now apply NoDup_remove_2 in H2. }
  rewrite app_length in Hf. cbn [length] in Hf.
  unfold walk_but_one. unfold load at 1. rewrite (chain_first _ _ _ _ Hb). cbn [bind].
  destruct b as [|x b]; cbn [first_of].
  - rewrite N.eqb_refl. unfold load. rewrite (chain_first _ _ _ _ Ha). cbn [bind].
    rewrite app_nil_r in Hha, Hsab. cbn [app]; apply walk_but_start; auto. cbn [length] in Hf. lia.
  - destruct (N.eqb_spec x head) as [->|_].
    { exfalso. apply Hha. apply in_or_app. right. now left. }
    cbn [bind]. cbn [chain] in Hb. destruct Hb as [_ Hb].
    apply walk_but_full; auto; try (intros H; apply Hha; rewrite in_app_iff; tauto);
      try (intros H; apply Hsab; rewrite in_app_iff; tauto).
    cbn [length] in Hf. lia.
Qed.

(** ** Draining *)
Lemma drain_ok l : forall fuel h l1 hd l2 f,
  Inv h (mkW (l1 ++ (hd, l) :: l2) f) -> (length l < fuel)%nat ->
  forall t, load (nx h) (first_of hd l) = Ok t ->
  exists h', drain false fuel h (first_of hd l) t hd = Ok (Some (h', l))
    /\ Inv h' (mkW (l1 ++ (hd, []) :: l2) (rev l ++ f))
    /\ same_on h h' (fun x => ~ In x (addrs (mkW (l1 ++ (hd, l) :: l2) f))).
Proof.
  induction l as [|x l IH]; intros fuel h l1 hd l2 f HI Hf t Ht;
    (destruct fuel as [|fuel]; [cbn [length] in Hf; lia|]); cbn [drain first_of] in *.
  - rewrite N.eqb_refl. exists h. split; [reflexivity|]. split; [exact HI|]. intros y _; auto.
  - destruct (inv_list _ _ _ _ _ _ HI) as [Hl [Hnd [H0 [Hnf Hdis]]]].
    destruct (N.eqb_spec x hd) as [->|Hx]; [exfalso; apply (NoDup_cons_iff hd) in Hnd; destruct Hnd as [Hnd _]; apply Hnd; now left|].
    destruct (unlink_world h l1 hd [] x l l2 f HI) as [h1 [He [HI1 Hs1]]]. cbn [app] in *.
    rewrite He. cbn [bind].
    destruct Hl as [[_ Hc] _]. unfold load in Ht. rewrite (chain_first _ _ _ _ Hc) in Ht.
    injection Ht as <-.
    destruct (inv_list _ _ _ _ _ _ HI1) as [[Hc1 _] _].
    assert (Ht1 : exists t1, load (nx h1) (first_of hd l) = Ok t1).
    { unfold load. pose proof (chain_mapped _ _ _ _ (first_of hd l) Hc1 (first_of_In _ _)) as Hm.
      destruct (nx h1 (first_of hd l)); [eauto|congruence]. }
    destruct Ht1 as [t1 Ht1]. rewrite Ht1. cbn [bind].
    destruct (IH fuel h1 l1 hd l2 (x :: f) HI1 ltac:(cbn [length] in Hf; lia) t1 Ht1) as [h2 [Hd [HI2 Hs2]]].
    rewrite Hd. cbn [bind option_map fst snd]. exists h2. split; [reflexivity|].
    split; [cbn [rev]; rewrite <- app_assoc; exact HI2|].
    intros y Hy. destruct (Hs1 y Hy) as [<- <-]. apply Hs2.
    intros Hin. apply Hy. rewrite addrs_split in *. rewrite !in_app_iff in *. cbn [In] in *. tauto.
Qed.

Lemma drain_rev_ok l : forall fuel h l1 hd l2 f,
  Inv h (mkW (l1 ++ (hd, rev l) :: l2) f) -> (length l < fuel)%nat ->
  forall t, load (pv h) (first_of hd l) = Ok t ->
  exists h', drain true fuel h (first_of hd l) t hd = Ok (Some (h', l))
    /\ Inv h' (mkW (l1 ++ (hd, []) :: l2) (rev l ++ f))
    /\ same_on h h' (fun x => ~ In x (addrs (mkW (l1 ++ (hd, rev l) :: l2) f))).
Proof.
  induction l as [|x l IH]; intros fuel h l1 hd l2 f HI Hf t Ht;
    (destruct fuel as [|fuel]; [cbn [length] in Hf; lia|]); cbn [drain first_of rev] in *.
  - rewrite N.eqb_refl. exists h. split; [reflexivity|]. split; [exact HI|]. intros y _; auto.
  - destruct (inv_list _ _ _ _ _ _ HI) as [Hl [Hnd [H0 [Hnf Hdis]]]].
    destruct (N.eqb_spec x hd) as [->|Hx].
    { exfalso. apply (NoDup_cons_iff hd) in Hnd. destruct Hnd as [Hnd _]. apply Hnd. apply in_or_app; right; now left. }
    destruct (unlink_world h l1 hd (rev l) x [] l2 f HI) as [h1 [He [HI1 Hs1]]].
    rewrite app_nil_r in HI1.
    rewrite He. cbn [bind].
    destruct Hl as [_ Hc]. rewrite rev_app_distr, rev_involutive in Hc. cbn [rev app chain] in Hc.
    destruct Hc as [_ Hc]. unfold load in Ht. rewrite (chain_first _ _ _ _ Hc) in Ht.
    injection Ht as <-.
    destruct (inv_list _ _ _ _ _ _ HI1) as [[_ Hc1] _]. rewrite rev_involutive in Hc1.
    assert (Ht1 : exists t1, load (pv h1) (first_of hd l) = Ok t1).
    { unfold load. pose proof (chain_mapped _ _ _ _ (first_of hd l) Hc1 (first_of_In _ _)) as Hm.
      destruct (pv h1 (first_of hd l)); [eauto|congruence]. }
    destruct Ht1 as [t1 Ht1]. rewrite Ht1. cbn [bind].
    destruct (IH fuel h1 l1 hd l2 (x :: f) HI1 ltac:(cbn [length] in Hf; lia) t1 Ht1) as [h2 [Hd [HI2 Hs2]]].
    rewrite Hd. cbn [bind option_map fst snd]. exists h2. split; [reflexivity|].
    split; [rewrite <- app_assoc; exact HI2|].
    intros y Hy. destruct (Hs1 y Hy) as [<- <-]. apply Hs2.
    intros Hin. apply Hy. rewrite addrs_split in *. rewrite !in_app_iff in *. cbn [In] in *.
    rewrite ?in_app_iff in *. cbn [In] in *. tauto.
Qed.

(** ** Every operation *)
Lemma load_Some f a v : f a = Some v -> load f a = Ok v.
Proof. unfold load. now intros ->. Qed.

Lemma inv_lists_mid h ls f1 a f2 :
  Inv h (mkW ls (f1 ++ a :: f2)) ->
  exists h', dl_init h a = Ok h' /\ Inv h' (mkW ((a, []) :: ls) (f1 ++ f2))
    /\ same_on h h' (fun x => ~ In x (addrs (mkW ls (f1 ++ a :: f2)))).
Proof.
  intros HI. pose proof HI as [Hnd H0 Hls Hlo]. cbn [lists loose] in *.
  assert (Ha : nx h a = Some 0 /\ pv h a = Some 0).
  { rewrite Forall_forall in Hlo. apply Hlo. apply in_or_app; right; now left. }
  assert (Hm : mapped h a) by (split; destruct Ha; congruence).
  unfold dl_init. rewrite set_nx_ok by exact Hm. cbn [bind].
  rewrite set_pv_ok by (mapped_tac; rewrite <- heap_eta; exact Hm). cbn [nx pv].
  eexists. split; [reflexivity|].
  unfold addrs in *. cbn [lists loose] in *. fold (flat ls) in *.
  assert (Hna : ~ In a (flat ls ++ f1 ++ f2)).
  { rewrite app_assoc in Hnd. apply NoDup_remove_2 in Hnd. rewrite app_assoc. exact Hnd. }
  split.
  - constructor.
    + unfold addrs. cbn [lists loose map concat fst snd app]. fold (flat ls).
      eapply Permutation_NoDup; [|exact Hnd].
      rewrite app_assoc. symmetry. apply Permutation_cons_app.
      rewrite <- app_assoc. reflexivity.
    + unfold addrs. cbn [lists loose map concat fst snd app In]. fold (flat ls).
      intros H. apply H0. ina. tauto.
    + cbn [lists]. constructor; [split; cbn; apply upd_eq|].
      rewrite Forall_forall in *. intros p Hp.
      eapply is_list_same with (S := fun x => x <> a); [| |apply Hls; exact Hp].
      * intros x Hx. cbn [nx pv]. rewrite !upd_neq by exact Hx. auto.
      * intros x Hx ->. apply Hna. apply in_or_app. left. eapply In_flat; eauto.
    + cbn [loose]. apply Forall_app in Hlo as [L1 L2]. inversion L2; subst.
      apply Forall_forall. intros x Hx. cbn [nx pv].
      assert (x <> a) by (intros ->; apply Hna; ina; tauto).
      rewrite !upd_neq by assumption.
      rewrite Forall_forall in *. apply in_app_or in Hx as [Hx|Hx]; auto.
  - intros x Hx. cbn [nx pv].
    assert (x <> a) by (intros ->; apply Hx; ina; tauto).
    rewrite !upd_neq by assumption. auto.
Qed.

Lemma first_of_eqb hd l : ~ In hd l -> (first_of hd l =? hd) = match l with [] => true | _ => false end.
Proof.
  destruct l as [|x l]; intros H; cbn [first_of]; [apply N.eqb_refl|].
  apply N.eqb_neq. intros ->. apply H. now left.
Qed.

Lemma spec_addrs w o w' x : spec w o w' x -> forall a, In a (addrs w') <-> In a (addrs w).
Proof.
  intros H a. destruct H; try tauto; unfold addrs; cbn [lists loose];
    rewrite ?map_app, ?concat_app; cbn [map concat fst snd]; ina; rewrite <- ?in_rev; tauto.
Qed.

Lemma In_addrs_length w : forall l1 hd l l2 f, w = mkW (l1 ++ (hd, l) :: l2) f ->
  (length l < length (addrs w))%nat.
Proof. intros l1 hd l l2 f ->. rewrite addrs_split, !app_length. cbn [length]. lia. Qed.

Lemma step_ok fuel h w o w' x :
  Inv h w -> (S (length (addrs w)) < fuel)%nat -> spec w o w' x ->
  exists h', step fuel h o = Ok (h', x) /\ Inv h' w'
    /\ same_on h h' (fun a => ~ In a (addrs w)).
Proof.
  intros HI Hf Hs. destruct Hs; cbn [step].
  - destruct (inv_lists_mid _ _ _ _ _ HI) as [h' [He H]]. rewrite He. cbn [bind]. eauto.
  - destruct (inv_list _ _ _ _ _ _ HI) as [[Hc _] _].
    destruct (link_world h l1 hd [] l l2 f1 n f2 HI) as [h' [He H]].
    unfold dl_link. rewrite (load_Some _ _ _ (chain_first _ _ _ _ Hc)). cbn [bind].
    unfold before in He. cbn [rev first_of] in He. rewrite He. cbn [bind]. eauto.
  - destruct (inv_list _ _ _ _ _ _ HI) as [[_ Hc] _].
    rewrite <- (app_nil_r l) in HI at 1.
    destruct (link_world h l1 hd l [] l2 f1 n f2 HI) as [h' [He [H1 H2]]].
    unfold dl_link_tail. rewrite (load_Some _ _ _ (chain_first _ _ _ _ Hc)). cbn [bind].
    unfold before in He. cbn [first_of] in He. rewrite He. cbn [bind].
    rewrite app_nil_r in H2. eauto.
  - destruct (unlink_world _ _ _ _ _ _ _ _ HI) as [h' [He H]]. rewrite He. cbn [bind]. eauto.
  - pose proof (I_loose _ _ HI) as Hlo. cbn [loose] in Hlo. rewrite Forall_forall in Hlo.
    destruct (Hlo e H) as [Hn Hp]. unfold dl_unlink. rewrite (load_Some _ _ _ Hp). cbn [bind].
    exists h. split; [reflexivity|]. split; [exact HI|]. intros y _; auto.
  - subst w. destruct (inv_list _ _ _ _ _ _ HI) as [Hl [Hnd [H0 _]]].
    destruct (unlink_from h hd e a b Hl Hnd H0) as [Hn [Hp _]].
    unfold dl_linked. rewrite (load_Some _ _ _ Hn), (load_Some _ _ _ Hp). cbn [bind].
    assert (Hq : first_of hd b <> 0).
    { intros E. apply H0. rewrite <- E.
      destruct (first_of_In hd b) as [H|H]; [rewrite <- H; now left|right; apply in_or_app; right; now right]. }
    assert (Hp0 : before hd a <> 0).
    { intros E. apply H0. rewrite <- E.
      destruct (before_In hd a) as [H|H]; [rewrite <- H; now left|right; apply in_or_app; now left]. }
    apply N.eqb_neq in Hq, Hp0. rewrite Hq, Hp0. cbn [bind negb].
    exists h. split; [reflexivity|]. split; [exact HI|]. intros y _; auto.
  - pose proof (I_loose _ _ HI) as Hlo. cbn [loose] in Hlo. rewrite Forall_forall in Hlo.
    destruct (Hlo e H) as [Hn Hp]. unfold dl_linked. rewrite (load_Some _ _ _ Hn). cbn [bind].
    exists h. split; [reflexivity|]. split; [exact HI|]. intros y _; auto.
  - subst w. destruct (inv_list _ _ _ _ _ _ HI) as [[Hc _] [Hnd _]].
    unfold dl_empty. rewrite (load_Some _ _ _ (chain_first _ _ _ _ Hc)). cbn [bind].
    inversion Hnd; subst. rewrite first_of_eqb by assumption.
    exists h. split; [reflexivity|]. split; [exact HI|]. intros y _; auto.
  - subst w. destruct (inv_list _ _ _ _ _ _ HI) as [[Hc _] _].
    unfold dl_first. rewrite (load_Some _ _ _ (chain_first _ _ _ _ Hc)). cbn [bind].
    exists h. split; [reflexivity|]. split; [exact HI|]. intros y _; auto.
  - subst w. destruct (inv_list _ _ _ _ _ _ HI) as [[_ Hc] _].
    unfold dl_last. rewrite (load_Some _ _ _ (chain_first _ _ _ _ Hc)). cbn [bind].
    exists h. split; [reflexivity|]. split; [exact HI|]. intros y _; auto.
  - subst w. pose proof (In_addrs_length _ _ _ _ _ _ eq_refl : (length l < length (addrs (mkW (l1 ++ (hd, l) :: l2) f)))%nat) as Hlen.
    destruct (inv_list _ _ _ _ _ _ HI) as [[Hc _] [Hnd _]]. inversion Hnd; subst.
    rewrite (load_Some _ _ _ (chain_first _ _ _ _ Hc)). cbn [bind].
    rewrite (walk_ok _ _ fuel hd l Hc) by (auto; lia). cbn [bind].
    exists h. split; [reflexivity|]. split; [exact HI|]. intros y _; auto.
  - subst w. pose proof (In_addrs_length _ _ _ _ _ _ eq_refl : (length l < length (addrs (mkW (l1 ++ (hd, l) :: l2) f)))%nat) as Hlen.
    destruct (inv_list _ _ _ _ _ _ HI) as [[_ Hc] [Hnd _]]. inversion Hnd; subst.
    rewrite (load_Some _ _ _ (chain_first _ _ _ _ Hc)). cbn [bind].
    rewrite (walk_ok _ _ fuel hd (rev l) Hc) by (rewrite ?rev_length, <- ?in_rev; auto; lia). cbn [bind].
    exists h. split; [reflexivity|]. split; [exact HI|]. intros y _; auto.
  - subst w.
    pose proof (In_addrs_length _ _ _ _ _ _ eq_refl : (length (a ++ s :: b) < length (addrs (mkW (l1 ++ (hd, a ++ s :: b) :: l2) f)))%nat) as Hlen.
    destruct (inv_list _ _ _ _ _ _ HI) as [[Hc _] [Hnd _]].
    rewrite (walk_but_one_ok (nx h) hd a s b fuel Hc Hnd) by lia. cbn [bind].
    exists h. split; [reflexivity|]. split; [exact HI|]. intros y _; auto.
  - subst w.
    pose proof (In_addrs_length _ _ _ _ _ _ eq_refl : (length (a ++ s :: b) < length (addrs (mkW (l1 ++ (hd, a ++ s :: b) :: l2) f)))%nat) as Hlen.
    destruct (inv_list _ _ _ _ _ _ HI) as [[_ Hc] [Hnd _]].
    apply NoDup_rev_cons in Hnd.
    rewrite rev_app_distr in Hc, Hnd. cbn [rev] in Hc, Hnd. rewrite <- app_assoc in Hc, Hnd.
    rewrite (walk_but_one_ok (pv h) hd (rev b) s (rev a) fuel Hc Hnd)
      by (rewrite app_length in *; cbn [length app] in *; rewrite !rev_length; lia). cbn [bind].
    exists h. split; [reflexivity|]. split; [exact HI|]. intros y _; auto.
  - pose proof (In_addrs_length _ _ _ _ _ _ eq_refl : (length l < length (addrs (mkW (l1 ++ (hd, l) :: l2) f)))%nat) as Hlen.
    destruct (inv_list _ _ _ _ _ _ HI) as [[Hc _] _].
    rewrite (load_Some _ _ _ (chain_first _ _ _ _ Hc)). cbn [bind].
    assert (Ht : exists t, load (nx h) (first_of hd l) = Ok t).
    { unfold load. pose proof (chain_mapped _ _ _ _ (first_of hd l) Hc (first_of_In _ _)) as Hm.
      destruct (nx h (first_of hd l)); [eauto|congruence]. }
    destruct Ht as [t Ht]. rewrite Ht. cbn [bind].
    destruct (drain_ok l fuel h l1 hd l2 f HI ltac:(lia) t Ht) as [h' [Hd [H1 H2]]].
    rewrite Hd. cbn [bind]. eauto.
  - pose proof (In_addrs_length _ _ _ _ _ _ eq_refl : (length l < length (addrs (mkW (l1 ++ (hd, l) :: l2) f)))%nat) as Hlen.
    destruct (inv_list _ _ _ _ _ _ HI) as [[_ Hc] _].
    rewrite (load_Some _ _ _ (chain_first _ _ _ _ Hc)). cbn [bind].
    assert (Ht : exists t, load (pv h) (first_of hd (rev l)) = Ok t).
    { unfold load. pose proof (chain_mapped _ _ _ _ (first_of hd (rev l)) Hc (first_of_In _ _)) as Hm.
      destruct (pv h (first_of hd (rev l))); [eauto|congruence]. }
    destruct Ht as [t Ht]. rewrite Ht. cbn [bind].
    rewrite <- (rev_involutive l) in HI at 1.
    destruct (drain_rev_ok (rev l) fuel h l1 hd l2 f HI ltac:(rewrite rev_length; lia) t Ht) as [h' [Hd [H1 H2]]].
    rewrite Hd. cbn [bind]. rewrite rev_involutive in *. eauto.
Qed.

Lemma spec_length w o w' x : spec w o w' x -> length (addrs w') = length (addrs w).
Proof.
  intros H. destruct H; try reflexivity; unfold addrs; cbn [lists loose];
    rewrite ?map_app, ?concat_app, ?app_length; cbn [map concat fst snd app length];
    rewrite ?app_length; cbn [length]; rewrite ?app_length, ?rev_length; cbn [length]; lia.
Qed.

Lemma run_ok fuel ops : forall h w w' xs,
  Inv h w -> (S (length (addrs w)) < fuel)%nat -> spec_run w ops w' xs ->
  exists h', run fuel h ops = Ok (h', xs) /\ Inv h' w' /\ same_on h h' (fun a => ~ In a (addrs w)).
Proof.
  induction ops as [|o ops IH]; intros h w w' xs HI Hf Hr; inversion Hr; subst.
  - exists h. split; [reflexivity|]. split; [exact HI|]. intros y _; auto.
  - destruct (step_ok fuel h w o w'0 x HI Hf H2) as [h1 [He [HI1 Hs1]]].
    cbn [run]. rewrite He. cbn [bind fst snd].
    destruct (IH h1 w'0 w' xs0 HI1) as [h2 [He2 [HI2 Hs2]]]; auto.
    { rewrite (spec_length _ _ _ _ H2). exact Hf. }
    rewrite He2. cbn [bind fst snd]. exists h2. split; [reflexivity|]. split; [exact HI2|].
    intros y Hy. destruct (Hs1 y Hy) as [<- <-]. apply Hs2. now rewrite (spec_addrs _ _ _ _ H2).
Qed.

Lemma init_inv nodes other :
  NoDup nodes -> ~ In 0 nodes ->
  Inv (mkHeap (fun a => match zeroed nodes a with Some v => Some v | None => other a end)
              (fun a => match zeroed nodes a with Some v => Some v | None => other a end))
      (mkW [] nodes).
Proof.
  intros Hnd H0. constructor; auto; [constructor|]. cbn [loose]. apply Forall_forall.
  intros x Hx. cbn [nx pv].
  assert (Hz : zeroed nodes x = Some 0).
  { unfold zeroed. replace (existsb (N.eqb x) nodes) with true; [reflexivity|].
    symmetry. apply existsb_exists. exists x. split; [exact Hx|apply N.eqb_refl]. }
  rewrite Hz. auto.
Qed.

Lemma dlist_refines nodes other ops w xs :
  NoDup nodes -> ~ In 0 nodes -> spec_run (mkW [] nodes) ops w xs ->
  let m := fun a => match zeroed nodes a with Some v => Some v | None => other a end in
  exists h', run (length nodes + 2) (mkHeap m m) ops = Ok (h', xs)
    /\ (forall a, ~ In a nodes -> nx h' a = other a /\ pv h' a = other a).
Proof.
  intros Hnd H0 Hr m. pose proof (init_inv nodes other Hnd H0) as HI. fold m in HI.
  destruct (run_ok (length nodes + 2) ops _ _ w xs HI) as [h' [He [_ Hs]]]; auto.
  { unfold addrs. cbn [lists loose map concat app]. lia. }
  exists h'. split; [exact He|]. intros a Ha. destruct (Hs a Ha) as [-> ->]. cbn [nx pv].
  unfold m, zeroed. destruct (existsb (N.eqb a) nodes) eqn:E; [|auto].
  exfalso. apply Ha. apply existsb_exists in E as [y [Hy Hay]]. apply N.eqb_eq in Hay. now subst.
Qed.
