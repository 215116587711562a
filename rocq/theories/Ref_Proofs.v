(** Proofs about reference counts. *)
From Verif Require Import Base Ref_Model Ref_Spec.
From Verif Require Groups_Proofs.

Definition popt (p : option N) : list N := match p with Some id => [id] | None => [] end.
Definition links (s : st) : list N := s_out s ++ s_wait s ++ popt (s_parser s).
Definition refs (s : st) : N := s_outc s + s_waitc s + 1 + bit (parsing s).
Definition ids (s : st) : list N := map g_id (s_msgs s).
Lemma at_in s m : NoDup (ids s) -> In m (s_msgs s) -> at_ s (g_id m) = Some m.
Proof. intros Hd Hi. apply Groups_Proofs.find_key; auto. Qed.
Lemma ids_msg s id : In id (ids s) -> exists m, In m (s_msgs s) /\ g_id m = id.
Proof. intros H. apply in_map_iff in H. destruct H as (m & <- & H). eauto. Qed.
Lemma del_put s id f : (forall m, g_id (f m) = g_id m) -> del (put s id f) id = del s id.
Proof.
  intros Hf. unfold del, put, set_msgs. simpl. f_equal. induction (s_msgs s) as [|m l IH]; simpl; [auto|].
  destruct (N.eqb_spec (g_id m) id) as [E|E]; simpl.
  - rewrite Hf, E, N.eqb_refl. simpl. exact IH.
  - destruct (N.eqb_spec (g_id m) id); [contradiction|]. simpl. f_equal. exact IH.
Qed.
Lemma at_put s id f m : (forall m, g_id (f m) = g_id m) -> at_ s id = Some m -> at_ (put s id f) id = Some (f m).
Proof.
  intros Hf. unfold at_, put, set_msgs. simpl. induction (s_msgs s) as [|x l IH]; simpl; [discriminate|].
  destruct (N.eqb_spec (g_id x) id) as [E|E]; simpl.
  - intros H. injection H as ->. rewrite Hf, E, N.eqb_refl. auto.
  - destruct (N.eqb_spec (g_id x) id); [contradiction|]. exact IH.
Qed.
Lemma bus_unref_keep n s : s_alive s = true -> refs s < s_ref s -> bus_unref (S n) s = Ret (set_bus s true (s_ref s - 1)).
Proof.
  intros Ha Hr. unfold refs in Hr. cbn [bus_unref]. rewrite Ha. cbn [negb].
  destruct (N.eqb_spec (s_ref s) 0); [lia|]. destruct (N.leb_spec (s_ref s) (s_outc s + s_waitc s + 1 + bit (parsing s))); [lia|].
  cbn [obind]. rewrite Ha. cbn [negb]. destruct (N.eqb_spec (s_ref s) 0); [lia|]. destruct (N.ltb_spec 0 (s_ref s - 1)); [auto|lia].
Qed.
Lemma drop_one n s id m : s_alive s = true -> at_ s id = Some m -> g_ref m = 1 -> refs s < s_ref s ->
  msg_unref (S (S n)) s id = Ret (set_bus (del s id) true (s_ref s - 1)).
Proof.
  intros Ha Hm H1 Hr. cbn [msg_unref]. rewrite Hm, H1. cbn [N.eqb]. change (1 =? 0) with false. change (0 <? 1 - 1) with false. cbn iota.
  set (f := fun m0 : msg => mkMsg (g_id m0) (g_ref m0 - 1) (g_user m0)).
  assert (Hp : at_ (put s id f) id = Some (f m)) by (apply at_put; auto).
  change (msg_unref (S n)) with (msg_unref (S n)).
  rewrite (bus_unref_keep n (put s id f)) by (unfold refs in *; assumption). cbn [obind].
  change (at_ (set_bus (put s id f) true (s_ref (put s id f) - 1)) id) with (at_ (put s id f) id). rewrite Hp. f_equal.
  change (del (set_bus (put s id f) true (s_ref (put s id f) - 1)) id) with (set_bus (del (put s id f) id) true (s_ref s - 1)).
  rewrite del_put by auto. reflexivity.
Qed.

Lemma filter_all {A} (f : A -> bool) l : (forall x, In x l -> f x = true) -> filter f l = l.
Proof. induction l as [|x l IH]; simpl; intros H; [auto|]. rewrite H by auto. f_equal. apply IH. auto. Qed.

(** ** Dropping all links *)
Record D (s : st) : Prop := mkD {
  d_alive : s_alive s = true;
  d_ids : NoDup (ids s);
  d_one : forall id, In id (links s) -> exists m, In m (s_msgs s) /\ g_id m = id /\ g_ref m = 1;
  d_links : NoDup (links s);
  d_live : forall m, In m (s_msgs s) -> g_ref m <> 0 -> In (g_id m) (links s);
  d_out : s_outc s = lenN (s_out s);
  d_wait : s_waitc s = lenN (s_wait s);
  d_ref : s_ref s = lenN (links s) + 1 }.
Definition zombies (s : st) : list msg := filter (fun m => g_ref m =? 0) (s_msgs s).
Lemma refs_links s : s_outc s = lenN (s_out s) -> s_waitc s = lenN (s_wait s) -> refs s = lenN (links s) + 1.
Proof.
  intros H1 H2. unfold refs, links, parsing, lenN in *. rewrite !app_length, H1, H2. destruct (s_parser s); simpl; lia.
Qed.
Lemma ids_del s id : NoDup (ids s) -> NoDup (ids (del s id)).
Proof.
  unfold ids, del, set_msgs. simpl. induction (s_msgs s) as [|m l IH]; simpl; [auto|]. rewrite NoDup_cons_iff. intros [Hn Hd].
  destruct (g_id m =? id); simpl; [auto|]. constructor; [|auto]. intros H. apply Hn. apply in_map_iff in H. destruct H as (x & <- & H).
  apply filter_In in H. apply in_map. tauto.
Qed.
Lemma zombies_del s id m : NoDup (ids s) -> In m (s_msgs s) -> g_id m = id -> g_ref m <> 0 -> zombies (del s id) = zombies s.
Proof.
  intros Hd Hi <- Hr. unfold zombies, del, set_msgs, ids in *. simpl. apply in_split in Hi. destruct Hi as (a & b & E). rewrite E in *.
  rewrite Groups_Proofs.filter_mid by exact Hd. rewrite !filter_app. simpl. destruct (N.eqb_spec (g_ref m) 0); [contradiction|auto].
Qed.
(** [s]: with the link [id] removed. *)
Lemma D_next s id : s_alive s = true -> NoDup (ids s) -> (forall x, In x (id :: links s) -> exists m, In m (s_msgs s) /\ g_id m = x /\ g_ref m = 1) ->
  NoDup (id :: links s) -> (forall m, In m (s_msgs s) -> g_ref m <> 0 -> In (g_id m) (id :: links s)) -> s_outc s = lenN (s_out s) ->
  s_waitc s = lenN (s_wait s) -> s_ref s = lenN (links s) + 2 ->
  D (set_bus (del s id) true (s_ref s - 1)) /\ zombies (set_bus (del s id) true (s_ref s - 1)) = zombies s
  /\ forall n, msg_unref (S (S n)) s id = Ret (set_bus (del s id) true (s_ref s - 1)).
Proof.
  intros Ha Hd H1 Hn Hl Ho Hw Hr. destruct (H1 id (or_introl eq_refl)) as (m & Hm & Em & Er).
  split; [|split].
  - constructor; simpl; auto.
    + apply ids_del, Hd.
    + intros x Hx. destruct (H1 x (or_intror Hx)) as (y & Hy & Ey & Ry). exists y. split; [|auto]. apply filter_In. split; [auto|].
      apply negb_true_iff, N.eqb_neq. rewrite Ey. intros ->. inversion Hn; auto.
    + inversion Hn; auto.
    + intros y Hy Ry. apply filter_In in Hy. destruct Hy as [Hy Ny]. apply negb_true_iff, N.eqb_neq in Ny. destruct (Hl y Hy Ry) as [E|E]; [congruence|exact E].
    + change (s_ref s - 1 = lenN (links s) + 1). lia.
  - apply (zombies_del s id m); auto. lia.
  - intros n. rewrite <- Em. apply drop_one with (m := m); auto using at_in. rewrite refs_links by auto. lia.
Qed.
Lemma drain_all n : forall s, D s -> (length (links s) + 5 <= n)%nat ->
  drain n s = Ret (mkSt true 1 (s_ext s) [] 0 [] 0 None (zombies s) (s_next s)).
Proof.
  induction n as [|n IH]; intros s HD Hn; [lia|]. destruct HD as [Ha Hd H1 Hl Hv Ho Hw Hr].
  cbn [drain]. destruct (s_out s) as [|id out] eqn:Eo.
  2:{ set (s1 := set_out s out (s_outc s - 1)).
    assert (El : links s = id :: links s1) by (unfold links; rewrite Eo; reflexivity).
    rewrite El in *. destruct (D_next s1 id) as (D1 & Z1 & E1); auto.
    - unfold s1, lenN in *. simpl in *. lia.
    - simpl. unfold lenN in *. simpl in Hr. lia.
    - destruct n as [|[|n]]; [simpl in Hn; lia..|]. rewrite E1. cbn [obind]. rewrite IH by (auto; simpl in *; unfold links in *; simpl in *; lia). rewrite Z1. reflexivity. }
  destruct (s_wait s) as [|id wait] eqn:Ew.
  2:{ set (s1 := set_wait s wait (s_waitc s - 1)).
    assert (El : links s = id :: links s1) by (unfold links; rewrite Eo, Ew; simpl; rewrite Eo; reflexivity).
    rewrite El in *. destruct (D_next s1 id) as (D1 & Z1 & E1); auto.
    - unfold s1. simpl. rewrite Eo. exact Ho.
    - unfold s1, lenN in *. simpl in *. lia.
    - simpl. unfold lenN in *. simpl in Hr. lia.
    - destruct n as [|[|n]]; [simpl in Hn; lia..|]. rewrite E1. cbn [obind]. rewrite IH by (auto; simpl in *; unfold links in *; simpl in *; lia). rewrite Z1. reflexivity. }
  assert (El : links s = popt (s_parser s)) by (unfold links; rewrite Eo, Ew; reflexivity).
  destruct (s_parser s) as [id|] eqn:Ep; simpl popt in El.
  - rewrite El in *. destruct (H1 id (or_introl eq_refl)) as (m & Hm & Em & Er). assert (Hat := at_in s m Hd Hm). rewrite Em in Hat.
    destruct n as [|[|[|[|n]]]]; [simpl in Hn; lia..|].
    cbn [msg_unref]. rewrite Hat, Er. change (1 =? 0) with false. change (0 <? 1 - 1) with false. cbn iota.
    set (f := fun m0 : msg => mkMsg (g_id m0) (g_ref m0 - 1) (g_user m0)).
    assert (Hp : at_ (put s id f) id = Some (f m)) by (apply at_put; auto).
    change (lenN [id]) with 1 in Hr. cbn [bus_unref].
    change (s_alive (put s id f)) with (s_alive s). change (s_ref (put s id f)) with (s_ref s).
    change (s_outc (put s id f)) with (s_outc s). change (s_waitc (put s id f)) with (s_waitc s).
    change (s_out (put s id f)) with (s_out s). change (s_wait (put s id f)) with (s_wait s).
    change (parsing (put s id f)) with (parsing s). unfold parsing. rewrite Ep, Ha, Hr, Ho, Hw, Eo, Ew. simpl negb. cbn iota.
    change (1 + 1 =? 0) with false. change (1 + 1 <=? lenN [] + lenN [] + 1 + bit true) with true. cbn iota. cbn [single app obind].
    cbn [drain]. change (s_out (put s id f)) with (s_out s). change (s_wait (put s id f)) with (s_wait s). change (s_parser (put s id f)) with (s_parser s).
    rewrite Eo, Ew, Ep. cbn [msg_unref]. rewrite Hp. cbn [f g_ref]. rewrite Er. change (1 - 1 =? 0) with true. cbn iota. cbn [obind].
    set (s2 := set_parser (put s id f) None). change (s_alive s2) with (s_alive s). change (s_ref s2) with (s_ref s). rewrite Ha, Hr. simpl negb. cbn iota.
    change (1 + 1 =? 0) with false. cbn iota. cbn [obind].
    change (at_ (set_bus s2 (0 <? 1 + 1 - 1) (1 + 1 - 1)) id) with (at_ (put s id f) id). rewrite Hp.
    change (del (set_bus s2 (0 <? 1 + 1 - 1) (1 + 1 - 1)) id) with (set_parser (set_bus (del (put s id f) id) true 1) None).
    rewrite del_put by auto. f_equal. unfold set_parser, set_bus, del, set_msgs. simpl. rewrite Eo, Ew, Ho, Hw. change (lenN (@nil N)) with 0.
    rewrite <- (zombies_del s id m Hd Hm Em) by lia. unfold zombies, del, set_msgs. simpl.
    rewrite (filter_all (fun m0 => g_ref m0 =? 0)); [reflexivity|]. intros x Hx. apply filter_In in Hx. destruct Hx as [Hx Nx]. apply negb_true_iff, N.eqb_neq in Nx. apply N.eqb_eq.
    destruct (N.eq_dec (g_ref x) 0) as [|Rx]; [auto|]. destruct (Hv x Hx Rx) as [E|[]]. congruence.
  - f_equal. rewrite El in Hr. change (lenN []) with 0 in Hr. unfold zombies. rewrite filter_all.
    + destruct s as [al rf ex out oc wt wc ps ms nx]. simpl in *. subst. reflexivity.
    + intros x Hx. apply N.eqb_eq. destruct (N.eq_dec (g_ref x) 0) as [|Rx]; [auto|]. assert (H := Hv x Hx Rx). rewrite El in H. destruct H.
Qed.

(** ** Counts *)
Definition nlinks (s : st) (id : N) : N := bit (is_in id (s_out s)) + bit (is_in id (s_wait s)) + bit (is_in id (popt (s_parser s))).
Definition live (s : st) : list msg := filter (fun m => negb (g_ref m =? 0)) (s_msgs s).
(** [k] references to the bus and one to the message [e] are about to be dropped. *)
Record wf (k : N) (e : option N) (s : st) : Prop := mkWf {
  w_alive : s_alive s = true;
  w_ids : NoDup (ids s);
  w_next : forall m, In m (s_msgs s) -> g_id m < s_next s;
  w_out : NoDup (s_out s);
  w_wait : NoDup (s_wait s);
  w_links : forall id, In id (links s) -> In id (ids s);
  w_parser : forall id, s_parser s = Some id -> ~ In id (s_out s) /\ ~ In id (s_wait s);
  w_ref : forall m, In m (s_msgs s) -> g_ref m = g_user m + nlinks s (g_id m) + bit (is_in (g_id m) (popt e));
  w_user : forall m, In m (s_msgs s) -> s_parser s = Some (g_id m) -> g_user m = 0;
  w_outc : s_outc s = lenN (s_out s);
  w_waitc : s_waitc s = lenN (s_wait s);
  w_count : s_ref s = s_ext s + lenN (live s) + k }.
Lemma is_in_In id l : is_in id l = true <-> In id l.
Proof.
  unfold is_in. rewrite existsb_exists. split.
  - intros (x & Hx & E). apply N.eqb_eq in E. subst. auto.
  - intros H. exists id. rewrite N.eqb_refl. auto.
Qed.
Lemma is_in_not id l : is_in id l = false <-> ~ In id l.
Proof. rewrite <- is_in_In. destruct (is_in id l); split; intros; try congruence; exfalso; auto. Qed.
Lemma links_n s id : In id (links s) <-> 1 <= nlinks s id.
Proof.
  unfold links, nlinks. rewrite !in_app_iff, <- !is_in_In.
  destruct (is_in id (s_out s)), (is_in id (s_wait s)), (is_in id (popt (s_parser s))); simpl; split; intros; try lia; auto; intuition discriminate.
Qed.
Definition collectable (s : st) : Prop := s_ext s = 0 /\ (forall m, In m (s_msgs s) -> g_user m = 0) /\ (forall id, In id (s_out s) -> ~ In id (s_wait s)).
Lemma single_true s l : single s l = Ret true -> forall id, In id l -> exists m, at_ s id = Some m /\ g_ref m <= 1.
Proof.
  induction l as [|x l IH]; simpl; intros H id Hi; [contradiction|]. destruct (at_ s x) as [m|] eqn:E; [|discriminate].
  destruct (N.ltb_spec 1 (g_ref m)); [discriminate|]. destruct Hi as [->|Hi]; [eauto|]. apply IH; auto.
Qed.
Lemma single_total s l : (forall id, In id l -> In id (ids s)) -> NoDup (ids s) -> exists q, single s l = Ret q.
Proof.
  intros H Hd. induction l as [|x l IH]; simpl; [eauto|]. destruct (ids_msg s x (H x (or_introl eq_refl))) as (m & Hm & <-).
  rewrite (at_in s m Hd Hm). destruct (1 <? g_ref m); [eauto|]. apply IH. intros id Hi. apply H. simpl. auto.
Qed.
Lemma single_all s l : (forall id, In id l -> exists m, at_ s id = Some m /\ g_ref m <= 1) -> single s l = Ret true.
Proof.
  induction l as [|x l IH]; simpl; intros H; [auto|]. destruct (H x (or_introl eq_refl)) as (m & -> & Hm).
  destruct (N.ltb_spec 1 (g_ref m)); [lia|]. apply IH. auto.
Qed.
Lemma NoDup_links s : NoDup (s_out s) -> NoDup (s_wait s) -> (forall id, s_parser s = Some id -> ~ In id (s_out s) /\ ~ In id (s_wait s)) ->
  (forall id, In id (s_out s) -> ~ In id (s_wait s)) -> NoDup (links s).
Proof.
  intros Ho Hw Hp Hx. unfold links.
  assert (H : NoDup (s_wait s ++ popt (s_parser s))).
  { destruct (s_parser s) as [id|]; simpl; [|rewrite app_nil_r; auto].
    apply NoDup_Add with (a := id) (l := s_wait s); [rewrite <- (app_nil_r (s_wait s)) at 1; apply Add_app|]. split; [auto|]. apply Hp. auto. }
  induction (s_out s) as [|x out IH]; simpl; [auto|]. inversion Ho; subst. constructor.
  - rewrite !in_app_iff. intros [H'|[H'|H']]; [auto|apply (Hx x); simpl; auto|].
    destruct (s_parser s) as [id|] eqn:E; simpl in H'; [|auto]. destruct H' as [->|[]]. destruct (Hp x eq_refl) as [Hq _]. apply Hq. simpl. auto.
  - apply IH; auto; [|intros id Hi; apply Hx; simpl; auto]. intros id E. specialize (Hp id E). simpl in Hp. tauto.
Qed.
Lemma ids_live s : NoDup (ids s) -> NoDup (map g_id (live s)).
Proof.
  unfold ids, live. induction (s_msgs s) as [|m l IH]; simpl; [auto|]. rewrite NoDup_cons_iff. intros [Hn Hd].
  destruct (negb (g_ref m =? 0)); simpl; [|auto]. constructor; [|auto]. intros H. apply Hn. apply in_map_iff in H. destruct H as (x & <- & H).
  apply filter_In in H. apply in_map. tauto.
Qed.
Lemma in_live s m : In m (live s) <-> In m (s_msgs s) /\ g_ref m <> 0.
Proof. unfold live. rewrite filter_In, negb_true_iff, N.eqb_neq. tauto. Qed.
Lemma parser_single s id : (forall id, s_parser s = Some id -> ~ In id (s_out s) /\ ~ In id (s_wait s)) -> (forall id, In id (s_out s) -> ~ In id (s_wait s)) ->
  nlinks s id <= 1.
Proof.
  intros Hp Hx. unfold nlinks.
  assert (H1 : is_in id (s_out s) = true -> is_in id (s_wait s) = true -> False) by (rewrite !is_in_In; apply Hx).
  assert (H2 : is_in id (popt (s_parser s)) = true -> is_in id (s_out s) = false /\ is_in id (s_wait s) = false).
  { rewrite is_in_In, !is_in_not. destruct (s_parser s) as [p|]; simpl; intros []; [subst; auto|contradiction]. }
  destruct (is_in id (s_out s)), (is_in id (s_wait s)), (is_in id (popt (s_parser s))); simpl; try lia; exfalso; auto; destruct (H2 eq_refl); discriminate.
Qed.
Lemma collect_cond s : wf 1 None s -> (s_ref s <= refs s /\ single s (s_out s ++ s_wait s) = Ret true) <-> collectable s.
Proof.
  intros [Ha Hd Hx Ho Hw Hl Hp Hr Hus Hoc Hwc Hc]. rewrite (refs_links s Hoc Hwc). simpl in Hr. split.
  - intros [H1 H2]. assert (H3 := single_true _ _ H2).
    assert (Hdis : forall id, In id (s_out s) -> ~ In id (s_wait s)).
    { intros id Hi Hj. destruct (H3 id) as (m & Em & Rm); [apply in_app_iff; auto|]. apply find_some in Em. destruct Em as [Im Em]. apply N.eqb_eq in Em. subst.
      rewrite (Hr m Im) in Rm. unfold nlinks in Rm. apply is_in_In in Hi, Hj. rewrite Hi, Hj in Rm. simpl in Rm. lia. }
    assert (Hn := NoDup_links s Ho Hw Hp Hdis).
    assert (Hi : incl (links s) (map g_id (live s))).
    { intros id Hi. destruct (ids_msg s id (Hl id Hi)) as (m & Hm & <-). apply in_map, in_live. split; [auto|]. rewrite (Hr m Hm). apply links_n in Hi. lia. }
    assert (L := NoDup_incl_length Hn Hi). rewrite map_length in L. unfold lenN in *. split; [lia|]. split; [|exact Hdis].
    assert (Hi2 : incl (map g_id (live s)) (links s)).
    { apply NoDup_length_incl; [exact Hn|rewrite map_length; lia|exact Hi]. }
    intros m Hm. destruct (N.eq_dec (g_ref m) 0) as [E|E]; [rewrite (Hr m Hm) in E; lia|].
    assert (Hin : In (g_id m) (links s)) by (apply Hi2, in_map, in_live; auto).
    assert (Hrm := Hr m Hm). apply links_n in Hin as Hk.
    unfold links in Hin. rewrite app_assoc, in_app_iff in Hin. destruct Hin as [Hin|Hin].
    + destruct (H3 _ Hin) as (m' & Em & Rm). rewrite (at_in s m Hd Hm) in Em. injection Em as <-. lia.
    + apply Hus; [auto|]. destruct (s_parser s); simpl in Hin; [|contradiction]. destruct Hin as [->|[]]. auto.
  - intros (He & Hu & Hdis). assert (Hone : forall id, nlinks s id <= 1) by (intros; apply parser_single; auto). split.
    + assert (Hi : incl (map g_id (live s)) (links s)).
      { intros id Hi. apply in_map_iff in Hi. destruct Hi as (m & <- & Hm). apply in_live in Hm. destruct Hm as [Hm Rm]. rewrite (Hr m Hm), (Hu m Hm) in Rm. apply links_n. lia. }
      assert (L := NoDup_incl_length (ids_live s Hd) Hi). rewrite map_length in L. unfold lenN in *. lia.
    + apply single_all. intros id Hi. assert (Hin : In id (ids s)) by (apply Hl; unfold links; rewrite app_assoc, in_app_iff; auto).
      destruct (ids_msg s id Hin) as (m & Hm & <-). exists m. split; [apply at_in; auto|]. rewrite (Hr m Hm), (Hu m Hm). specialize (Hone (g_id m)). simpl. lia.
Qed.
Definition dead_with (s : st) (ms : list msg) : st := mkSt false 0 0 [] 0 [] 0 None ms (s_next s).
Lemma wf_D s : wf 1 None s -> collectable s -> D s.
Proof.
  intros W C. assert (C' := C). apply (collect_cond s W) in C'. destruct C' as [C1 _]. destruct C as (He & Hu & Hdis).
  destruct W as [Ha Hd Hx Ho Hw Hl Hp Hr Hus Hoc Hwc Hc]. simpl in Hr.
  assert (Hn := NoDup_links s Ho Hw Hp Hdis). rewrite (refs_links s Hoc Hwc) in C1.
  assert (Hone : forall id, nlinks s id <= 1) by (intros; apply parser_single; auto).
  constructor; auto.
  - intros id Hi. destruct (ids_msg s id (Hl id Hi)) as (m & Hm & <-). exists m. split; [auto|]. split; [auto|]. rewrite (Hr m Hm), (Hu m Hm).
    apply links_n in Hi. specialize (Hone (g_id m)). lia.
  - intros m Hm Rm. apply links_n. rewrite (Hr m Hm), (Hu m Hm) in Rm. lia.
  - assert (Hi : incl (links s) (map g_id (live s))).
    { intros id Hi. destruct (ids_msg s id (Hl id Hi)) as (m & Hm & <-). apply in_map, in_live. split; [auto|]. rewrite (Hr m Hm). apply links_n in Hi. lia. }
    assert (L := NoDup_incl_length Hn Hi). rewrite map_length in L. unfold lenN in *. lia.
Qed.
Lemma links_len s : length (links s) = (length (s_out s) + length (s_wait s) + (if parsing s then 1 else 0))%nat.
Proof. unfold links, parsing. rewrite !app_length. destruct (s_parser s); simpl; lia. Qed.
Lemma bus_unref_wf n s : wf 1 None s -> (length (s_out s) + length (s_wait s) + 7 <= n)%nat ->
  (collectable s /\ bus_unref n s = Ret (dead_with s (zombies s)))
  \/ (~ collectable s /\ 1 < s_ref s /\ bus_unref n s = Ret (set_bus s true (s_ref s - 1))).
Proof.
  intros W Hn. assert (C := collect_cond s W). destruct n as [|n]; [lia|].
  destruct (single_total s (s_out s ++ s_wait s)) as [q Eq].
  { intros id Hi. apply (w_links _ _ _ W). unfold links. rewrite app_assoc, in_app_iff. auto. } { apply W. }
  assert (Hpos : 1 <= s_ref s) by (rewrite (w_count _ _ _ W); lia).
  assert (Hcase : (s_ref s <=? refs s) && q = true \/ (s_ref s <=? refs s) && q = false) by (destruct ((s_ref s <=? refs s) && q); auto).
  cbn [bus_unref]. rewrite (w_alive _ _ _ W). cbn [negb]. destruct (N.eqb_spec (s_ref s) 0); [lia|]. fold (refs s). rewrite Eq.
  assert (Eif : (if s_ref s <=? refs s then Ret q else Ret false) = Ret ((s_ref s <=? refs s) && q)) by (destruct (s_ref s <=? refs s); auto).
  rewrite Eif. cbn [obind]. destruct Hcase as [Hq|Hq]; rewrite Hq.
  - left. apply andb_true_iff in Hq. destruct Hq as [Hq ->]. apply N.leb_le in Hq. assert (Hc : collectable s) by (apply C; auto). split; [auto|].
    rewrite (drain_all n s (wf_D s W Hc)); [|rewrite links_len; destruct (parsing s); lia]. cbn [obind s_alive s_ref negb].
    change (1 =? 0) with false. cbn iota. destruct Hc as (He & _). rewrite He. reflexivity.
  - right. assert (Hnc : ~ collectable s).
    { intros Hc. apply C in Hc. destruct Hc as [H1 H2]. rewrite H2 in Eq. injection Eq as <-. apply N.leb_le in H1. rewrite H1 in Hq. discriminate. }
    assert (H1 : 1 < s_ref s).
    { destruct (N.eq_dec (s_ref s) 1) as [E|]; [|lia]. exfalso. apply Hnc. assert (Hc := w_count _ _ _ W). rewrite E in Hc.
      assert (He : s_ext s = 0) by lia. assert (Hl : live s = []) by (destruct (live s); [auto|unfold lenN in Hc; simpl in Hc; lia]).
      assert (Hz : forall m, In m (s_msgs s) -> g_ref m = 0).
      { intros m Hm. destruct (N.eq_dec (g_ref m) 0) as [|R]; [auto|]. assert (H : In m (live s)) by (apply in_live; auto). rewrite Hl in H. destruct H. }
      split; [auto|]. split.
      - intros m Hm. assert (R := w_ref _ _ _ W m Hm). rewrite (Hz m Hm) in R. lia.
      - intros id Hi. exfalso. assert (Hin : In id (links s)) by (unfold links; rewrite in_app_iff; auto).
        destruct (ids_msg s id (w_links _ _ _ W id Hin)) as (m & Hm & <-). assert (R := w_ref _ _ _ W m Hm). rewrite (Hz m Hm) in R. apply links_n in Hin. lia. }
    split; [auto|]. split; [auto|]. cbn [obind]. rewrite (w_alive _ _ _ W). cbn [negb]. destruct (N.eqb_spec (s_ref s) 0); [lia|].
    destruct (N.ltb_spec 0 (s_ref s - 1)); [auto|lia].
Qed.

(** ** Changing a message *)
Lemma ids_put s id f : (forall x, g_id (f x) = g_id x) -> ids (put s id f) = ids s.
Proof. intros Hf. unfold ids, put, set_msgs. simpl. rewrite map_map. apply map_ext. intros x. destruct (g_id x =? id); auto. Qed.
Lemma in_put s id f x : In x (s_msgs (put s id f)) -> (In x (s_msgs s) /\ g_id x <> id) \/ exists m, In m (s_msgs s) /\ g_id m = id /\ x = f m.
Proof.
  unfold put, set_msgs. simpl. intros H. apply in_map_iff in H. destruct H as (m & <- & Hm). destruct (N.eqb_spec (g_id m) id); [right; eauto|left; auto].
Qed.
Lemma same_msg s m m' : NoDup (ids s) -> In m (s_msgs s) -> In m' (s_msgs s) -> g_id m = g_id m' -> m = m'.
Proof. intros Hd H1 H2 E. assert (A1 := at_in s m Hd H1). assert (A2 := at_in s m' Hd H2). rewrite E in A1. congruence. Qed.
Lemma live_put s id f m : NoDup (ids s) -> In m (s_msgs s) -> g_id m = id ->
  lenN (live (put s id f)) + bit (negb (g_ref m =? 0)) = lenN (live s) + bit (negb (g_ref (f m) =? 0)).
Proof.
  intros Hd Hi <-. unfold live, put, set_msgs, ids in *. simpl. apply in_split in Hi. destruct Hi as (a & b & E). rewrite E in *.
  rewrite Groups_Proofs.upd_mid by exact Hd. rewrite !filter_app. simpl. unfold lenN. rewrite !app_length.
  destruct (g_ref m =? 0), (g_ref (f m) =? 0); simpl; lia.
Qed.
Lemma live_del s id m : NoDup (ids s) -> In m (s_msgs s) -> g_id m = id -> g_ref m = 0 -> live (del s id) = live s.
Proof.
  intros Hd Hi <- R. unfold live, del, set_msgs, ids in *. simpl. apply in_split in Hi. destruct Hi as (a & b & E). rewrite E in *.
  rewrite Groups_Proofs.filter_mid by exact Hd. rewrite !filter_app. simpl. rewrite R. auto.
Qed.
Lemma wf_upd k e k' e' s s' id f m : wf k e s -> In m (s_msgs s) -> g_id m = id -> (forall x, g_id (f x) = g_id x) ->
  s_alive s' = true -> s_msgs s' = s_msgs (put s id f) -> s_next s' = s_next s -> NoDup (s_out s') -> NoDup (s_wait s') ->
  (forall x, In x (links s') -> x = id \/ In x (links s)) ->
  (forall x, s_parser s' = Some x -> ~ In x (s_out s') /\ ~ In x (s_wait s')) ->
  (forall x, x <> id -> nlinks s' x = nlinks s x /\ is_in x (popt e') = is_in x (popt e)) ->
  g_ref (f m) = g_user (f m) + nlinks s' id + bit (is_in id (popt e')) ->
  (s_parser s' = None \/ s_parser s' = s_parser s /\ (s_parser s' = Some id -> g_user (f m) = 0)) ->
  s_outc s' = lenN (s_out s') -> s_waitc s' = lenN (s_wait s') -> s_ref s' = s_ext s' + lenN (live s') + k' -> wf k' e' s'.
Proof.
  intros [Ha Hd Hx Ho Hw Hl Hp Hr Hus Hoc Hwc Hc] Hm Em Hf A1 A2 A3 A4 A5 A6 A7 A8 A9 A10 A11 A12 A13.
  assert (Eids : ids s' = ids s) by (unfold ids; rewrite A2; apply (ids_put s id f Hf)).
  assert (Hin : forall x, In x (s_msgs s') -> (In x (s_msgs s) /\ g_id x <> id) \/ x = f m).
  { intros x Hi. rewrite A2 in Hi. apply in_put in Hi. destruct Hi as [Hi|(y & Hy & Ey & ->)]; [auto|]. right. f_equal. apply (same_msg s); auto. congruence. }
  constructor; auto.
  - rewrite Eids. exact Hd.
  - intros x Hi. rewrite A3. destruct (Hin x Hi) as [[Hi' _]| ->]; [auto|]. rewrite Hf. auto.
  - intros x Hi. rewrite Eids. destruct (A6 x Hi) as [->|Hi']; [|auto]. rewrite <- Em. apply in_map, Hm.
  - intros x Hi. destruct (Hin x Hi) as [[Hi' N]| ->].
    + destruct (A8 (g_id x) N) as [B1 B2]. rewrite B1, B2. auto.
    + rewrite Hf, Em. exact A9.
  - intros x Hi Ep. destruct A10 as [E|[E A10]]; [congruence|]. destruct (Hin x Hi) as [[Hi' N]| ->].
    + apply Hus; [auto|]. congruence.
    + apply A10. rewrite Hf, Em in Ep. exact Ep.
Qed.
Lemma wf_bus s : wf 1 None s -> 1 < s_ref s -> wf 0 None (set_bus s true (s_ref s - 1)).
Proof. intros [Ha Hd Hx Ho Hw Hl Hp Hr Hus Hoc Hwc Hc] H1. constructor; auto. simpl. change (live (set_bus _ _ _)) with (live s). lia. Qed.
Lemma wf_del k s id m : wf k None s -> In m (s_msgs s) -> g_id m = id -> g_ref m = 0 -> wf k None (del s id).
Proof.
  intros [Ha Hd Hx Ho Hw Hl Hp Hr Hus Hoc Hwc Hc] Hm Em Rm.
  assert (Hsub : forall x, In x (s_msgs (del s id)) -> In x (s_msgs s)) by (unfold del, set_msgs; simpl; intros x Hi; apply filter_In in Hi; tauto).
  constructor; auto.
  - apply ids_del, Hd.
  - intros x Hi. change (In x (links s)) in Hi. destruct (ids_msg s x (Hl x Hi)) as (y & Hy & <-). unfold ids, del, set_msgs. simpl. apply in_map, filter_In.
    split; [auto|]. apply negb_true_iff, N.eqb_neq. intros E. assert (y = m) by (apply (same_msg s); auto; congruence). subst y.
    assert (R := Hr m Hm). apply links_n in Hi. simpl in R. lia.
  - intros x Hi. apply Hr; auto.
  - change (s_ref s = s_ext s + lenN (live (del s id)) + k). rewrite (live_del s id m); auto.
Qed.
Definition dec (m : msg) : msg := mkMsg (g_id m) (g_ref m - 1) (g_user m).
Lemma wf_dec s id m : wf 0 (Some id) s -> In m (s_msgs s) -> g_id m = id -> wf (bit (g_ref m =? 1)) None (put s id dec).
Proof.
  intros W Hm Em. assert (R := w_ref _ _ _ W m Hm). simpl popt in R. rewrite Em in R. unfold is_in in R. simpl existsb in R. rewrite N.eqb_refl in R. simpl bit in R.
  apply (wf_upd 0 (Some id) (bit (g_ref m =? 1)) None s (put s id dec) id dec m W Hm Em).
  - auto.
  - apply W.
  - auto.
  - auto.
  - apply W.
  - apply W.
  - intros x Hi. right. exact Hi.
  - apply W.
  - intros x Hx. split; [reflexivity|]. simpl. unfold is_in. simpl. destruct (N.eqb_spec id x); [congruence|auto].
  - simpl. change (nlinks (put s id dec) id) with (nlinks s id). lia.
  - right. split; [auto|]. intros Ep. simpl. apply (w_user _ _ _ W m Hm). rewrite Em. exact Ep.
  - apply W.
  - apply W.
  - change (s_ref s = s_ext s + lenN (live (put s id dec)) + bit (g_ref m =? 1)). rewrite (w_count _ _ _ W).
    assert (L := live_put s id dec m (w_ids _ _ _ W) Hm Em). simpl g_ref in L. unfold bit in *.
    destruct (N.eqb_spec (g_ref m) 0), (N.eqb_spec (g_ref m - 1) 0), (N.eqb_spec (g_ref m) 1); simpl in L; lia.
Qed.

(** ** The invariant *)
Definition dead (s : st) : Prop := s_alive s = false /\ s_msgs s = [] /\ s_ext s = 0 /\ s_out s = [] /\ s_wait s = [] /\ s_parser s = None.
Definition up (s : st) : Prop := wf 0 None s /\ (forall m, In m (s_msgs s) -> g_ref m <> 0) /\ 0 < s_ref s.
Definition inv (s : st) : Prop := up s \/ dead s.
Lemma msg_unref_wf n s id : wf 0 (Some id) s -> (forall m, In m (s_msgs s) -> g_ref m <> 0) -> In id (ids s) -> (length (s_out s) + length (s_wait s) + 8 <= n)%nat ->
  exists s' m, In m (s_msgs s) /\ g_id m = id /\ msg_unref n s id = Ret s' /\
    ((1 < g_ref m /\ s' = put s id dec /\ up s')
     \/ (g_ref m = 1 /\ collectable (del s id) /\ s' = dead_with s [])
     \/ (g_ref m = 1 /\ ~ collectable (del s id) /\ s' = set_bus (del s id) true (s_ref s - 1) /\ up s')).
Proof.
  intros W Hz Hi Hn. destruct (ids_msg s id Hi) as (m & Hm & Em). assert (Hat := at_in s m (w_ids _ _ _ W) Hm). rewrite Em in Hat.
  assert (Wd := wf_dec s id m W Hm Em). assert (Hm0 := Hz m Hm). destruct n as [|n]; [lia|]. cbn [msg_unref]. rewrite Hat.
  fold dec. destruct (N.eqb_spec (g_ref m) 0) as [|_]; [contradiction|]. destruct (N.ltb_spec 0 (g_ref m - 1)) as [H1|H1].
  - eexists; exists m. split; [auto|]. split; [auto|]. split; [reflexivity|]. left. split; [lia|]. split; [auto|].
    destruct (N.eqb_spec (g_ref m) 1); [lia|]. split; [exact Wd|]. split.
    + intros x Hx. apply in_put in Hx. destruct Hx as [[Hx _]|(y & Hy & Ey & ->)]; [auto|]. assert (y = m) by (apply (same_msg s); [apply W|..]; auto; congruence). subst y. simpl. lia.
    + change (0 < s_ref s). rewrite (w_count _ _ _ W). assert (L : In m (live s)) by (apply in_live; auto). unfold lenN. destruct (live s); [destruct L|simpl; lia].
  - assert (R1 : g_ref m = 1) by lia. rewrite R1 in Wd. change (bit (1 =? 1)) with 1 in Wd.
    assert (Hdm : In (dec m) (s_msgs (put s id dec))).
    { unfold put, set_msgs. simpl. apply in_map_iff. exists m. rewrite Em, N.eqb_refl. auto. }
    assert (Rd : g_ref (dec m) = 0) by (simpl; lia).
    assert (Edel : del (put s id dec) id = del s id) by (apply del_put; auto).
    assert (Hcd : collectable (put s id dec) <-> collectable (del s id)).
    { unfold collectable. change (s_ext (put s id dec)) with (s_ext s). change (s_ext (del s id)) with (s_ext s).
      change (s_out (put s id dec)) with (s_out (del s id)). change (s_wait (put s id dec)) with (s_wait (del s id)).
      split; intros (C1 & C2 & C3); (split; [auto|]); (split; [|auto]); intros x Hx.
      - unfold del, set_msgs in Hx. simpl in Hx. apply filter_In in Hx. destruct Hx as [Hx Nx]. apply negb_true_iff, N.eqb_neq in Nx. apply C2.
        unfold put, set_msgs. simpl. apply in_map_iff. exists x. destruct (N.eqb_spec (g_id x) id); [contradiction|auto].
      - apply in_put in Hx. destruct Hx as [[Hx Nx]|(y & Hy & Ey & ->)].
        + apply C2. unfold del, set_msgs. simpl. apply filter_In. split; [auto|]. apply negb_true_iff, N.eqb_neq, Nx.
        + assert (y = m) by (apply (same_msg s); [apply W|..]; auto; congruence). subst y. assert (R := w_ref _ _ _ Wd (dec m) Hdm). rewrite Rd in R. lia. }
    destruct (bus_unref_wf n (put s id dec) Wd) as [[C E]|(C & H2 & E)]; [simpl; lia| |]; rewrite E; cbn [obind].
    + exists (dead_with s []), m. split; [auto|]. split; [auto|]. split.
      * assert (Ez : zombies (put s id dec) = [dec m]).
        { unfold zombies, put, set_msgs. simpl. apply in_split in Hm. destruct Hm as (a & b & Es). assert (Hd := w_ids _ _ _ W). unfold ids in Hd. rewrite Es in *.
          rewrite <- Em. rewrite Groups_Proofs.upd_mid by exact Hd. rewrite filter_app. simpl. rewrite R1. change (1 - 1 =? 0) with true. cbn iota.
          assert (Hf : forall l, (forall x, In x l -> g_ref x <> 0) -> filter (fun x => g_ref x =? 0) l = []).
          { induction l as [|x l IH]; simpl; intros H; [auto|]. destruct (N.eqb_spec (g_ref x) 0) as [E0|]; [exfalso; apply (H x); auto|]. auto. }
          rewrite !Hf; [auto|..]; intros x Hx; apply Hz; rewrite in_app_iff; simpl; auto. }
        rewrite Ez. unfold at_, dead_with. cbn [s_msgs find]. simpl g_id. rewrite Em, N.eqb_refl. unfold del, set_msgs. cbn [s_msgs filter]. simpl g_id. rewrite Em, N.eqb_refl. reflexivity.
      * right. left. split; [auto|]. split; [apply Hcd, C|auto].
    + exists (set_bus (del s id) true (s_ref s - 1)), m. split; [auto|]. split; [auto|]. split.
      * change (at_ (set_bus (put s id dec) true (s_ref (put s id dec) - 1)) id) with (at_ (put s id dec) id).
        rewrite (at_put s id dec m) by auto. f_equal. change (del (set_bus (put s id dec) true (s_ref (put s id dec) - 1)) id) with (set_bus (del (put s id dec) id) true (s_ref s - 1)).
        rewrite Edel. reflexivity.
      * right. right. split; [auto|]. split; [rewrite <- Hcd; exact C|]. split; [auto|]. rewrite <- Edel.
        change (set_bus (del (put s id dec) id) true (s_ref s - 1)) with (del (set_bus (put s id dec) true (s_ref (put s id dec) - 1)) id).
        split; [|split].
        -- apply wf_del with (m := dec m); auto. apply wf_bus; auto.
        -- rewrite <- Edel in *. intros x Hx. change (In x (s_msgs (del (put s id dec) id))) in Hx. rewrite Edel in Hx. unfold del, set_msgs in Hx. simpl in Hx. apply filter_In in Hx. apply Hz. tauto.
        -- change (0 < s_ref s - 1). change (1 < s_ref s) in H2. lia.
Qed.

(** ** Steps *)
Lemma holds_held s : holds s = true <-> held s.
Proof.
  unfold holds, held. rewrite orb_true_iff, existsb_exists, N.ltb_lt. split; (intros [H|(m & H1 & H2)]; [auto|right; exists m; split; [auto|]]).
  - apply N.ltb_lt, H2.
  - apply N.ltb_lt, H2.
Qed.
Lemma held_up s : inv s -> held s -> up s.
Proof. intros [H|(_ & H1 & H2 & _)] [Hh|(m & Hm & _)]; auto; exfalso; [lia|]. rewrite H1 in Hm. destruct Hm. Qed.
Lemma users_held s id : 0 < users s id -> exists m, In m (s_msgs s) /\ g_id m = id /\ 0 < g_user m.
Proof.
  unfold users. destruct (at_ s id) as [m|] eqn:E; [|lia]. intros H. apply find_some in E. destruct E as [E1 E2]. apply N.eqb_eq in E2. eauto.
Qed.
Lemma put_put s id f g : (forall x, g_id (f x) = g_id x) -> put (put s id f) id g = put s id (fun x => g (f x)).
Proof.
  intros Hf. unfold put, set_msgs. simpl. f_equal. rewrite map_map. apply map_ext. intros x. destruct (N.eqb_spec (g_id x) id) as [E|E].
  - rewrite Hf, E, N.eqb_refl. auto.
  - destruct (N.eqb_spec (g_id x) id); [contradiction|auto].
Qed.
Lemma up_put s s' id f m : up s -> In m (s_msgs s) -> g_id m = id -> (forall x, g_id (f x) = g_id x) -> g_ref (f m) <> 0 ->
  s_alive s' = true -> s_msgs s' = s_msgs (put s id f) -> s_next s' = s_next s -> NoDup (s_out s') -> NoDup (s_wait s') ->
  (forall x, In x (links s') -> x = id \/ In x (links s)) ->
  (forall x, s_parser s' = Some x -> ~ In x (s_out s') /\ ~ In x (s_wait s')) ->
  (forall x, x <> id -> nlinks s' x = nlinks s x) ->
  g_ref (f m) = g_user (f m) + nlinks s' id ->
  (s_parser s' = None \/ s_parser s' = s_parser s /\ (s_parser s' = Some id -> g_user (f m) = 0)) ->
  s_outc s' = lenN (s_out s') -> s_waitc s' = lenN (s_wait s') -> s_ref s' = s_ref s -> s_ext s' = s_ext s -> up s'.
Proof.
  intros (W & Hz & Hr) Hm Em Hf Hn A1 A2 A3 A4 A5 A6 A7 A8 A9 A10 A11 A12 A13 A14. split; [|split].
  - apply (wf_upd 0 None 0 None s s' id f m); auto.
    + rewrite A9. simpl. lia.
    + unfold live. rewrite A2. fold (live (put s id f)). rewrite A13, A14, (w_count _ _ _ W).
      assert (L := live_put s id f m (w_ids _ _ _ W) Hm Em). assert (Hm0 := Hz m Hm).
      destruct (N.eqb_spec (g_ref m) 0); [contradiction|]. destruct (N.eqb_spec (g_ref (f m)) 0); [contradiction|]. simpl in L. lia.
  - intros x Hx. rewrite A2 in Hx. apply in_put in Hx. destruct Hx as [[Hx _]|(y & Hy & Ey & ->)]; [auto|].
    assert (y = m) by (apply (same_msg s); [apply W|..]; auto; congruence). subst y. exact Hn.
  - lia.
Qed.
Lemma not_parser s m : up s -> In m (s_msgs s) -> 0 < g_user m -> s_parser s <> Some (g_id m).
Proof. intros (W & _) Hm Hu E. rewrite (w_user _ _ _ W m Hm E) in Hu. lia. Qed.
Lemma nlinks_parser s id : wf 0 None s -> s_parser s = Some id -> nlinks s id = 1.
Proof.
  intros W E. destruct (w_parser _ _ _ W id E) as [H1 H2]. apply is_in_not in H1, H2. unfold nlinks. rewrite H1, H2, E. unfold is_in. simpl. rewrite N.eqb_refl. auto.
Qed.
Lemma is_in_app id l x : is_in id (l ++ [x]) = is_in id l || (x =? id).
Proof. unfold is_in. rewrite existsb_app. simpl. rewrite orb_false_r. auto. Qed.
Lemma NoDup_snoc (l : list N) x : NoDup l -> ~ In x l -> NoDup (l ++ [x]).
Proof. intros H1 H2. apply NoDup_Add with (a := x) (l := l); [rewrite <- (app_nil_r l) at 1; apply Add_app|auto]. Qed.
Lemma in_without x id l : In x (without id l) <-> In x l /\ x <> id.
Proof. unfold without. rewrite filter_In, negb_true_iff, N.eqb_neq. tauto. Qed.
Lemma is_in_without x id l : is_in x (without id l) = is_in x l && negb (x =? id).
Proof.
  apply eq_true_iff_eq. rewrite is_in_In, in_without, andb_true_iff, is_in_In, negb_true_iff, N.eqb_neq. tauto.
Qed.
Lemma len_without id l : NoDup l -> In id l -> lenN (without id l) = lenN l - 1 /\ NoDup (without id l).
Proof.
  intros Hd Hi. apply in_split in Hi. destruct Hi as (a & b & ->). assert (E : without id (a ++ id :: b) = a ++ b).
  { unfold without. apply (Groups_Proofs.filter_mid (fun x => x) a id b). rewrite map_id. exact Hd. }
  rewrite E. split; [unfold lenN; rewrite !app_length; simpl; lia|]. apply NoDup_remove_1 in Hd. exact Hd.
Qed.
Lemma inc_up s id m u : up s -> In m (s_msgs s) -> g_id m = id -> s_parser s <> Some id ->
  u = true -> up (put s id (fun x => mkMsg (g_id x) (g_ref x + 1) (g_user x + 1))).
Proof.
  intros U Hm Em Hp _. assert (U' := U). destruct U' as (W & Hz & Hr).
  apply (up_put s _ id (fun x => mkMsg (g_id x) (g_ref x + 1) (g_user x + 1)) m U Hm Em); simpl; auto; try apply W.
  - lia.
  - assert (R := w_ref _ _ _ W m Hm). simpl in R. rewrite Em in R. change (nlinks (put s id _) id) with (nlinks s id). lia.
  - right. split; [auto|]. intros E. contradiction.
Qed.
Lemma msg_ref_up s id m : up s -> In m (s_msgs s) -> g_id m = id -> msg_ref s id = Ret (put s id (fun x => mkMsg (g_id x) (g_ref x + 1) (g_user x))).
Proof.
  intros (W & Hz & _) Hm Em. unfold msg_ref. assert (A := at_in s m (w_ids _ _ _ W) Hm). rewrite Em in A. rewrite A.
  destruct (N.eqb_spec (g_ref m) 0) as [E|]; [exfalso; apply (Hz m Hm E)|auto].
Qed.
Lemma bus_ref_up s : up s -> bus_ref s = Ret (set_bus s true (s_ref s + 1)).
Proof. intros (W & _ & Hr). unfold bus_ref. rewrite (w_alive _ _ _ W). simpl. destruct (N.eqb_spec (s_ref s) 0); [lia|auto]. Qed.
Lemma ref_ext_up s : up s -> up (set_ext (set_bus s true (s_ref s + 1)) (s_ext s + 1)).
Proof.
  intros ([Ha Hd Hx Ho Hw Hl Hp Hr Hus Hoc Hwc Hc] & Hz & H0). split; [|split; [exact Hz|simpl; lia]]. constructor; auto.
  simpl. change (live (set_ext _ _)) with (live s). lia.
Qed.
Lemma new_up s u p : up s -> (u = 1 /\ p = s_parser s \/ u = 0 /\ p = Some (s_next s) /\ s_parser s = None) ->
  exists s1, new s u = Ret (s1, s_next s) /\ up (set_parser s1 p) /\ s_parser s1 = s_parser s.
Proof.
  intros U Hp. unfold new. rewrite (bus_ref_up s U). cbn [obind]. eexists. split; [reflexivity|]. split; [|reflexivity].
  destruct U as ([Ha Hd Hx Ho Hw Hl Hpa Hr Hus Hoc Hwc Hc] & Hz & H0).
  assert (Hfresh : ~ In (s_next s) (ids s)) by (intros Hi; destruct (ids_msg s _ Hi) as (m & Hm & E); specialize (Hx m Hm); lia).
  assert (Hnl : forall id, In id (s_out s) \/ In id (s_wait s) -> id <> s_next s).
  { intros id Hi ->. apply Hfresh, Hl. unfold links. rewrite !in_app_iff. tauto. }
  assert (Hpn : s_parser s <> Some (s_next s)).
  { intros E. apply Hfresh, Hl. unfold links. rewrite E, !in_app_iff. simpl. auto. }
  assert (O1 : is_in (s_next s) (s_out s) = false) by (apply is_in_not; intros Hi; apply (Hnl (s_next s)); auto).
  assert (O2 : is_in (s_next s) (s_wait s) = false) by (apply is_in_not; intros Hi; apply (Hnl (s_next s)); auto).
  split; [constructor; simpl; auto|split].
  - unfold ids. simpl. rewrite map_app. apply NoDup_snoc; auto.
  - intros m Hm. apply in_app_iff in Hm. destruct Hm as [Hm|[<-|[]]]; [specialize (Hx m Hm); lia|simpl; lia].
  - intros id Hi. unfold ids. simpl. rewrite map_app, in_app_iff. simpl. unfold links in *. simpl in Hi. rewrite !in_app_iff in Hi.
    destruct Hi as [Hi|[Hi|Hi]]; [left; apply Hl; rewrite !in_app_iff; auto|left; apply Hl; rewrite !in_app_iff; auto|].
    destruct Hp as [[_ ->]|[_ [-> _]]]; [left; apply Hl; rewrite !in_app_iff; auto|]. destruct Hi as [<-|[]]. auto.
  - intros id E. destruct Hp as [[_ ->]|(_ & -> & _)]; [auto|]. injection E as <-. split; intros Hi; apply (Hnl (s_next s)); auto.
  - intros m Hm. apply in_app_iff in Hm. unfold nlinks. simpl. destruct Hm as [Hm|[<-|[]]].
    + assert (R := Hr m Hm). simpl in R. rewrite R. unfold nlinks. destruct Hp as [[_ ->]|(_ & -> & E)]; [reflexivity|]. rewrite E. unfold is_in. simpl.
      destruct (N.eqb_spec (s_next s) (g_id m)) as [E2|]; [specialize (Hx m Hm); lia|reflexivity].
    + simpl. rewrite O1, O2. unfold is_in. destruct Hp as [[-> ->]|(-> & -> & E)]; simpl.
      * destruct (s_parser s) as [x|]; simpl; [|auto]. destruct (N.eqb_spec x (s_next s)) as [->|]; [contradiction|auto].
      * rewrite N.eqb_refl. auto.
  - intros m Hm E. apply in_app_iff in Hm. destruct Hm as [Hm|[<-|[]]].
    + destruct Hp as [[_ ->]|(_ & -> & _)]; [auto|]. injection E as E. specialize (Hx m Hm). lia.
    + simpl in *. destruct Hp as [[_ ->]|(-> & _)]; [contradiction|auto].
  - unfold live in *. simpl. rewrite filter_app. simpl. unfold lenN in *. rewrite app_length. simpl. lia.
  - intros m Hm. simpl in Hm. apply in_app_iff in Hm. destruct Hm as [Hm|[<-|[]]]; [auto|simpl; lia].
  - simpl. lia.
Qed.
Lemma dead_dead s : dead (dead_with s []). Proof. unfold dead, dead_with. simpl. tauto. Qed.
Lemma zombies_nil s : (forall m, In m (s_msgs s) -> g_ref m <> 0) -> zombies s = [].
Proof.
  unfold zombies. induction (s_msgs s) as [|x l IH]; simpl; intros H; [auto|]. destruct (N.eqb_spec (g_ref x) 0) as [E|]; [exfalso; apply (H x); auto|]. auto.
Qed.
Lemma bus_unref_step s : up s -> 0 < s_ext s -> exists s', bus_unref (fuel s) (set_ext s (s_ext s - 1)) = Ret s' /\
  ((collectable (set_ext s (s_ext s - 1)) /\ s' = dead_with s []) \/
   (~ collectable (set_ext s (s_ext s - 1)) /\ s' = set_bus (set_ext s (s_ext s - 1)) true (s_ref s - 1) /\ up s')).
Proof.
  intros (W & Hz & H0) He. assert (W1 : wf 1 None (set_ext s (s_ext s - 1))).
  { destruct W as [Ha Hd Hx Ho Hw Hl Hp Hr Hus Hoc Hwc Hc]. constructor; auto. simpl. change (live (set_ext _ _)) with (live s). lia. }
  destruct (bus_unref_wf (fuel s) (set_ext s (s_ext s - 1)) W1) as [[C E]|(C & H1 & E)]; [unfold fuel; simpl; lia| |]; rewrite E; eexists; (split; [reflexivity|]).
  - left. split; [auto|]. rewrite zombies_nil by exact Hz. reflexivity.
  - right. split; [auto|]. split; [auto|]. split; [apply wf_bus; auto|]. split; [exact Hz|]. simpl in *. lia.
Qed.
Lemma is_in_one x id : is_in x [id] = (id =? x).
Proof. unfold is_in. simpl. rewrite orb_false_r. auto. Qed.
Arguments is_in : simpl never.
Lemma sub_user_wf s id m : up s -> In m (s_msgs s) -> g_id m = id -> 0 < g_user m ->
  wf 0 (Some id) (sub_user s id) /\ (forall x, In x (s_msgs (sub_user s id)) -> g_ref x <> 0) /\ In id (ids (sub_user s id)).
Proof.
  intros U Hm Em Hu. assert (Hnp := not_parser s m U Hm Hu). destruct U as (W & Hz & H0). rewrite Em in Hnp.
  assert (R := w_ref _ _ _ W m Hm). rewrite Em in R. simpl popt in R. simpl bit in R.
  set (f := fun x => mkMsg (g_id x) (g_ref x) (g_user x - 1)). assert (Hf : forall x, g_id (f x) = g_id x) by auto.
  split; [|split].
  - apply (wf_upd 0 None 0 (Some id) s (sub_user s id) id f m W Hm Em); try (apply W || reflexivity); auto.
    + intros x Hx. split; [reflexivity|]. simpl popt. rewrite is_in_one. destruct (N.eqb_spec id x); [congruence|reflexivity].
    + simpl popt. rewrite is_in_one, N.eqb_refl. change (nlinks (sub_user s id) id) with (nlinks s id). simpl. lia.
    + right. split; [auto|]. intros E. contradiction.
    + change (s_ref s = s_ext s + lenN (live (put s id f)) + 0). assert (L := live_put s id f m (w_ids _ _ _ W) Hm Em). simpl g_ref in L. rewrite (w_count _ _ _ W). lia.
  - intros x Hx. apply in_put in Hx. destruct Hx as [[Hx _]|(y & Hy & Ey & ->)]; [auto|]. simpl. auto.
  - unfold sub_user. rewrite ids_put by auto. rewrite <- Em. apply in_map, Hm.
Qed.
Lemma put_id s id f : (forall x, f x = x) -> put s id f = s.
Proof.
  intros Hf. unfold put. replace (map (fun m => if g_id m =? id then f m else m) (s_msgs s)) with (s_msgs s); [destruct s; reflexivity|].
  rewrite <- (map_id (s_msgs s)) at 1. apply map_ext. intros x. destruct (g_id x =? id); auto.
Qed.
Lemma unlink_out_wf s id : up s -> In id (s_out s) ->
  wf 0 (Some id) (set_out s (without id (s_out s)) (s_outc s - 1)) /\ In id (ids s).
Proof.
  intros (W & Hz & H0) Hi. assert (Hid : In id (ids s)) by (apply (w_links _ _ _ W); unfold links; rewrite in_app_iff; auto). split; [|exact Hid].
  destruct (ids_msg s id Hid) as (m & Hm & Em). destruct (len_without id (s_out s) (w_out _ _ _ W) Hi) as [L1 L2].
  assert (R := w_ref _ _ _ W m Hm). rewrite Em in R. simpl popt in R. simpl bit in R.
  apply (wf_upd 0 None 0 (Some id) s _ id (fun x => x) m W Hm Em); simpl; try (apply W); auto.
  - symmetry. apply (f_equal s_msgs (put_id s id (fun x => x) (fun x => eq_refl))).
  - intros x Hx. right. unfold links in *. simpl in Hx. rewrite !in_app_iff in *. rewrite in_without in Hx. tauto.
  - intros x E. destruct (w_parser _ _ _ W x E). rewrite in_without. tauto.
  - intros x Hx. split; [|rewrite is_in_one; destruct (N.eqb_spec id x); [congruence|reflexivity]]. unfold nlinks. simpl. rewrite is_in_without.
    destruct (N.eqb_spec x id); [contradiction|]. rewrite andb_true_r. auto.
  - rewrite is_in_one, N.eqb_refl, R. unfold nlinks. simpl. rewrite is_in_without, N.eqb_refl, andb_false_r. apply is_in_In in Hi. rewrite Hi. simpl. lia.
  - right. split; [auto|]. intros E. rewrite <- Em in E. apply (w_user _ _ _ W m Hm E).
  - rewrite L1, (w_outc _ _ _ W). auto.
Qed.
Lemma unlink_wait_wf s id : up s -> In id (s_wait s) ->
  wf 0 (Some id) (set_wait s (without id (s_wait s)) (s_waitc s - 1)) /\ In id (ids s).
Proof.
  intros (W & Hz & H0) Hi. assert (Hid : In id (ids s)) by (apply (w_links _ _ _ W); unfold links; rewrite !in_app_iff; auto). split; [|exact Hid].
  destruct (ids_msg s id Hid) as (m & Hm & Em). destruct (len_without id (s_wait s) (w_wait _ _ _ W) Hi) as [L1 L2].
  assert (R := w_ref _ _ _ W m Hm). rewrite Em in R. simpl popt in R. simpl bit in R.
  apply (wf_upd 0 None 0 (Some id) s _ id (fun x => x) m W Hm Em); simpl; try (apply W); auto.
  - symmetry. apply (f_equal s_msgs (put_id s id (fun x => x) (fun x => eq_refl))).
  - intros x Hx. right. unfold links in *. simpl in Hx. rewrite !in_app_iff in *. rewrite in_without in Hx. tauto.
  - intros x E. destruct (w_parser _ _ _ W x E). rewrite in_without. tauto.
  - intros x Hx. split; [|rewrite is_in_one; destruct (N.eqb_spec id x); [congruence|reflexivity]]. unfold nlinks. simpl. rewrite is_in_without.
    destruct (N.eqb_spec x id); [contradiction|]. rewrite andb_true_r. auto.
  - rewrite is_in_one, N.eqb_refl, R. unfold nlinks. simpl. rewrite is_in_without, N.eqb_refl, andb_false_r. apply is_in_In in Hi. rewrite Hi. simpl. lia.
  - right. split; [auto|]. intros E. rewrite <- Em in E. apply (w_user _ _ _ W m Hm E).
  - rewrite L1, (w_waitc _ _ _ W). auto.
Qed.
Lemma link_up s id m out outc wait waitc : up s -> In m (s_msgs s) -> g_id m = id -> 0 < g_user m ->
  (out = s_out s ++ [id] /\ outc = s_outc s + 1 /\ ~ In id (s_out s) /\ wait = s_wait s /\ waitc = s_waitc s
   \/ wait = s_wait s ++ [id] /\ waitc = s_waitc s + 1 /\ ~ In id (s_wait s) /\ out = s_out s /\ outc = s_outc s) ->
  exists s', msg_ref (set_wait (set_out s out outc) wait waitc) id = Ret s' /\ up s'.
Proof.
  intros U Hm Em Hu Hc. assert (Hnp := not_parser s m U Hm Hu). rewrite Em in Hnp. assert (U' := U). destruct U' as (W & Hz & H0).
  set (f := fun x => mkMsg (g_id x) (g_ref x + 1) (g_user x)). assert (Hat := at_in s m (w_ids _ _ _ W) Hm). rewrite Em in Hat.
  unfold msg_ref. change (at_ (set_wait (set_out s out outc) wait waitc) id) with (at_ s id). rewrite Hat.
  destruct (N.eqb_spec (g_ref m) 0) as [E|]; [exfalso; apply (Hz m Hm E)|]. eexists. split; [reflexivity|].
  assert (R := w_ref _ _ _ W m Hm). rewrite Em in R. simpl popt in R. simpl bit in R.
  apply (up_put s _ id f m U Hm Em); simpl; auto.
  - lia.
  - apply W.
  - destruct Hc as [(-> & _ & Hn & _)|(_ & _ & _ & -> & _)]; [apply NoDup_snoc; auto|]; apply W.
  - destruct Hc as [(_ & _ & _ & -> & _)|(-> & _ & Hn & _)]; [|apply NoDup_snoc; auto]; apply W.
  - intros x Hx. unfold links in *. simpl in Hx. destruct Hc as [(-> & _ & _ & -> & _)|(-> & _ & _ & -> & _)]; rewrite !in_app_iff in *; simpl in Hx; intuition.
  - intros x E. destruct (w_parser _ _ _ W x E) as [P1 P2]. assert (x <> id) by (intros ->; contradiction).
    destruct Hc as [(-> & _ & _ & -> & _)|(-> & _ & _ & -> & _)]; rewrite ?in_app_iff; simpl; intuition.
  - intros x Hx. unfold nlinks. simpl. destruct Hc as [(-> & _ & _ & -> & _)|(-> & _ & _ & -> & _)]; rewrite is_in_app; destruct (N.eqb_spec id x); try congruence; rewrite orb_false_r; auto.
  - rewrite R. unfold nlinks. simpl. destruct Hc as [(-> & _ & Hn & -> & _)|(-> & _ & Hn & -> & _)]; rewrite is_in_app, N.eqb_refl, orb_true_r; apply is_in_not in Hn; rewrite Hn; simpl; lia.
  - right. split; [auto|]. intros E. contradiction.
  - destruct Hc as [(-> & -> & _)|(_ & _ & _ & -> & ->)]; rewrite (w_outc _ _ _ W); [unfold lenN; rewrite app_length; simpl; lia|auto].
  - destruct Hc as [(_ & _ & _ & -> & ->)|(-> & -> & _)]; rewrite (w_waitc _ _ _ W); [auto|unfold lenN; rewrite app_length; simpl; lia].
Qed.
Lemma wait_msg s id : up s -> In id (s_wait s) -> exists m, In m (s_msgs s) /\ g_id m = id /\ s_parser s <> Some id.
Proof.
  intros (W & _) Hi. destruct (ids_msg s id) as (m & Hm & Em); [apply (w_links _ _ _ W); unfold links; rewrite !in_app_iff; auto|].
  exists m. split; [auto|]. split; [auto|]. intros E. apply (w_parser _ _ _ W id E). exact Hi.
Qed.
Lemma inv_links s id : inv s -> In id (s_out s) \/ In id (s_wait s) -> up s.
Proof. intros [U|(_ & _ & _ & H1 & H2 & _)] Hi; [auto|]. rewrite H1, H2 in Hi. destruct Hi as [[]|[]]. Qed.
Lemma msg_unref_inv n s id : wf 0 (Some id) s -> (forall m, In m (s_msgs s) -> g_ref m <> 0) -> In id (ids s) -> (length (s_out s) + length (s_wait s) + 8 <= n)%nat ->
  exists s', msg_unref n s id = Ret s' /\ inv s'.
Proof.
  intros W Hz Hi Hn. destruct (msg_unref_wf n s id W Hz Hi Hn) as (s' & m & _ & _ & E & [(_ & _ & U)|[(_ & _ & ->)|(_ & _ & _ & U)]]); eexists; (split; [exact E|]);
  [left; auto|right; apply dead_dead|left; auto].
Qed.
Lemma step_inv s o : inv s -> exists s', step s o = Ret s' /\ inv s'.
Proof.
  intros I. unfold step. destruct (allowed s o) eqn:A; cbn [negb]; [|eexists; split; [reflexivity|exact I]].
  destruct o; cbn [allowed] in A.
  - apply holds_held, (held_up s I) in A. rewrite (bus_ref_up s A). cbn [obind]. eexists. split; [reflexivity|]. left. apply (ref_ext_up s A).
  - apply N.ltb_lt in A. assert (U := held_up s I (or_introl A)). destruct (bus_unref_step s U A) as (s' & E & [[_ ->]|(_ & _ & U')]); eexists; (split; [exact E|]).
    + right. apply dead_dead.
    + left. exact U'.
  - destruct I as [U|(D & _)]; [|congruence]. rewrite (bus_ref_up s U). cbn [obind]. eexists. split; [reflexivity|]. left. apply (ref_ext_up s U).
  - apply holds_held, (held_up s I) in A. destruct (new_up s 1 (s_parser s) A) as (s1 & E & U & Ep); [left; auto|]. rewrite E. cbn [obind fst]. eexists. split; [reflexivity|].
    left. replace s1 with (set_parser s1 (s_parser s)); [exact U|]. rewrite <- Ep. destruct s1; reflexivity.
  - apply N.ltb_lt, users_held in A. destruct A as (m & Hm & Em & Hu). assert (U : up s) by (apply (held_up s I); right; eauto).
    rewrite (msg_ref_up s id m U Hm Em). cbn [obind]. unfold add_user. rewrite put_put by auto. eexists. split; [reflexivity|]. left.
    apply (inc_up s id m true U Hm Em); [|auto]. rewrite <- Em. apply (not_parser s m U Hm Hu).
  - apply N.ltb_lt, users_held in A. destruct A as (m & Hm & Em & Hu). assert (U : up s) by (apply (held_up s I); right; eauto).
    destruct (sub_user_wf s id m U Hm Em Hu) as (W & Hz & Hi). apply msg_unref_inv; auto. unfold fuel. simpl. lia.
  - apply is_in_In in A. assert (U := inv_links s id I (or_intror A)). destruct (wait_msg s id U A) as (m & Hm & Em & Hp).
    rewrite (msg_ref_up s id m U Hm Em). cbn [obind]. unfold add_user. rewrite put_put by auto. eexists. split; [reflexivity|]. left.
    apply (inc_up s id m true U Hm Em); auto.
  - apply andb_true_iff in A. destruct A as [A N]. apply negb_true_iff, is_in_not in N. apply N.ltb_lt, users_held in A. destruct A as (m & Hm & Em & Hu). assert (U : up s) by (apply (held_up s I); right; eauto).
    rewrite (w_alive _ _ _ (proj1 U)). cbn [negb]. destruct (link_up s id m (s_out s ++ [id]) (s_outc s + 1) (s_wait s) (s_waitc s) U Hm Em Hu) as (s' & E & U'); [left; tauto|].
    eexists. split; [exact E|left; exact U'].
  - apply andb_true_iff in A. destruct A as [A N]. apply negb_true_iff, is_in_not in N. apply N.ltb_lt, users_held in A. destruct A as (m & Hm & Em & Hu). assert (U : up s) by (apply (held_up s I); right; eauto).
    rewrite (w_alive _ _ _ (proj1 U)). cbn [negb]. destruct (link_up s id m (s_out s) (s_outc s) (s_wait s ++ [id]) (s_waitc s + 1) U Hm Em Hu) as (s' & E & U'); [right; tauto|].
    eexists. split; [exact E|left; exact U'].
  - apply andb_true_iff in A. destruct A as [_ A]. apply is_in_In in A. assert (U := inv_links s id I (or_introl A)). rewrite (w_alive _ _ _ (proj1 U)). cbn [negb].
    destruct (unlink_out_wf s id U A) as [W Hi]. apply msg_unref_inv; auto; [apply U|]. unfold fuel. simpl. assert (L := proj1 (len_without id (s_out s) (w_out _ _ _ (proj1 U)) A)). unfold lenN in L. lia.
  - apply andb_true_iff in A. destruct A as [_ A]. apply is_in_In in A. assert (U := inv_links s id I (or_intror A)). rewrite (w_alive _ _ _ (proj1 U)). cbn [negb].
    destruct (unlink_wait_wf s id U A) as [W Hi]. apply msg_unref_inv; auto; [apply U|]. unfold fuel. simpl. assert (L := proj1 (len_without id (s_wait s) (w_wait _ _ _ (proj1 U)) A)). unfold lenN in L. lia.
  - apply andb_true_iff in A. destruct A as [A P]. apply N.ltb_lt in A. assert (U := held_up s I (or_introl A)).
    assert (Ep : s_parser s = None) by (unfold parsing in P; destruct (s_parser s); [discriminate|auto]).
    destruct (new_up s 0 (Some (s_next s)) U) as (s1 & E & U1 & _); [right; auto|]. rewrite E. cbn [obind fst snd]. eexists. split; [reflexivity|]. left. exact U1.
  - destruct (s_parser s) as [id|] eqn:Ep; [|eexists; split; [reflexivity|exact I]]. eexists. split; [reflexivity|]. left.
    destruct I as [U|(_ & _ & _ & _ & _ & E)]; [|congruence]. assert (U' := U). destruct U' as (W & Hz & H0).
    destruct (ids_msg s id) as (m & Hm & Em); [apply (w_links _ _ _ W); unfold links; rewrite Ep, !in_app_iff; simpl; auto|].
    assert (R := w_ref _ _ _ W m Hm). rewrite Em, (nlinks_parser s id W Ep) in R. simpl in R. rewrite (w_user _ _ _ W m Hm) in R by congruence.
    destruct (w_parser _ _ _ W id Ep) as [P1 P2].
    apply (up_put s _ id (fun x => mkMsg (g_id x) (g_ref x) (g_user x + 1)) m U Hm Em); simpl; auto; try apply W.
    + intros x Hx. unfold links in *. simpl in Hx. rewrite !in_app_iff in *. simpl in Hx. tauto.
    + discriminate.
    + intros x Hx. unfold nlinks. simpl. rewrite Ep. simpl. rewrite is_in_one. destruct (N.eqb_spec id x); [congruence|]. auto.
    + rewrite (w_user _ _ _ W m Hm) by congruence. unfold nlinks. simpl. apply is_in_not in P1, P2. rewrite P1, P2. simpl. lia.
Qed.
Lemma init_inv : inv init.
Proof. left. split; [constructor; simpl; auto; try constructor; try contradiction; discriminate|]. split; [contradiction|reflexivity]. Qed.
Lemma run_inv os : forall s, inv s -> exists s', run s os = Ret s' /\ inv s'.
Proof.
  induction os as [|o os IH]; intros s I; [eexists; split; [reflexivity|exact I]|]. destruct (step_inv s o I) as (s1 & E & I1). cbn [run]. rewrite E. cbn [obind]. apply IH, I1.
Qed.

(** ** What users rely on *)
Definition kept (s s' : st) (m : msg) : Prop := exists m', In m' (s_msgs s') /\ g_id m' = g_id m /\ g_user m <= g_user m'.
Lemma kept_put s id f m : (forall x, g_id (f x) = g_id x /\ g_user x <= g_user (f x)) -> In m (s_msgs s) -> kept s (put s id f) m.
Proof.
  intros Hf Hm. exists (if g_id m =? id then f m else m). split; [unfold put, set_msgs; simpl; apply in_map_iff; exists m; auto|].
  destruct (g_id m =? id); [apply Hf|split; [auto|lia]].
Qed.
Lemma kept_other s id f m : In m (s_msgs s) -> g_id m <> id -> In m (s_msgs (put s id f)).
Proof. intros Hm N. unfold put, set_msgs. simpl. apply in_map_iff. exists m. destruct (N.eqb_spec (g_id m) id); [contradiction|auto]. Qed.
(** Dropping one reference of [id], of which [s] already knows. *)
Lemma msg_unref_keeps n s id s' : wf 0 (Some id) s -> (forall m, In m (s_msgs s) -> g_ref m <> 0) -> In id (ids s) -> (length (s_out s) + length (s_wait s) + 8 <= n)%nat ->
  msg_unref n s id = Ret s' -> (s_ext s <= s_ext s') /\ forall m, In m (s_msgs s) -> 0 < g_user m -> In (g_id m) (ids s') /\ kept s s' m.
Proof.
  intros W Hz Hi Hn E. destruct (msg_unref_wf n s id W Hz Hi Hn) as (s1 & x & Hx & Ex & E1 & Hc). rewrite E in E1. injection E1 as <-.
  assert (K : forall m, kept s s' m -> In (g_id m) (ids s')) by (intros m (m' & Hm' & <- & _); apply in_map, Hm').
  destruct Hc as [(_ & -> & _)|[(R & (C1 & C2 & _) & ->)|(R & _ & -> & _)]].
  - split; [simpl; lia|]. intros m Hm _. assert (H : kept s (put s id dec) m) by (apply kept_put; [intros y; simpl; split; [auto|lia]|auto]). auto.
  - split; [change (s_ext s = 0) in C1; simpl; lia|]. intros m Hm Hu. exfalso. destruct (N.eq_dec (g_id m) id) as [Em|Em].
    + assert (m = x) by (apply (same_msg s); [apply W|..]; auto; congruence). subst m. assert (Rr := w_ref _ _ _ W x Hx). simpl popt in Rr. rewrite is_in_one, Ex, N.eqb_refl in Rr. simpl bit in Rr. lia.
    + rewrite (C2 m) in Hu; [lia|]. unfold del, set_msgs. simpl. apply filter_In. split; [auto|]. apply negb_true_iff, N.eqb_neq, Em.
  - split; [simpl; lia|]. intros m Hm Hu. assert (H : kept s (set_bus (del s id) true (s_ref s - 1)) m); [|auto]. exists m. split; [|split; [auto|lia]].
    simpl. apply filter_In. split; [auto|]. apply negb_true_iff, N.eqb_neq. intros Em.
    assert (m = x) by (apply (same_msg s); [apply W|..]; auto; congruence). subst m. assert (Rr := w_ref _ _ _ W x Hx). simpl popt in Rr. rewrite is_in_one, Ex, N.eqb_refl in Rr. simpl bit in Rr. lia.
Qed.
Lemma step_keeps s o s' : inv s -> step s o = Ret s' ->
  (o <> BusUnref -> s_ext s <= s_ext s') /\ forall m, In m (s_msgs s) -> 0 < g_user m -> o <> MsgUnref (g_id m) -> kept s s' m.
Proof.
  intros I. unfold step. destruct (allowed s o) eqn:A; cbn [negb].
  2:{ intros H. injection H as <-. split; [lia|]. intros m Hm _ _. exists m. split; [auto|]. split; [auto|lia]. }
  assert (Self : forall ms m, In m (s_msgs s) -> incl (s_msgs s) ms -> exists m', In m' ms /\ g_id m' = g_id m /\ g_user m <= g_user m').
  { intros ms m Hm Hi. exists m. split; [auto|]. split; [auto|lia]. }
  destruct o; cbn [allowed] in A.
  - apply holds_held, (held_up s I) in A. rewrite (bus_ref_up s A). cbn [obind]. intros H. injection H as <-. simpl. split; [lia|]. intros m Hm _ _. apply Self; [auto|apply incl_refl].
  - apply N.ltb_lt in A. assert (U := held_up s I (or_introl A)). destruct (bus_unref_step s U A) as (s1 & E & Hc). rewrite E. intros H. injection H as <-.
    split; [congruence|]. intros m Hm Hu _. destruct Hc as [[(_ & C & _) ->]|(_ & -> & _)].
    + exfalso. rewrite (C m Hm) in Hu. lia.
    + apply Self; [auto|apply incl_refl].
  - destruct I as [U|(D & _)]; [|congruence]. rewrite (bus_ref_up s U). cbn [obind]. intros H. injection H as <-. simpl. split; [lia|]. intros m Hm _ _. apply Self; [auto|apply incl_refl].
  - apply holds_held, (held_up s I) in A. unfold new. rewrite (bus_ref_up s A). cbn [obind fst]. intros H. injection H as <-. simpl. split; [lia|].
    intros m Hm _ _. apply Self; [auto|]. simpl. apply incl_appl, incl_refl.
  - apply N.ltb_lt, users_held in A. destruct A as (x & Hx & Ex & Hu). assert (U : up s) by (apply (held_up s I); right; eauto).
    rewrite (msg_ref_up s id x U Hx Ex). cbn [obind]. unfold add_user. rewrite put_put by auto. intros H. injection H as <-. simpl. split; [lia|].
    intros m Hm _ _. apply kept_put; [intros y; simpl; split; [auto|lia]|auto].
  - apply N.ltb_lt, users_held in A. destruct A as (x & Hx & Ex & Hu). assert (U : up s) by (apply (held_up s I); right; eauto).
    destruct (sub_user_wf s id x U Hx Ex Hu) as (W & Hz & Hi). intros H. apply msg_unref_keeps in H; auto; [|unfold fuel; simpl; lia].
    destruct H as [H1 H2]. split; [intros _; exact H1|]. intros m Hm Hum Hne. assert (N : g_id m <> id) by congruence.
    destruct (H2 m (kept_other s id _ m Hm N) Hum) as [_ (m' & B1 & B2 & B3)]. exists m'. auto.
  - apply is_in_In in A. assert (U := inv_links s id I (or_intror A)). destruct (wait_msg s id U A) as (x & Hx & Ex & Hp).
    rewrite (msg_ref_up s id x U Hx Ex). cbn [obind]. unfold add_user. rewrite put_put by auto. intros H. injection H as <-. simpl. split; [lia|].
    intros m Hm _ _. apply kept_put; [intros y; simpl; split; [auto|lia]|auto].
  - destruct (negb (s_alive s)); [discriminate|]. unfold msg_ref. destruct (at_ _ id) as [x|]; [|discriminate].
    destruct (g_ref x =? 0); intros H; injection H as <-; simpl; (split; [lia|]); intros m Hm _ _.
    + apply Self; [auto|apply incl_refl].
    + destruct (kept_put s id (fun m0 => mkMsg (g_id m0) (g_ref m0 + 1) (g_user m0)) m) as (m' & B); [intros y; simpl; split; [auto|lia]|auto|]. exists m'. exact B.
  - destruct (negb (s_alive s)); [discriminate|]. unfold msg_ref. destruct (at_ _ id) as [x|]; [|discriminate].
    destruct (g_ref x =? 0); intros H; injection H as <-; simpl; (split; [lia|]); intros m Hm _ _.
    + apply Self; [auto|apply incl_refl].
    + destruct (kept_put s id (fun m0 => mkMsg (g_id m0) (g_ref m0 + 1) (g_user m0)) m) as (m' & B); [intros y; simpl; split; [auto|lia]|auto|]. exists m'. exact B.
  - apply andb_true_iff in A. destruct A as [_ A]. apply is_in_In in A. assert (U := inv_links s id I (or_introl A)). rewrite (w_alive _ _ _ (proj1 U)). cbn [negb].
    destruct (unlink_out_wf s id U A) as [W Hi]. assert (L := proj1 (len_without id (s_out s) (w_out _ _ _ (proj1 U)) A)). intros H.
    apply msg_unref_keeps in H; auto; [|apply U|unfold fuel; simpl; unfold lenN in L; lia]. destruct H as [H1 H2]. split; [intros _; exact H1|]. intros m Hm Hu _. apply (H2 m Hm Hu).
  - apply andb_true_iff in A. destruct A as [_ A]. apply is_in_In in A. assert (U := inv_links s id I (or_intror A)). rewrite (w_alive _ _ _ (proj1 U)). cbn [negb].
    destruct (unlink_wait_wf s id U A) as [W Hi]. assert (L := proj1 (len_without id (s_wait s) (w_wait _ _ _ (proj1 U)) A)). intros H.
    apply msg_unref_keeps in H; auto; [|apply U|unfold fuel; simpl; unfold lenN in L; lia]. destruct H as [H1 H2]. split; [intros _; exact H1|]. intros m Hm Hu _. apply (H2 m Hm Hu).
  - apply andb_true_iff in A. destruct A as [A P]. apply N.ltb_lt in A. assert (U := held_up s I (or_introl A)).
    unfold new. rewrite (bus_ref_up s U). cbn [obind fst snd]. intros H. injection H as <-. simpl. split; [lia|].
    intros m Hm _ _. apply Self; [auto|]. simpl. apply incl_appl, incl_refl.
  - destruct (s_parser s) as [id|]; intros H; injection H as <-; simpl; (split; [lia|]); intros m Hm _ _.
    + destruct (kept_put s id (fun m0 => mkMsg (g_id m0) (g_ref m0) (g_user m0 + 1)) m) as (m' & B); [intros y; simpl; split; [auto|lia]|auto|]. exists m'. exact B.
    + apply Self; [auto|apply incl_refl].
Qed.
Lemma run_state os s : run init os = Ret s -> inv s.
Proof. intros E. destruct (run_inv os init init_inv) as (s1 & E1 & I). congruence. Qed.
Lemma always_defined os : exists s, run init os = Ret s.
Proof. destruct (run_inv os init init_inv) as (s & E & _). eauto. Qed.
Lemma held_alive os s : run init os = Ret s -> held s -> s_alive s = true.
Proof. intros E H. apply (held_up s (run_state os s E)) in H. apply (proj1 H). Qed.
Lemma user_keeps os s o s' : run init os = Ret s -> step s o = Ret s' ->
  (o <> BusUnref -> s_ext s <= s_ext s') /\ forall m, In m (s_msgs s) -> 0 < g_user m -> o <> MsgUnref (g_id m) ->
    exists m', In m' (s_msgs s') /\ g_id m' = g_id m /\ g_user m <= g_user m'.
Proof. intros E H. apply (step_keeps s o s' (run_state os s E) H). Qed.
Lemma nlinks_of s id : nlinks s id = links_of s id.
Proof.
  unfold nlinks, links_of. f_equal; [f_equal|].
  - destruct (in_dec N.eq_dec id (s_out s)) as [H|H]; [apply is_in_In in H|apply is_in_not in H]; rewrite H; auto.
  - destruct (in_dec N.eq_dec id (s_wait s)) as [H|H]; [apply is_in_In in H|apply is_in_not in H]; rewrite H; auto.
  - destruct (s_parser s) as [p|]; simpl; [|auto]. rewrite is_in_one. destruct (N.eqb_spec p id), (N.eq_dec p id); auto; contradiction.
Qed.
Lemma counts os s : run init os = Ret s -> s_alive s = true ->
  s_ref s = s_ext s + lenN (s_msgs s) /\ forall m, In m (s_msgs s) -> g_ref m = g_user m + links_of s (g_id m).
Proof.
  intros E A. destruct (run_state os s E) as [(W & Hz & _)|(D & _)]; [|congruence]. split.
  - rewrite (w_count _ _ _ W). replace (live s) with (s_msgs s); [lia|]. symmetry. apply filter_all. intros m Hm. apply negb_true_iff, N.eqb_neq, (Hz m Hm).
  - intros m Hm. rewrite (w_ref _ _ _ W m Hm), nlinks_of. simpl. lia.
Qed.
Lemma freed_not_held os s : run init os = Ret s -> freed s -> ~ held s.
Proof. intros E [A _] H. rewrite (held_alive os s E H) in A. discriminate. Qed.
Lemma not_freed_up s : up s -> ~ freed s.
Proof. intros (W & _) [A _]. rewrite (w_alive _ _ _ W) in A. discriminate. Qed.
Lemma last_release os s o s' : run init os = Ret s -> step s o = Ret s' -> held s -> ~ held s' ->
  (freed s' <-> ~ twice s /\ ~ (exists id, o = MsgUnref id /\ (In id (s_out s) \/ In id (s_wait s)))).
Proof.
  intros E H Hh Hn. assert (I := run_state os s E). assert (U := held_up s I Hh). destruct (step_keeps s o s' I H) as [K1 K2].
  assert (Hfd : forall x, freed (dead_with x [])) by (intros x; split; auto).
  assert (Ho : o = BusUnref \/ exists id, o = MsgUnref id).
  { destruct Hh as [Hh|(m & Hm & Hu)].
    - destruct o; eauto; exfalso; apply Hn; left; (eapply N.lt_le_trans; [exact Hh|apply K1; discriminate]).
    - destruct o; eauto; exfalso; apply Hn; right; (destruct (K2 m Hm Hu) as (m' & B1 & _ & B3); [discriminate|exists m'; split; [exact B1|lia]]). }
  unfold step in H. destruct (allowed s o) eqn:A; cbn [negb] in H; [|injection H as <-; contradiction].
  destruct Ho as [->|(id & ->)]; cbn [allowed] in A.
  - apply N.ltb_lt in A. destruct (bus_unref_step s U A) as (s1 & E1 & Hc). rewrite H in E1. injection E1 as <-. destruct Hc as [[(C1 & C2 & C3) ->]|(C & -> & U')].
    + split; [intros _|intros _; apply Hfd]. split; [|intros (id & Eo & _); discriminate]. intros (id & T1 & T2). apply (C3 id T1 T2).
    + split; [intros F; exfalso; apply (not_freed_up _ U' F)|]. intros [Ht _]. exfalso. apply C. split; [|split].
      * simpl. destruct (N.eq_dec (s_ext s - 1) 0) as [|Nz]; [auto|]. exfalso. apply Hn. left. simpl. lia.
      * intros m Hm. destruct (N.eq_dec (g_user m) 0) as [|Nz]; [auto|]. exfalso. apply Hn. right. exists m. split; [exact Hm|lia].
      * intros id T1 T2. apply Ht. exists id. auto.
  - apply N.ltb_lt, users_held in A. destruct A as (x & Hx & Ex & Hu). destruct (sub_user_wf s id x U Hx Ex Hu) as (W & Hz & Hi).
    destruct (msg_unref_wf (fuel s) (sub_user s id) id W Hz Hi) as (s1 & y & Hy & Ey & E1 & Hc); [unfold fuel; simpl; lia|]. rewrite H in E1. injection E1 as <-.
    assert (Ry := w_ref _ _ _ W y Hy). simpl popt in Ry. rewrite is_in_one, Ey, N.eqb_refl in Ry. simpl bit in Ry. change (nlinks (sub_user s id) id) with (nlinks s id) in Ry.
    destruct Hc as [(R & -> & U')|[(R & (C1 & C2 & C3) & ->)|(R & C & -> & U')]].
    + split; [intros F; exfalso; apply (not_freed_up _ U' F)|]. intros [_ Hl]. exfalso.
      assert (Hu0 : g_user y = 0).
      { destruct (N.eq_dec (g_user y) 0) as [|Nz]; [auto|]. exfalso. apply Hn. right. exists (dec y). split; [|simpl; lia].
        unfold put, set_msgs. simpl. simpl in Hy. apply in_map_iff. exists y. rewrite Ey, N.eqb_refl. auto. }
      assert (Np : s_parser s <> Some id) by (rewrite <- Ex; apply (not_parser s x U Hx Hu)).
      assert (Hl1 : ~ In id (s_out s)) by (intros Hl'; apply Hl; eauto). assert (Hl2 : ~ In id (s_wait s)) by (intros Hl'; apply Hl; eauto).
      apply is_in_not in Hl1, Hl2. unfold nlinks in Ry. rewrite Hl1, Hl2 in Ry. destruct (s_parser s) as [p|]; simpl in Ry; [|lia].
      rewrite is_in_one in Ry. destruct (N.eqb_spec p id) as [Ep|]; [congruence|]. simpl in Ry. lia.
    + split; [intros _|intros _; apply Hfd]. split; [intros (i & T1 & T2); apply (C3 i T1 T2)|]. intros (i & Eo & Hl). injection Eo as <-.
      assert (Hk : 1 <= nlinks s id) by (apply links_n; unfold links; rewrite !in_app_iff; tauto). lia.
    + split; [intros F; exfalso; apply (not_freed_up _ U' F)|]. intros [Ht _]. exfalso. apply C. split; [|split].
      * simpl. destruct (N.eq_dec (s_ext s) 0) as [|Nz]; [auto|]. exfalso. apply Hn. left. simpl. lia.
      * intros m Hm. destruct (N.eq_dec (g_user m) 0) as [|Nz]; [auto|]. exfalso. apply Hn. right. exists m. split; [exact Hm|lia].
      * intros i T1 T2. apply Ht. exists i. auto.
Qed.
