(** Proofs about P2P groups. *)
From Verif Require Import Base Groups_Model Groups_Spec.

(** ** Lists with keys *)
Lemma find_key {A} (k : A -> N) l x : NoDup (map k l) -> In x l -> find (fun y => k y =? k x) l = Some x.
Proof.
  induction l as [|y l IH]; simpl; [contradiction|]. rewrite NoDup_cons_iff. intros [Hn Hd] [->|Hi].
  - rewrite N.eqb_refl. reflexivity.
  - destruct (N.eqb_spec (k y) (k x)) as [E|]; [|auto]. exfalso. apply Hn. rewrite E. apply in_map, Hi.
Qed.
Lemma find_mid {A} (k : A -> N) a x b : NoDup (map k (a ++ x :: b)) -> find (fun y => k y =? k x) (a ++ x :: b) = Some x.
Proof. intros H. apply find_key; [exact H|]. apply in_elt. Qed.
Lemma find_none_key {A} (k : A -> N) l n : find (fun y => k y =? n) l = None <-> ~ In n (map k l).
Proof.
  induction l as [|y l IH]; simpl; [tauto|]. destruct (N.eqb_spec (k y) n) as [E|E]; [|rewrite IH; tauto].
  split; [discriminate|]. intros H. exfalso. auto.
Qed.
Lemma upd_out {A} (k : A -> N) (f : A -> A) l n : ~ In n (map k l) -> map (fun y => if k y =? n then f y else y) l = l.
Proof.
  induction l as [|y l IH]; simpl; intros H; [auto|]. destruct (N.eqb_spec (k y) n) as [E|E]; [tauto|]. rewrite IH by tauto. auto.
Qed.
Lemma filter_out {A} (k : A -> N) l n : ~ In n (map k l) -> filter (fun y => negb (k y =? n)) l = l.
Proof.
  induction l as [|y l IH]; simpl; intros H; [auto|]. destruct (N.eqb_spec (k y) n) as [E|E]; [tauto|]. simpl. rewrite IH by tauto. auto.
Qed.
Lemma nodup_mid {A} (k : A -> N) a x b : NoDup (map k (a ++ x :: b)) -> ~ In (k x) (map k a) /\ ~ In (k x) (map k b) /\ NoDup (map k (a ++ b)).
Proof.
  rewrite !map_app. simpl. intros H. apply NoDup_remove in H. destruct H as [H1 H2]. rewrite in_app_iff in H2. tauto.
Qed.
Lemma upd_mid {A} (k : A -> N) (f : A -> A) a x b : NoDup (map k (a ++ x :: b)) ->
  map (fun y => if k y =? k x then f y else y) (a ++ x :: b) = a ++ f x :: b.
Proof.
  intros H. destruct (nodup_mid _ _ _ _ H) as (H1 & H2 & _). rewrite map_app. simpl. rewrite N.eqb_refl, !upd_out by auto. auto.
Qed.
Lemma filter_mid {A} (k : A -> N) a x b : NoDup (map k (a ++ x :: b)) -> filter (fun y => negb (k y =? k x)) (a ++ x :: b) = a ++ b.
Proof.
  intros H. destruct (nodup_mid _ _ _ _ H) as (H1 & H2 & _). rewrite filter_app. simpl. rewrite N.eqb_refl, !filter_out by auto. auto.
Qed.
Lemma filter_at {A} (k : A -> N) n a x b : k x = n -> NoDup (map k (a ++ x :: b)) -> filter (fun y => negb (k y =? n)) (a ++ x :: b) = a ++ b.
Proof. intros <-. apply filter_mid. Qed.
Lemma find_at {A} (k : A -> N) n a x b : k x = n -> NoDup (map k (a ++ x :: b)) -> find (fun y => k y =? n) (a ++ x :: b) = Some x.
Proof. intros <-. apply find_mid. Qed.
Lemma upd_at {A} (k : A -> N) (f : A -> A) n a x b : k x = n -> NoDup (map k (a ++ x :: b)) -> map (fun y => if k y =? n then f y else y) (a ++ x :: b) = a ++ f x :: b.
Proof. intros <-. apply upd_mid. Qed.
Lemma find_split {A} (k : A -> N) l n x : find (fun y => k y =? n) l = Some x -> n = k x /\ exists a b, l = a ++ x :: b.
Proof. intros H. apply find_some in H. destruct H as [H1 H2]. apply N.eqb_eq in H2. split; [auto|]. apply in_split, H1. Qed.

(** ** Freeing a group *)
Definition clr (gid : N) (p : peer) : peer := if in_group gid p then leave p else p.
Definition clear (gid : N) (s : st) : st :=
  mkSt (filter (fun g => negb (g_id g =? gid)) (s_groups s)) (map (clr gid) (s_peers s)).
Lemma is_in gid p : is (p_g p) gid = in_group gid p. Proof. reflexivity. Qed.
Lemma is_owns g p : is (g_sp g) (p_id p) = owns g p. Proof. reflexivity. Qed.
Lemma in_leave gid p : in_group gid (leave p) = false. Proof. reflexivity. Qed.
Lemma in_clr gid p : in_group gid (clr gid p) = false.
Proof. unfold clr. destruct (in_group gid p) eqn:E; auto. Qed.
Lemma clr_id gid p : p_id (clr gid p) = p_id p. Proof. unfold clr. destruct (in_group gid p); auto. Qed.
Lemma clr_mac gid p : p_mac (clr gid p) = p_mac p. Proof. unfold clr. destruct (in_group gid p); auto. Qed.
Lemma clr_ids gid ps : map p_id (map (clr gid) ps) = map p_id ps.
Proof. rewrite map_map. apply map_ext. intros p. apply clr_id. Qed.
Lemma clr_macs gid ps : map p_mac (map (clr gid) ps) = map p_mac ps.
Proof. rewrite map_map. apply map_ext. intros p. apply clr_mac. Qed.
Lemma clr_clr gid ps : map (clr gid) (map (clr gid) ps) = map (clr gid) ps.
Proof. rewrite map_map. apply map_ext. intros p. unfold clr at 1. rewrite in_clr. auto. Qed.
Lemma clr_out gid ps : (forall p, In p ps -> in_group gid p = false) -> map (clr gid) ps = ps.
Proof.
  induction ps as [|p ps IH]; simpl; intros H; [auto|]. unfold clr at 1. rewrite H, IH by auto. auto.
Qed.

Definition body (free : st -> N -> oc st) (gid : N) (o : oc st) (p : peer) : oc st :=
  let* s := o in
  match peer_at s (p_id p) with
  | None => Undef
  | Some p => if is (p_g p) gid then drop_group free s (p_id p) else Ret s
  end.
Lemma loop_out free gid gs : forall ps done, NoDup (map p_id (done ++ ps)) -> (forall p, In p ps -> in_group gid p = false) ->
  forall qs, map p_id qs = map p_id ps -> fold_left (body free gid) qs (Ret (mkSt gs (done ++ ps))) = Ret (mkSt gs (done ++ ps)).
Proof.
  induction ps as [|p ps IH]; intros done Hd Hp qs Hq; destruct qs as [|q qs]; try discriminate; [reflexivity|].
  simpl in Hq. injection Hq as E1 E2. cbn [fold_left]. unfold body at 2. cbn [obind].
  unfold peer_at. cbn [s_peers]. rewrite E1, find_mid by auto. rewrite is_in, Hp by (simpl; auto).
  change (p :: ps) with ([p] ++ ps) in *. rewrite app_assoc in *. apply IH; auto. intros r Hr. apply Hp. simpl. auto.
Qed.

Definition frees (free : st -> N -> oc st) (gid : N) : Prop := forall s g, NoDup (map p_id (s_peers s)) -> NoDup (map g_id (s_groups s)) ->
  group_at s gid = Some g -> g_users g = 0 -> free s gid = Ret (clear gid s).
Lemma set_users_id g : set_users (g_users g) g = g. Proof. destruct g; reflexivity. Qed.
Lemma others_cons g p ps : others g (p :: ps) = (if in_group (g_id g) p && negb (owns g p) then 1 else 0) + others g ps.
Proof. unfold others. simpl. destruct (in_group (g_id g) p && negb (owns g p)); [rewrite lenN_cons|]; lia. Qed.
Lemma others_users g n ps : others (set_users n g) ps = others g ps. Proof. reflexivity. Qed.

Lemma loop_gen free g : forall ps done c d, NoDup (map p_id (done ++ ps)) -> NoDup (map g_id (c ++ g :: d)) ->
  (g_users g = 0 \/ frees free (g_id g)) ->
  (forall p, In p done -> in_group (g_id g) p = false) ->
  fold_left (body free (g_id g)) ps (Ret (mkSt (c ++ g :: d) (done ++ ps))) =
  if (0 <? g_users g) && (g_users g <=? others g ps) then Ret (mkSt (c ++ d) (done ++ map (clr (g_id g)) ps))
  else Ret (mkSt (c ++ set_users (g_users g - others g ps) g :: d) (done ++ map (clr (g_id g)) ps)).
Proof.
  intros ps. revert g. induction ps as [|p ps IH]; intros g done c d Hd Hg Hf Ho.
  - cbn [fold_left map]. change (others g []) with 0. rewrite N.sub_0_r, set_users_id.
    destruct (N.ltb_spec 0 (g_users g)), (N.leb_spec (g_users g) 0); simpl; auto; lia.
  - cbn [fold_left]. unfold body at 2. cbn [obind]. unfold peer_at at 1. cbn [s_peers]. rewrite find_mid by auto. rewrite is_in.
    cbn [map]. rewrite others_cons.
    destruct (in_group (g_id g) p) eqn:Ei.
    2:{ cbn [andb]. rewrite N.add_0_l. unfold clr at 1 3. rewrite Ei.
        change (p :: ps) with ([p] ++ ps) in *. rewrite app_assoc in *. rewrite IH; auto.
        - change (p :: map (clr (g_id g)) ps) with ([p] ++ map (clr (g_id g)) ps). rewrite !app_assoc. auto.
        - intros q. rewrite in_app_iff. intros [Hq|[<-|[]]]; auto. }
    unfold drop_group at 1. unfold peer_at at 1. cbn [s_peers]. rewrite find_mid by auto.
    assert (Eg : p_g p = Some (g_id g)).
    { unfold in_group in Ei. destruct (p_g p); [|discriminate]. apply N.eqb_eq in Ei. congruence. }
    rewrite Eg. unfold group_at at 1. cbn [s_groups]. rewrite find_mid by auto. rewrite is_owns. cbn [andb].
    unfold clr at 1 3. rewrite Ei.
    assert (Hd' : NoDup (map p_id ((done ++ [leave p]) ++ ps))).
    { rewrite <- app_assoc. rewrite !map_app in *. exact Hd. }
    assert (Ho' : forall q, In q (done ++ [leave p]) -> in_group (g_id g) q = false).
    { intros q. rewrite in_app_iff. intros [Hq|[<-|[]]]; auto. }
    destruct (owns g p) eqn:Eo; cbn [negb].
    { rewrite N.add_0_l. cbn [obind]. unfold upd_peer. cbn [s_groups s_peers]. rewrite upd_mid by auto.
      change (leave p :: ps) with ([leave p] ++ ps). rewrite app_assoc, IH; auto.
      change (leave p :: map (clr (g_id g)) ps) with ([leave p] ++ map (clr (g_id g)) ps). rewrite !app_assoc. auto. }
    unfold group_drop. unfold group_at at 1. cbn [s_groups]. rewrite find_mid by auto.
    destruct (N.eqb_spec (g_users g) 0) as [E0|E0].
    { cbn [obind]. unfold upd_peer. cbn [s_groups s_peers]. rewrite upd_mid by auto.
      change (leave p :: ps) with ([leave p] ++ ps). rewrite app_assoc, IH; auto. rewrite E0. cbn [N.ltb andb].
      change (leave p :: map (clr (g_id g)) ps) with ([leave p] ++ map (clr (g_id g)) ps). rewrite !app_assoc.
      change (0 <? 0) with false. cbn [andb]. do 4 f_equal. }
    unfold upd_group. cbn [s_groups s_peers]. rewrite upd_mid by auto.
    assert (Hg' : forall n, NoDup (map g_id (c ++ set_users n g :: d))) by (intros n; rewrite map_app in *; exact Hg).
    destruct (N.eqb_spec (g_users g - 1) 0) as [E1|E1].
    + destruct Hf as [Hf|Hf]; [contradiction|].
      rewrite (Hf _ (set_users (g_users g - 1) g)).
      2:{ exact Hd. }
      2:{ cbn [s_groups]. apply Hg'. }
      2:{ unfold group_at. cbn [s_groups]. apply (find_at g_id (g_id g) c (set_users (g_users g - 1) g) d eq_refl). apply Hg'. }
      2:{ cbn [set_users g_users]. exact E1. }
      cbn [obind]. unfold clear. cbn [s_groups s_peers].
      rewrite (filter_at g_id (g_id g) c (set_users (g_users g - 1) g) d eq_refl) by apply Hg'.
      unfold upd_peer. cbn [s_groups s_peers].
      assert (Hc : map (clr (g_id g)) (done ++ p :: ps) = done ++ leave p :: map (clr (g_id g)) ps).
      { rewrite map_app. rewrite (clr_out _ done) by auto. cbn [map]. unfold clr at 1. rewrite Ei. auto. }
      rewrite Hc.
      assert (Hd2 : NoDup (map p_id (done ++ leave p :: map (clr (g_id g)) ps))).
      { rewrite <- Hc, clr_ids. exact Hd. }
      rewrite (upd_at p_id leave (p_id p) done (leave p) _ eq_refl) by exact Hd2.
      change (leave (leave p)) with (leave p).
      change (leave p :: map (clr (g_id g)) ps) with ([leave p] ++ map (clr (g_id g)) ps) in *. rewrite app_assoc in *.
      rewrite loop_out; [|auto| |rewrite clr_ids; reflexivity].
      * rewrite (proj2 (N.ltb_lt 0 (g_users g))) by lia. rewrite (proj2 (N.leb_le _ _)) by lia. reflexivity.
      * intros q Hq. apply in_map_iff in Hq. destruct Hq as (r & <- & _). apply in_clr.
    + cbn [obind]. unfold upd_peer. cbn [s_groups s_peers]. rewrite upd_mid by auto.
      change (leave p :: ps) with ([leave p] ++ ps). rewrite app_assoc.
      change (g_id g) with (g_id (set_users (g_users g - 1) g)) at 1.
      rewrite IH; auto. 2:{ destruct Hf as [Hf|Hf]; [contradiction|]. right. exact Hf. }
      rewrite others_users. cbn [set_users g_users g_id].
      change (leave p :: map (clr (g_id g)) ps) with ([leave p] ++ map (clr (g_id g)) ps). rewrite !app_assoc.
      rewrite (proj2 (N.ltb_lt 0 (g_users g))) by lia. rewrite (proj2 (N.ltb_lt 0 (g_users g - 1))) by lia. cbn [andb].
      destruct (N.leb_spec (g_users g - 1) (others g ps)), (N.leb_spec (g_users g) (1 + others g ps)); try lia; [auto|].
      do 4 f_equal. unfold set_users. cbn. f_equal. lia.
Qed.
Lemma free_S fuel s gid : group_free (S fuel) s gid =
  match group_at s gid with
  | None => Undef
  | Some _ =>
      let* s := fold_left (body (group_free fuel) gid) (s_peers s) (Ret s) in
      match group_at s gid with
      | None => Undef
      | Some _ => Ret (mkSt (filter (fun g => negb (g_id g =? gid)) (s_groups s)) (s_peers s))
      end
  end.
Proof. reflexivity. Qed.
Lemma free_gen fuel s g : NoDup (map p_id (s_peers s)) -> NoDup (map g_id (s_groups s)) -> group_at s (g_id g) = Some g ->
  (g_users g = 0 \/ frees (group_free fuel) (g_id g)) ->
  group_free (S fuel) s (g_id g) = if (0 <? g_users g) && (g_users g <=? others g (s_peers s)) then Undef else Ret (clear (g_id g) s).
Proof.
  intros Hp Hg Ha Hf. rewrite free_S, Ha. unfold group_at in Ha. destruct (find_split g_id _ _ _ Ha) as (_ & c & d & E).
  destruct s as [gs ps]. cbn [s_groups s_peers] in *. subst gs.
  assert (H := loop_gen (group_free fuel) g ps [] c d Hp Hg Hf). simpl app in H. rewrite H by (simpl; tauto). clear H.
  destruct ((0 <? g_users g) && (g_users g <=? others g ps)); cbn [obind].
  - unfold group_at. cbn [s_groups]. rewrite (proj2 (find_none_key g_id (c ++ d) (g_id g))); [auto|].
    destruct (nodup_mid _ _ _ _ Hg) as (H1 & H2 & _). rewrite map_app, in_app_iff. tauto.
  - assert (Hg' : NoDup (map g_id (c ++ set_users (g_users g - others g ps) g :: d))) by (rewrite map_app in *; exact Hg).
    unfold group_at. cbn [s_groups]. rewrite (find_at g_id (g_id g) c (set_users (g_users g - others g ps) g) d eq_refl Hg').
    unfold clear. cbn [s_groups s_peers]. rewrite (filter_at g_id (g_id g) c (set_users (g_users g - others g ps) g) d eq_refl Hg').
    rewrite (filter_mid g_id c g d Hg). reflexivity.
Qed.
Lemma frees_1 fuel gid : frees (group_free (S fuel)) gid.
Proof.
  intros s g Hp Hg Ha Hu. assert (E : gid = g_id g) by (unfold group_at in Ha; apply find_split in Ha; tauto). subst gid.
  rewrite (free_gen fuel s g Hp Hg Ha (or_introl Hu)). rewrite Hu. reflexivity.
Qed.
Lemma free_group_eq s g : NoDup (map p_id (s_peers s)) -> NoDup (map g_id (s_groups s)) -> group_at s (g_id g) = Some g ->
  free_group s (g_id g) = if (0 <? g_users g) && (g_users g <=? others g (s_peers s)) then Undef else Ret (clear (g_id g) s).
Proof. intros. apply free_gen; auto. right. apply frees_1. Qed.

(** ** Invariant *)
Definition grp_ok (ps : list peer) (g : group) : Prop :=
  members (g_id g) ps <= g_users g /\ (g_sp g = None -> g_users g = members (g_id g) ps)
  /\ (if g_go g then 50 <= g_subnet g < 256 else g_subnet g = 0).
Definition nz (n : N) : bool := negb (n =? 0).
Definition wf (s : st) : Prop :=
  NoDup (map g_id (s_groups s)) /\ NoDup (map p_id (s_peers s)) /\ NoDup (map g_if (s_groups s)) /\ NoDup (map p_mac (s_peers s))
  /\ (forall p gid, In p (s_peers s) -> p_g p = Some gid -> In gid (map g_id (s_groups s)))
  /\ Forall (grp_ok (s_peers s)) (s_groups s) /\ NoDup (filter nz (map g_subnet (s_groups s))).

Lemma members_app i a b : members i (a ++ b) = members i a + members i b.
Proof. unfold members. rewrite filter_app, lenN_app. auto. Qed.
Lemma members_cons i p b : members i (p :: b) = (if in_group i p then 1 else 0) + members i b.
Proof. unfold members. simpl. destruct (in_group i p); [rewrite lenN_cons|]; lia. Qed.
Lemma members_map f i ps : (forall p, In p ps -> in_group i (f p) = in_group i p) -> members i (map f ps) = members i ps.
Proof. induction ps as [|p ps IH]; simpl; intros H; [auto|]. rewrite !members_cons, H, IH by auto. auto. Qed.
Lemma members_clr i gid ps : i <> gid -> members i (map (clr gid) ps) = members i ps.
Proof.
  intros Hn. apply members_map. intros p _. unfold clr. destruct (in_group gid p) eqn:E; [|auto]. rewrite in_leave.
  unfold in_group in *. destruct (p_g p) as [n|]; [|auto]. apply N.eqb_eq in E. subst. symmetry. apply N.eqb_neq. auto.
Qed.
Lemma others_members g ps : others g ps <= members (g_id g) ps.
Proof.
  induction ps as [|p ps IH]; [reflexivity|]. rewrite others_cons, members_cons.
  destruct (in_group (g_id g) p), (owns g p); simpl; lia.
Qed.
Lemma others_none g ps : g_sp g = None -> others g ps = members (g_id g) ps.
Proof.
  intros H. induction ps as [|p ps IH]; [reflexivity|]. rewrite others_cons, members_cons, IH. unfold owns. rewrite H. simpl. rewrite andb_true_r. auto.
Qed.
Lemma in_group_iff gid p : in_group gid p = true <-> p_g p = Some gid.
Proof. unfold in_group. destruct (p_g p) as [n|]; [rewrite N.eqb_eq|]; split; congruence. Qed.
Lemma members_in p gid ps : In p ps -> p_g p = Some gid -> 0 < members gid ps.
Proof.
  intros Hi Hg. apply in_split in Hi. destruct Hi as (a & b & ->). rewrite members_app, members_cons.
  rewrite (proj2 (in_group_iff gid p)) by auto. lia.
Qed.
Lemma nodup_sub {A} (k : A -> N) f l : NoDup (map k l) -> NoDup (map k (filter f l)).
Proof.
  induction l as [|x l IH]; simpl; [auto|]. rewrite NoDup_cons_iff. intros [H1 H2]. destruct (f x); [|auto]. simpl. constructor; [|auto].
  intros Hi. apply H1. apply in_map_iff in Hi. destruct Hi as (y & E & Hy). apply filter_In in Hy. rewrite <- E. apply in_map. tauto.
Qed.
Lemma nodup_sub_nz f l : NoDup (filter nz (map g_subnet l)) -> NoDup (filter nz (map g_subnet (filter f l))).
Proof.
  induction l as [|x l IH]; simpl; [auto|]. intros H.
  assert (Hl : NoDup (filter nz (map g_subnet l))) by (destruct (nz (g_subnet x)); [inversion H|]; auto).
  destruct (f x); [|auto]. simpl. destruct (nz (g_subnet x)); [|auto]. inversion H as [|? ? Hn Hd]; subst. constructor; [|auto].
  intros Hi. apply Hn. apply filter_In in Hi. apply filter_In. split; [|tauto]. destruct Hi as [Hi _].
  apply in_map_iff in Hi. destruct Hi as (y & E & Hy). apply filter_In in Hy. rewrite <- E. apply in_map. tauto.
Qed.
Lemma wf_clear s gid : wf s -> wf (clear gid s).
Proof.
  intros (H1 & H2 & H3 & H4 & H5 & H6 & H7). unfold clear. cbn [s_groups s_peers]. repeat apply conj; cbn [s_groups s_peers].
  - apply nodup_sub, H1.
  - rewrite clr_ids. exact H2.
  - apply nodup_sub, H3.
  - rewrite clr_macs. exact H4.
  - intros p i Hp Hg. apply in_map_iff in Hp. destruct Hp as (q & <- & Hq).
    assert (E : i <> gid). { intros ->. apply in_group_iff in Hg. rewrite in_clr in Hg. discriminate. }
    unfold clr in Hg. destruct (in_group gid q); [discriminate|]. specialize (H5 q i Hq Hg). apply in_map_iff in H5. destruct H5 as (g & Eg & Hi).
    apply in_map_iff. exists g. split; [auto|]. apply filter_In. split; [auto|]. apply negb_true_iff, N.eqb_neq. congruence.
  - rewrite Forall_forall in *. intros g Hg. apply filter_In in Hg. destruct Hg as [Hg Hn]. apply negb_true_iff, N.eqb_neq in Hn.
    unfold grp_ok. rewrite members_clr by auto. apply (H6 g Hg).
  - apply nodup_sub_nz, H7.
Qed.
Lemma wf_peers gs ps f : (forall p, In p ps -> p_id (f p) = p_id p /\ p_mac (f p) = p_mac p /\ p_g (f p) = p_g p) ->
  wf (mkSt gs ps) -> wf (mkSt gs (map f ps)).
Proof.
  intros Hf (H1 & H2 & H3 & H4 & H5 & H6 & H7). cbn [s_groups s_peers] in *.
  assert (E1 : map p_id (map f ps) = map p_id ps) by (rewrite map_map; apply map_ext_in; intros p Hp; apply (Hf p Hp)).
  assert (E2 : map p_mac (map f ps) = map p_mac ps) by (rewrite map_map; apply map_ext_in; intros p Hp; apply (Hf p Hp)).
  assert (E3 : forall i, members i (map f ps) = members i ps).
  { intros i. apply members_map. intros p Hp. unfold in_group. destruct (Hf p Hp) as (_ & _ & ->). auto. }
  repeat apply conj; cbn [s_groups s_peers]; rewrite ?E1, ?E2; auto.
  - intros p i Hp Hg. apply in_map_iff in Hp. destruct Hp as (q & <- & Hq). destruct (Hf q Hq) as (_ & _ & E). rewrite E in Hg. eauto.
  - rewrite Forall_forall in *. intros g Hg. unfold grp_ok. rewrite E3. apply (H6 g Hg).
Qed.
(** Changing one group and one peer. *)
Lemma wf_change c g d a p b g' p' : wf (mkSt (c ++ g :: d) (a ++ p :: b)) ->
  g_id g' = g_id g -> g_if g' = g_if g -> g_go g' = g_go g -> g_subnet g' = g_subnet g ->
  p_id p' = p_id p -> p_mac p' = p_mac p ->
  (p_g p' = None \/ p_g p' = p_g p \/ p_g p' = Some (g_id g)) ->
  (forall i, i <> g_id g -> in_group i p' = in_group i p) ->
  members (g_id g) (a ++ p' :: b) <= g_users g' -> (g_sp g' = None -> g_users g' = members (g_id g) (a ++ p' :: b)) ->
  wf (mkSt (c ++ g' :: d) (a ++ p' :: b)).
Proof.
  intros (H1 & H2 & H3 & H4 & H5 & H6 & H7) I1 I2 I3 I4 I5 I6 Hp Hm Hu Hs. cbn [s_groups s_peers] in *.
  assert (E1 : map g_id (c ++ g' :: d) = map g_id (c ++ g :: d)) by (rewrite !map_app; simpl; rewrite I1; auto).
  assert (E2 : map g_if (c ++ g' :: d) = map g_if (c ++ g :: d)) by (rewrite !map_app; simpl; rewrite I2; auto).
  assert (E3 : map g_subnet (c ++ g' :: d) = map g_subnet (c ++ g :: d)) by (rewrite !map_app; simpl; rewrite I4; auto).
  assert (E4 : map p_id (a ++ p' :: b) = map p_id (a ++ p :: b)) by (rewrite !map_app; simpl; rewrite I5; auto).
  assert (E5 : map p_mac (a ++ p' :: b) = map p_mac (a ++ p :: b)) by (rewrite !map_app; simpl; rewrite I6; auto).
  assert (Hg : In (g_id g) (map g_id (c ++ g :: d))) by (apply in_map, in_elt).
  destruct (nodup_mid _ _ _ _ H1) as (N1 & N2 & _).
  repeat apply conj; cbn [s_groups s_peers]; rewrite ?E1, ?E2, ?E3, ?E4, ?E5; auto.
  - intros q i Hq Eq. apply in_app_iff in Hq. destruct Hq as [Hq|[<-|Hq]].
    + apply (H5 q i); [|auto]. apply in_app_iff. auto.
    + destruct Hp as [Hp|[Hp|Hp]]; rewrite Hp in Eq; [discriminate| |congruence]. apply (H5 p i); [apply in_elt|auto].
    + apply (H5 q i); [|auto]. apply in_app_iff. simpl. auto.
  - assert (Hk : forall h, In h (c ++ d) -> grp_ok (a ++ p :: b) h -> grp_ok (a ++ p' :: b) h).
    { intros h Hh. unfold grp_ok. rewrite !members_app, !members_cons, Hm; [auto|].
      intros E. apply in_app_iff in Hh. rewrite <- E in *. destruct Hh as [Hh|Hh]; apply (in_map g_id) in Hh; auto. }
    rewrite Forall_app in H6. destruct H6 as [H6 H6']. inversion H6' as [|? ? K1 K2]; subst. apply Forall_app. split; [|constructor].
    + rewrite Forall_forall in *. intros h Hh. apply Hk; [apply in_app_iff; auto|auto].
    + destruct K1 as (_ & _ & K). unfold grp_ok. rewrite I1, I3, I4. auto.
    + rewrite Forall_forall in *. intros h Hh. apply Hk; [apply in_app_iff; auto|auto].
Qed.
Lemma wf_split s g p : wf s -> In g (s_groups s) -> In p (s_peers s) ->
  exists c d a b, s = mkSt (c ++ g :: d) (a ++ p :: b).
Proof.
  intros _ Hg Hp. apply in_split in Hg, Hp. destruct Hg as (c & d & Eg), Hp as (a & b & Ep). exists c, d, a, b.
  destruct s as [gs ps]. cbn [s_groups s_peers] in *. congruence.
Qed.
Lemma group_at_in s g : wf s -> In g (s_groups s) -> group_at s (g_id g) = Some g.
Proof. intros (H1 & _) Hi. unfold group_at. apply (find_key g_id); auto. Qed.
Lemma peer_at_in s p : wf s -> In p (s_peers s) -> peer_at s (p_id p) = Some p.
Proof. intros (_ & H1 & _) Hi. unfold peer_at. apply (find_key p_id); auto. Qed.
Lemma group_named_in s g : wf s -> In g (s_groups s) -> group_named s (g_if g) = Some g.
Proof. intros (_ & _ & H1 & _) Hi. unfold group_named. apply (find_key g_if); auto. Qed.
Lemma group_at_some s i g : group_at s i = Some g -> In g (s_groups s) /\ g_id g = i.
Proof. intros H. apply find_some in H. rewrite N.eqb_eq in H. exact H. Qed.
Lemma peer_at_some s i p : peer_at s i = Some p -> In p (s_peers s) /\ p_id p = i.
Proof. intros H. apply find_some in H. rewrite N.eqb_eq in H. exact H. Qed.
Lemma group_named_some s i g : group_named s i = Some g -> In g (s_groups s) /\ g_if g = i.
Proof. intros H. apply find_some in H. rewrite N.eqb_eq in H. exact H. Qed.
Lemma peer_named_some s i p : peer_named s i = Some p -> In p (s_peers s) /\ p_mac p = i.
Proof. intros H. apply find_some in H. rewrite N.eqb_eq in H. exact H. Qed.

(** ** Leaving *)
Definition left_by (s : st) (p : peer) : st :=
  match p_g p with
  | None => s
  | Some gid =>
      match group_at s gid with
      | None => s
      | Some g =>
          if owns g p then upd_peer leave (p_id p) s
          else if g_users g =? 1 then clear gid s
          else upd_peer leave (p_id p) (upd_group (set_users (g_users g - 1)) gid s)
      end
  end.
Lemma wf_grp s g : wf s -> In g (s_groups s) -> grp_ok (s_peers s) g.
Proof. intros (_ & _ & _ & _ & _ & H & _) Hi. rewrite Forall_forall in H. auto. Qed.
Lemma peer_group s p gid : wf s -> In p (s_peers s) -> p_g p = Some gid -> exists g, In g (s_groups s) /\ g_id g = gid /\ 0 < g_users g.
Proof.
  intros Hw Hp Hg. assert (H5 := Hw). destruct H5 as (_ & _ & _ & _ & H5 & _). specialize (H5 p gid Hp Hg). apply in_map_iff in H5.
  destruct H5 as (g & E & Hi). exists g. split; [auto|]. split; [auto|]. assert (H := members_in p gid _ Hp Hg).
  destruct (wf_grp s g Hw Hi) as (Hm & _). subst. lia.
Qed.
Lemma leave_eq s p : wf s -> In p (s_peers s) -> leave_group s (p_id p) = Ret (left_by s p).
Proof.
  intros Hw Hp. unfold leave_group, drop_group. rewrite (peer_at_in s p Hw Hp). unfold left_by.
  destruct (p_g p) as [gid|] eqn:Eg; [|auto].
  destruct (peer_group s p gid Hw Hp Eg) as (g & Hg & Ei & Hu). subst gid. rewrite (group_at_in s g Hw Hg). rewrite is_owns.
  destruct (owns g p) eqn:Eo; [reflexivity|].
  unfold group_drop. rewrite (group_at_in s g Hw Hg). rewrite (proj2 (N.eqb_neq (g_users g) 0)) by lia.
  destruct (N.eqb_spec (g_users g - 1) 0) as [E|E].
  2:{ rewrite (proj2 (N.eqb_neq (g_users g) 1)) by lia. reflexivity. }
  rewrite (proj2 (N.eqb_eq (g_users g) 1)) by lia.
  destruct (wf_split s g p Hw Hg Hp) as (c & d & a & b & ->). destruct Hw as (H1 & H2 & _). cbn [s_groups s_peers] in *.
  unfold upd_group. cbn [s_groups s_peers]. rewrite upd_mid by auto.
  assert (H1' : NoDup (map g_id (c ++ set_users (g_users g - 1) g :: d))) by (rewrite map_app in *; exact H1).
  unfold free_group. rewrite (frees_1 1 (g_id g) _ (set_users (g_users g - 1) g)); auto.
  2:{ unfold group_at. cbn [s_groups]. apply (find_at g_id (g_id g) c (set_users (g_users g - 1) g) d eq_refl H1'). }
  cbn [obind]. unfold clear, upd_peer. cbn [s_groups s_peers].
  rewrite (filter_at g_id (g_id g) c (set_users (g_users g - 1) g) d eq_refl H1'), (filter_mid g_id c g d H1).
  do 2 f_equal. rewrite map_map. apply map_ext_in. intros q Hq. rewrite clr_id.
  destruct (N.eqb_spec (p_id q) (p_id p)) as [Eq|Eq]; [|auto].
  assert (q = p). { assert (Hf := find_key p_id _ q H2 Hq). rewrite Eq, find_mid in Hf by auto. congruence. }
  subst q. unfold clr. rewrite (proj2 (in_group_iff (g_id g) p)) by auto. reflexivity.
Qed.
Lemma wf_left s p : wf s -> In p (s_peers s) -> wf (left_by s p).
Proof.
  intros Hw Hp. unfold left_by. destruct (p_g p) as [gid|] eqn:Eg; [|auto].
  destruct (peer_group s p gid Hw Hp Eg) as (g & Hg & Ei & Hu). subst gid. rewrite (group_at_in s g Hw Hg).
  assert (Hm := wf_grp s g Hw Hg). destruct Hm as (Hm & Hs & _).
  destruct (owns g p) eqn:Eo; [|destruct (N.eqb_spec (g_users g) 1) as [E1|E1]; [apply wf_clear, Hw|]].
  - destruct (wf_split s g p Hw Hg Hp) as (c & d & a & b & ->). assert (Hw' := Hw). destruct Hw' as (H1 & H2 & _). cbn [s_groups s_peers] in *.
    unfold upd_peer. cbn [s_groups s_peers]. rewrite upd_mid by auto. rewrite members_app, members_cons in Hm.
    rewrite (proj2 (in_group_iff (g_id g) p)) in Hm by auto.
    apply (wf_change c g d a p b); auto.
    + intros i Hi. rewrite in_leave. symmetry. apply not_true_iff_false. rewrite in_group_iff. congruence.
    + rewrite members_app, members_cons, in_leave. lia.
    + intros E. unfold owns in Eo. rewrite E in Eo. discriminate.
  - destruct (wf_split s g p Hw Hg Hp) as (c & d & a & b & ->). assert (Hw' := Hw). destruct Hw' as (H1 & H2 & _). cbn [s_groups s_peers] in *.
    unfold upd_group, upd_peer. cbn [s_groups s_peers]. rewrite !upd_mid by auto. rewrite members_app, members_cons in Hm, Hs.
    rewrite (proj2 (in_group_iff (g_id g) p)) in Hm, Hs by auto.
    apply (wf_change c g d a p b); auto.
    + intros i Hi. rewrite in_leave. symmetry. apply not_true_iff_false. rewrite in_group_iff. congruence.
    + rewrite members_app, members_cons, in_leave. cbn [set_users g_users]. lia.
    + rewrite members_app, members_cons, in_leave. cbn [set_users g_users g_sp]. intros E. specialize (Hs E). lia.
Qed.

(** ** Joining *)
Lemma map_mid_in {A} (k : A -> N) (f : A -> A) l n x : (forall y, k (f y) = k y) -> NoDup (map k l) -> In x l ->
  In (if k x =? n then f x else x) (map (fun y => if k y =? n then f y else y) l).
Proof. intros _ _ Hi. apply (in_map (fun y => if k y =? n then f y else y)) in Hi. exact Hi. Qed.
(** The peer itself is there without group afterwards. *)
Lemma left_peer s p : wf s -> In p (s_peers s) -> exists q, In q (s_peers (left_by s p)) /\ p_id q = p_id p /\ p_mac q = p_mac p /\ p_g q = None.
Proof.
  intros Hw Hp. unfold left_by. destruct (p_g p) as [gid|] eqn:Eg; [|eauto].
  destruct (peer_group s p gid Hw Hp Eg) as (g & Hg & Ei & Hu). subst gid. rewrite (group_at_in s g Hw Hg).
  assert (Hl : In (leave p) (map (fun y => if p_id y =? p_id p then leave y else y) (s_peers s))).
  { apply (in_map (fun y => if p_id y =? p_id p then leave y else y)) in Hp. rewrite N.eqb_refl in Hp. exact Hp. }
  exists (leave p). split; [|auto].
  destruct (owns g p); [exact Hl|]. destruct (g_users g =? 1); [|exact Hl].
  unfold clear. cbn [s_peers]. apply (in_map (clr (g_id g))) in Hp. unfold clr at 1 in Hp.
  rewrite (proj2 (in_group_iff (g_id g) p)) in Hp by auto. exact Hp.
Qed.
(** Other groups stay. *)
Lemma left_groups s p h : In h (s_groups s) -> p_g p <> Some (g_id h) -> In h (s_groups (left_by s p)).
Proof.
  intros Hh Hn. unfold left_by. destruct (p_g p) as [gid|]; [|auto]. destruct (group_at s gid) as [g|] eqn:Ea; [|auto].
  assert (Hg : g_id h <> gid) by congruence.
  destruct (owns g p); [auto|]. destruct (g_users g =? 1).
  - unfold clear. cbn [s_groups]. apply filter_In. split; [auto|]. apply negb_true_iff, N.eqb_neq, Hg.
  - unfold upd_peer, upd_group. cbn [s_groups].
    apply (in_map (fun g0 => if g_id g0 =? gid then set_users (g_users g - 1) g0 else g0)) in Hh.
    rewrite (proj2 (N.eqb_neq (g_id h) gid)) in Hh by auto. exact Hh.
Qed.
Lemma left_ids s p i : In i (map g_id (s_groups (left_by s p))) -> In i (map g_id (s_groups s)).
Proof.
  unfold left_by. destruct (p_g p) as [gid|]; [|auto]. destruct (group_at s gid) as [g|]; [|auto].
  destruct (owns g p); [auto|]. destruct (g_users g =? 1).
  - unfold clear. cbn [s_groups]. rewrite !in_map_iff. intros (h & E & Hi). apply filter_In in Hi. exists h. tauto.
  - unfold upd_peer, upd_group. cbn [s_groups]. rewrite map_map. rewrite !in_map_iff. intros (h & E & Hi). exists h. split; [|auto].
    destruct (g_id h =? gid); exact E.
Qed.
Lemma set_group_ok s p g : wf s -> In p (s_peers s) -> In g (s_groups s) ->
  exists s', set_group s (p_id p) (g_id g) = Ret s' /\ wf s' /\ (exists g', In g' (s_groups s') /\ g_id g' = g_id g /\ g_if g' = g_if g)
    /\ (exists q, In q (s_peers s') /\ p_id q = p_id p /\ p_g q = Some (g_id g)).
Proof.
  intros Hw Hp Hg. unfold set_group. rewrite (peer_at_in s p Hw Hp), is_in.
  destruct (in_group (g_id g) p) eqn:Ei.
  { exists s. split; [auto|]. split; [auto|]. split; [eauto|]. apply in_group_iff in Ei. eauto. }
  rewrite (leave_eq s p Hw Hp). cbn [obind].
  assert (Hn : p_g p <> Some (g_id g)) by (rewrite <- in_group_iff; congruence).
  assert (Hw' := wf_left s p Hw Hp). assert (Hg' := left_groups s p g Hg Hn).
  destruct (left_peer s p Hw Hp) as (q & Hq & E1 & E2 & E3). remember (left_by s p) as t eqn:Et. clear Et.
  rewrite (group_at_in t g Hw' Hg').
  eexists. split; [reflexivity|].
  destruct (wf_grp t g Hw' Hg') as (Hm & Hs & _).
  destruct (wf_split t g q Hw' Hg' Hq) as (c & d & a & b & ->). assert (Hw2 := Hw'). destruct Hw2 as (H1 & H2 & _). cbn [s_groups s_peers] in *.
  unfold upd_group, upd_peer. cbn [s_groups s_peers]. rewrite <- E1. rewrite !upd_mid by auto.
  rewrite members_app, members_cons in Hm, Hs.
  assert (Eq : in_group (g_id g) q = false) by (unfold in_group; rewrite E3; auto). rewrite Eq in Hm, Hs.
  split; [|split].
  - apply (wf_change c g d a q b); auto.
    + intros i Hi. unfold in_group at 2. rewrite E3. unfold in_group, set_pg. cbn [p_g]. apply N.eqb_neq. congruence.
    + rewrite members_app, members_cons. unfold in_group at 1. unfold set_pg at 1. cbn [p_g set_users g_users]. rewrite N.eqb_refl. lia.
    + rewrite members_app, members_cons. unfold in_group at 1. unfold set_pg at 1. cbn [p_g set_users g_users g_sp]. rewrite N.eqb_refl.
      intros E. specialize (Hs E). lia.
  - exists (set_users (g_users g + 1) g). split; [apply in_elt|auto].
  - exists (set_pg (Some (g_id g)) q). split; [apply in_elt|auto].
Qed.
Lemma wf_owner s g p : wf s -> In g (s_groups s) -> In p (s_peers s) -> wf (upd_group (set_owner (p_id p)) (g_id g) s).
Proof.
  intros Hw Hg Hp. destruct (wf_grp s g Hw Hg) as (Hm & Hs & _).
  destruct (wf_split s g p Hw Hg Hp) as (c & d & a & b & ->). assert (Hw2 := Hw). destruct Hw2 as (H1 & H2 & _). cbn [s_groups s_peers] in *.
  unfold upd_group. cbn [s_groups s_peers]. rewrite !upd_mid by auto.
  apply (wf_change c g d a p b); auto. cbn [set_owner g_sp]. discriminate.
Qed.

(** ** Subnets *)
Lemma find_subnet_spec gs : forall n k, let r := find_subnet n k gs in 0 < k ->
  (r = 0 /\ forall i, k <= i < k + N.of_nat n -> In i (map g_subnet gs)) \/ (k <= r < k + N.of_nat n /\ ~ In r (map g_subnet gs)).
Proof.
  induction n as [|n IH]; intros k r Hk; subst r; cbn [find_subnet]; [left; split; [auto|lia]|].
  destruct (existsb (fun j => g_subnet j =? k) gs) eqn:E.
  - assert (Hin : In k (map g_subnet gs)).
    { apply existsb_exists in E. destruct E as (g & Hg & Ek). apply N.eqb_eq in Ek. rewrite <- Ek. apply in_map, Hg. }
    destruct (IH (k + 1) ltac:(lia)) as [[H1 H2]|[H1 H2]].
    + left. split; [auto|]. intros i Hi. destruct (N.eq_dec i k) as [->|]; [auto|]. apply H2. lia.
    + right. split; [lia|auto].
  - right. split; [lia|]. intros Hi. apply in_map_iff in Hi. destruct Hi as (g & Ek & Hg).
    assert (existsb (fun j => g_subnet j =? k) gs = true); [|congruence]. apply existsb_exists. exists g. split; [auto|]. apply N.eqb_eq, Ek.
Qed.
Lemma wf_new s g : wf s -> group_at s (g_id g) = None -> group_named s (g_if g) = None -> g_users g = 0 ->
  (if g_go g then 50 <= g_subnet g < 256 /\ ~ In (g_subnet g) (map g_subnet (s_groups s)) else g_subnet g = 0) ->
  wf (mkSt (g :: s_groups s) (s_peers s)).
Proof.
  intros (H1 & H2 & H3 & H4 & H5 & H6 & H7) Ha Hn Hu Hs. unfold group_at in Ha. unfold group_named in Hn.
  apply find_none_key in Ha. apply find_none_key in Hn. repeat apply conj; cbn [s_groups s_peers map]; auto.
  - constructor; auto.
  - constructor; auto.
  - intros p i Hp Hg. right. eauto.
  - constructor; [|auto]. unfold grp_ok. rewrite Hu.
    assert (E : members (g_id g) (s_peers s) = 0).
    { unfold members. destruct (filter (in_group (g_id g)) (s_peers s)) as [|p l] eqn:E; [auto|].
      assert (Hp : In p (filter (in_group (g_id g)) (s_peers s))) by (rewrite E; simpl; auto). apply filter_In in Hp. destruct Hp as [Hp Hg].
      apply in_group_iff in Hg. exfalso. apply Ha. eauto. }
    rewrite E. destruct (g_go g); intuition lia.
  - cbn [filter]. destruct (g_go g).
    + destruct (nz (g_subnet g)); [|auto]. constructor; [|auto]. rewrite filter_In. tauto.
    + rewrite Hs. exact H7.
Qed.
Lemma group_new_ok s id ifn go ok : wf s -> group_at s id = None -> group_named s ifn = None ->
  match group_new s id ifn go ok with
  | Some s' => wf s' /\ s_peers s' = s_peers s /\ exists g, s_groups s' = g :: s_groups s /\ g_id g = id /\ g_if g = ifn /\ g_go g = go
      /\ ok = true /\ (go = false \/ free_subnet s (g_subnet g))
  | None => ok = false \/ (go = true /\ forall n, ~ free_subnet s n)
  end.
Proof.
  intros Hw Ha Hn. unfold group_new.
  assert (H := find_subnet_spec (s_groups s) 206 50). cbv zeta in H. specialize (H ltac:(reflexivity)).
  change (50 + N.of_nat 206) with 256 in H. generalize dependent (find_subnet 206 50 (s_groups s)). intros r H.
  destruct go; cbn [andb].
  - destruct H as [[H1 H2]|[H1 H2]].
    + rewrite H1. change (0 =? 0) with true. cbn [andb]. right. split; [auto|]. intros n [Hb Hf]. specialize (H2 n Hb).
      apply in_map_iff in H2. destruct H2 as (g & E & Hg). apply (Hf g Hg E).
    + rewrite (proj2 (N.eqb_neq _ 0)) by lia. destruct ok; [|auto]. split; [|split].
      * apply (wf_new s (mkGroup id ifn true r 0 None false)); simpl; auto.
      * reflexivity.
      * eexists. split; [reflexivity|]. simpl. repeat (split; [reflexivity|]). right. split; [auto|]. simpl.
        intros g Hg E. apply H2. rewrite <- E. apply in_map, Hg.
  - destruct ok; [|auto]. split; [|split].
    + apply (wf_new s (mkGroup id ifn false 0 0 None false)); simpl; auto.
    + reflexivity.
    + eexists. split; [reflexivity|]. simpl. auto 6.
Qed.

(** ** Events *)
Lemma peer_free_ok s p : wf s -> In p (s_peers s) -> exists s', peer_free s (p_id p) = Ret s' /\ wf s'
  /\ map p_id (s_peers s') = filter (fun i => negb (i =? p_id p)) (map p_id (s_peers s)).
Proof.
  intros Hw Hp. unfold peer_free. rewrite (leave_eq s p Hw Hp). cbn [obind]. eexists. split; [reflexivity|].
  assert (Hw' := wf_left s p Hw Hp). destruct (left_peer s p Hw Hp) as (q & Hq & E1 & _ & E3).
  assert (Ei : map p_id (s_peers (left_by s p)) = map p_id (s_peers s)).
  { unfold left_by. destruct (p_g p) as [gid|]; [|auto]. destruct (group_at s gid) as [g|]; [|auto].
    assert (Hl : forall i, map p_id (map (fun y => if p_id y =? i then leave y else y) (s_peers s)) = map p_id (s_peers s)).
    { intros i. rewrite map_map. apply map_ext. intros y. destruct (p_id y =? i); auto. }
    destruct (owns g p); [apply Hl|]. destruct (g_users g =? 1); [apply clr_ids|apply Hl]. }
  split.
  - destruct (left_by s p) as [gs ps]. cbn [s_groups s_peers] in *. destruct (in_split _ _ Hq) as (a & b & E). subst ps.
    rewrite <- E1. destruct Hw' as (H1 & H2 & H3 & H4 & H5 & H6 & H7). cbn [s_groups s_peers] in *. rewrite filter_mid by auto.
    repeat apply conj; cbn [s_groups s_peers]; auto.
    + apply (nodup_mid p_id a q b H2).
    + apply (nodup_mid p_mac a q b H4).
    + intros r i Hr. apply H5. rewrite in_app_iff in *. simpl. tauto.
    + rewrite Forall_forall in *. intros g Hg. specialize (H6 g Hg). unfold grp_ok in *. rewrite members_app, members_cons in H6.
      assert (Eq : in_group (g_id g) q = false) by (unfold in_group; rewrite E3; auto). rewrite Eq, N.add_0_l in H6. rewrite members_app. exact H6.
  - cbn [s_peers]. rewrite <- Ei. generalize (s_peers (left_by s p)). intros l. clear. induction l as [|x l IH]; simpl; [auto|].
    destruct (p_id x =? p_id p); simpl; rewrite IH; auto.
Qed.
Lemma started_ok s mac own ifn go id ok : wf s -> group_at s id = None -> exists s', group_started s mac own ifn go id ok = Ret s' /\ wf s'
  /\ ((own = true \/ exists p, In p (s_peers s) /\ p_mac p = mac) -> group_named s ifn = None -> ok = true ->
      ((exists g, In g (s_groups s') /\ g_if g = ifn) <-> go = false \/ exists n, free_subnet s n)).
Proof.
  intros Hw Ha. unfold group_started.
  destruct (peer_named s mac) as [p|] eqn:Ep.
  2:{ destruct own.
      2:{ exists s. split; [auto|]. split; [auto|]. intros [Ho|(p & Hp & E)]; [discriminate|]. unfold peer_named in Ep.
          apply find_none_key in Ep. exfalso. apply Ep. rewrite <- E. apply in_map, Hp. }
      destruct (group_named s ifn) as [g|] eqn:En; [exists s; split; [auto|]; split; [auto|]; discriminate|].
      assert (H := group_new_ok s id ifn go ok Hw Ha En).
      destruct (group_new s id ifn go ok) as [t|].
      - destruct H as (Hw' & _ & g & Eg & _ & Ei & _ & _ & Hf). exists t. split; [auto|]. split; [auto|]. intros _ _ _. split.
        + intros _. destruct Hf; eauto.
        + intros _. exists g. rewrite Eg. simpl. auto.
      - exists s. split; [auto|]. split; [auto|]. intros _ _ Ho. split.
        + intros (g & Hg & E). unfold group_named in En. apply find_none_key in En. exfalso. apply En. rewrite <- E. apply in_map, Hg.
        + destruct H as [H|[H1 H2]]; [congruence|]. intros [E|(n & Hn)]; [congruence|]. exfalso. apply (H2 n Hn). }
  apply peer_named_some in Ep. destruct Ep as [Hp Em].
  assert (Hend : forall t g, wf t -> In p (s_peers t) -> In g (s_groups t) -> exists s',
    (let* s0 := set_group t (p_id p) (g_id g) in
       match group_at s0 (g_id g) with None => Undef | Some _ => Ret (upd_group (set_owner (p_id p)) (g_id g) s0) end) = Ret s' /\ wf s'
    /\ exists g', In g' (s_groups s') /\ g_if g' = g_if g).
  { intros t g Ht Hpt Hg. destruct (set_group_ok t p g Ht Hpt Hg) as (u & Eu & Hu & (g' & Hg' & E1 & E2) & (q & Hq & E3 & E4)).
    rewrite Eu. cbn [obind]. rewrite <- E1, (group_at_in u g' Hu Hg'). eexists. split; [reflexivity|]. split.
    - rewrite <- E3. apply wf_owner; auto.
    - exists (set_owner (p_id p) g'). split; [|auto]. unfold upd_group. cbn [s_groups].
      apply (in_map (fun g0 => if g_id g0 =? g_id g' then set_owner (p_id p) g0 else g0)) in Hg'. rewrite N.eqb_refl in Hg'. exact Hg'. }
  destruct (group_named s ifn) as [g|] eqn:En.
  { apply group_named_some in En. destruct En as [Hg En]. destruct (Hend s g Hw Hp Hg) as (s' & E & Hs & _). exists s'. split; [destruct own; exact E|].
    split; [auto|]. discriminate. }
  assert (H := group_new_ok s id ifn go ok Hw Ha En).
  destruct (group_new s id ifn go ok) as [t|].
  - destruct H as (Hw' & Eps & g & Eg & Ei & Ef & _ & _ & Hf). subst id. destruct (Hend t g Hw') as (s' & E & Hs & (g' & Hg' & E2)).
    { rewrite Eps. exact Hp. }
    { rewrite Eg. simpl. auto. }
    exists s'. split; [destruct own; exact E|]. split; [auto|]. intros _ _ _. split.
    + intros _. destruct Hf; eauto.
    + intros _. exists g'. split; [auto|congruence].
  - exists s. split; [destruct own; auto|]. split; [auto|]. intros _ _ Ho. split.
    + intros (g & Hg & E). unfold group_named in En. apply find_none_key in En. exfalso. apply En. rewrite <- E. apply in_map, Hg.
    + destruct H as [H|[H1 H2]]; [congruence|]. intros [E|(n & Hn)]; [congruence|]. exfalso. apply (H2 n Hn).
Qed.
Lemma free_ok s g : wf s -> In g (s_groups s) ->
  (torn_twice s g /\ free_group s (g_id g) = Undef) \/ (~ torn_twice s g /\ free_group s (g_id g) = Ret (clear (g_id g) s)).
Proof.
  intros Hw Hg. assert (H := Hw). destruct H as (H1 & H2 & _). rewrite free_group_eq; auto; [|apply group_at_in; auto].
  unfold torn_twice. destruct (N.ltb_spec 0 (g_users g)), (N.leb_spec (g_users g) (others g (s_peers s))); cbn [andb]; [left|right..]; split; auto; lia.
Qed.
Lemma wf_addr gs ps f i : (forall p, p_id (f p) = p_id p /\ p_mac (f p) = p_mac p /\ p_g (f p) = p_g p) -> wf (mkSt gs ps) -> wf (upd_peer f i (mkSt gs ps)).
Proof. intros Hf Hw. apply wf_peers; [|exact Hw]. intros p _. destruct (p_id p =? i); auto. Qed.
Lemma wf_local s i : wf s -> wf (upd_group set_local i s).
Proof.
  intros (H1 & H2 & H3 & H4 & H5 & H6 & H7). unfold upd_group. cbn [s_groups s_peers].
  assert (E : forall (k : group -> N), (forall g, k (set_local g) = k g) -> map k (map (fun g => if g_id g =? i then set_local g else g) (s_groups s)) = map k (s_groups s)).
  { intros k Hk. rewrite map_map. apply map_ext. intros g. destruct (g_id g =? i); auto. }
  repeat apply conj; cbn [s_groups s_peers]; rewrite ?E by auto; auto.
  rewrite Forall_forall in *. intros g Hg. apply in_map_iff in Hg. destruct Hg as (h & <- & Hh). specialize (H6 h Hh).
  destruct (g_id h =? i); exact H6.
Qed.
Lemma owner_dec s o : (exists p, In p (s_peers s) /\ p_id p = o) \/ (forall p, In p (s_peers s) -> p_id p <> o).
Proof.
  destruct (peer_at s o) as [p|] eqn:E.
  - left. apply peer_at_some in E. eauto.
  - right. unfold peer_at in E. apply find_none_key in E. intros p Hp Ep. apply E. rewrite <- Ep. apply in_map, Hp.
Qed.
Lemma comm_tail s g : wf s -> In g (s_groups s) ->
  let r := (if g_local g then
            match g_sp g with
            | Some o =>
                match peer_at s o with
                | None => Undef
                | Some p => Ret (if p_addr p then upd_peer set_conn o s else s)
                end
            | None => Ret (mkSt (s_groups s) (map (fun p => if is (p_g p) (g_id g) && p_addr p then set_conn p else p) (s_peers s)))
            end
          else Ret s) in
  (owner_gone s g /\ g_local g = true /\ r = Undef) \/ (~ (owner_gone s g /\ g_local g = true) /\ exists s', r = Ret s' /\ wf s').
Proof.
  intros Hw Hg. cbv zeta. destruct (g_local g) eqn:El; [|right; split; [intros [_ H]; discriminate|eauto]].
  destruct (g_sp g) as [o|] eqn:Eo.
  - destruct (owner_dec s o) as [(p & Hp & Ep)|Hn].
    + subst o. rewrite (peer_at_in s p Hw Hp). right. split.
      * intros [(o & E & Hn) _]. rewrite Eo in E. injection E as <-. apply (Hn p Hp eq_refl).
      * eexists. split; [reflexivity|]. destruct (p_addr p); [|auto]. destruct s as [gs ps]. apply wf_addr; auto.
    + left. split; [exists o; auto|]. split; [auto|]. destruct (peer_at s o) as [p|] eqn:E; [|auto]. apply peer_at_some in E. destruct E as [E1 E2].
      exfalso. apply (Hn p E1 E2).
  - right. split; [intros [(o & E & _) _]; congruence|]. eexists. split; [reflexivity|]. destruct s as [gs ps]. apply wf_peers; [|exact Hw].
    intros p _. cbn [s_peers] in *. destruct (is (p_g p) (g_id g) && p_addr p); auto.
Qed.
Lemma gone_addr s g i f : (forall p, p_id (f p) = p_id p) -> owner_gone (upd_peer f i s) g <-> owner_gone s g.
Proof.
  intros Hf. unfold owner_gone, upd_peer. cbn [s_peers]. split; intros (o & E & H); exists o; split; auto; intros p Hp.
  - specialize (H (if p_id p =? i then f p else p)). destruct (p_id p =? i) eqn:Ei.
    + rewrite Hf in H. apply H. apply in_map_iff. exists p. rewrite Ei. auto.
    + apply H. apply in_map_iff. exists p. rewrite Ei. auto.
  - apply in_map_iff in Hp. destruct Hp as (q & <- & Hq). specialize (H q Hq). destruct (p_id q =? i); rewrite ?Hf; auto.
Qed.
Lemma comm_ok s g l : wf s -> In g (s_groups s) ->
  let b := owner_gone s g /\ (l = G \/ l = L \/ g_local g = true) in
  (b /\ comm_line s (g_id g) l = Undef) \/ (~ b /\ exists s', comm_line s (g_id g) l = Ret s' /\ wf s').
Proof.
  intros Hw Hg. cbv zeta. unfold comm_line. rewrite (group_at_in s g Hw Hg).
  assert (Haddr : forall i, wf (upd_peer set_addr i s)) by (intros i; destruct s; apply wf_addr; auto).
  assert (Hsame : forall l', (l' = G \/ l' = L -> l' <> G /\ l' <> L) -> forall t, wf t -> s_groups t = s_groups s ->
    (owner_gone t g <-> owner_gone s g) ->
    ((owner_gone s g /\ (l' = G \/ l' = L \/ g_local g = true)) /\ (match group_at t (g_id g) with None => Undef | Some g0 => if g_local g0 then
            match g_sp g0 with
            | Some o =>
                match peer_at t o with
                | None => Undef
                | Some p => Ret (if p_addr p then upd_peer set_conn o t else t)
                end
            | None => Ret (mkSt (s_groups t) (map (fun p => if is (p_g p) (g_id g) && p_addr p then set_conn p else p) (s_peers t)))
            end
          else Ret t end) = Undef) \/ (~ (owner_gone s g /\ (l' = G \/ l' = L \/ g_local g = true)) /\ exists s', (match group_at t (g_id g) with None => Undef | Some g0 => if g_local g0 then
            match g_sp g0 with
            | Some o =>
                match peer_at t o with
                | None => Undef
                | Some p => Ret (if p_addr p then upd_peer set_conn o t else t)
                end
            | None => Ret (mkSt (s_groups t) (map (fun p => if is (p_g p) (g_id g) && p_addr p then set_conn p else p) (s_peers t)))
            end
          else Ret t end) = Ret s' /\ wf s')).
  { intros l' Hl t Ht Et Ho. rewrite (group_at_in t g Ht) by (rewrite Et; auto).
    destruct (comm_tail t g Ht) as [(H1 & H2 & H3)|(H1 & H2)]; [rewrite Et; auto| |].
    - left. split; [|exact H3]. rewrite <- Ho. auto.
    - right. split; [|exact H2]. rewrite <- Ho. tauto. }
  destruct l as [| |[i|]|]; cbn [obind].
  - (* L *) destruct (in_split _ _ Hg) as (c & d & Es).
    assert (Hw' := wf_local s (g_id g) Hw).
    assert (Hg' : In (set_local g) (s_groups (upd_group set_local (g_id g) s))).
    { unfold upd_group. cbn [s_groups]. apply (in_map (fun h => if g_id h =? g_id g then set_local h else h)) in Hg. rewrite N.eqb_refl in Hg. exact Hg. }
    assert (Ea : group_at (upd_group set_local (g_id g) s) (g_id g) = Some (set_local g)) by exact (group_at_in _ _ Hw' Hg').
    rewrite Ea.
    destruct (comm_tail _ _ Hw' Hg') as [(H1 & H2 & H3)|(H1 & H2)].
    + left. split; [|exact H3]. split; [exact H1|auto].
    + right. split; [|exact H2]. intros [H3 _]. apply H1. split; [exact H3|reflexivity].
  - (* G *) destruct (g_sp g) as [o|] eqn:Eo.
    + destruct (owner_dec s o) as [(p & Hp & Ep)|Hn].
      * subst o. rewrite (peer_at_in s p Hw Hp). cbn [obind].
        assert (Hng : ~ owner_gone s g).
        { intros (o & E & Hn). rewrite Eo in E. injection E as <-. apply (Hn p Hp eq_refl). }
        rewrite (group_at_in (upd_peer set_addr (p_id p) s) g (Haddr _) Hg).
        destruct (comm_tail (upd_peer set_addr (p_id p) s) g (Haddr _) Hg) as [(H1 & _)|(_ & H2)].
        -- exfalso. apply Hng. apply gone_addr in H1; auto.
        -- right. split; [tauto|exact H2].
      * destruct (peer_at s o) as [p|] eqn:E; [apply peer_at_some in E; destruct E as [E1 E2]; exfalso; apply (Hn p E1 E2)|].
        left. split; [|auto]. split; [exists o; auto|auto].
    + cbn [obind]. assert (Hng : ~ owner_gone s g) by (intros (o & E & _); congruence).
      rewrite (group_at_in s g Hw Hg). destruct (comm_tail s g Hw Hg) as [(H1 & _)|(_ & H2)]; [contradiction|]. right. split; [tauto|exact H2].
  - apply (Hsame (R (Some i))); [intros [E|E]; discriminate|apply Haddr|reflexivity|apply gone_addr; auto].
  - apply (Hsame (R None)); [intros [E|E]; discriminate|auto|auto|tauto].
  - apply (Hsame Other); [intros [E|E]; discriminate|auto|auto|tauto].
Qed.
Lemma stop_peers : forall ids s, wf s -> map p_id (s_peers s) = ids -> exists s', each peer_free ids s = Ret s' /\ wf s' /\ s_peers s' = [].
Proof.
  induction ids as [|i ids IH]; intros s Hw E.
  - exists s. split; [auto|]. split; [auto|]. destruct (s_peers s); [auto|discriminate].
  - destruct (s_peers s) as [|p ps] eqn:Ep; [discriminate|]. simpl in E. injection E as Ei Et. subst i.
    assert (Hp : In p (s_peers s)) by (rewrite Ep; simpl; auto).
    destruct (peer_free_ok s p Hw Hp) as (s' & Ef & Hw' & Es). cbn [each]. rewrite Ef. cbn [obind]. apply IH; [auto|].
    rewrite Es, Ep. simpl. rewrite N.eqb_refl. simpl. rewrite <- Et. destruct Hw as (_ & H2 & _). rewrite Ep in H2. simpl in H2. inversion H2; subst.
    clear -H1. induction ps as [|q ps IH]; simpl in *; [auto|]. destruct (N.eqb_spec (p_id q) (p_id p)); [tauto|]. simpl. rewrite IH; tauto.
Qed.
Lemma stop_groups : forall ids s, wf s -> s_peers s = [] -> map g_id (s_groups s) = ids -> each free_group ids s = Ret init.
Proof.
  induction ids as [|i ids IH]; intros s Hw Hp E.
  - destruct s as [gs ps]. simpl in *. destruct gs; [|discriminate]. subst. reflexivity.
  - destruct (s_groups s) as [|g gs] eqn:Eg; [discriminate|]. simpl in E. injection E as Ei Et. subst i.
    assert (Hg : In g (s_groups s)) by (rewrite Eg; simpl; auto). cbn [each].
    destruct (free_ok s g Hw Hg) as [[[H1 H2] _]|[_ Ef]]; [rewrite Hp in H2; change (others g []) with 0 in H2; lia|].
    rewrite Ef. cbn [obind]. apply IH.
    + apply wf_clear, Hw.
    + unfold clear. cbn [s_peers]. rewrite Hp. auto.
    + unfold clear. cbn [s_groups]. rewrite Eg. destruct Hw as (H1 & _). rewrite Eg in H1. rewrite (filter_mid g_id [] g gs H1 : filter _ (g :: gs) = gs). exact Et.
Qed.
Lemma stopped_ok s : wf s -> stopped s = Ret init.
Proof.
  intros Hw. unfold stopped, free_peers. destruct (stop_peers _ s Hw eq_refl) as (s' & E & Hw' & Hp). rewrite E. cbn [obind].
  apply stop_groups; auto.
Qed.
Lemma wf_peer_new s id mac : wf s -> peer_named s mac = None -> peer_at s id = None -> wf (mkSt (s_groups s) (mkPeer id mac None false false :: s_peers s)).
Proof.
  intros (H1 & H2 & H3 & H4 & H5 & H6 & H7) Hm Hi. unfold peer_named in Hm. unfold peer_at in Hi. apply find_none_key in Hm. apply find_none_key in Hi.
  repeat apply conj; cbn [s_groups s_peers map]; auto; try (constructor; auto).
  - intros p i [<-|Hp] Hg; [discriminate|eauto].
Qed.
Lemma step_ok s e : wf s -> (bad s e /\ step s e = Undef) \/ (~ bad s e /\ exists s', step s e = Ret s' /\ wf s').
Proof.
  intros Hw. destruct e as [id mac|mac|mac own ifn go id ok|ifn|mac ifn|mac|mac|id|id l|]; cbn [step bad].
  - right. split; [auto|]. destruct (peer_named s mac) eqn:Em; [eauto|]. destruct (peer_at s id) eqn:Ei; [eauto|].
    eexists. split; [reflexivity|]. apply wf_peer_new; auto.
  - right. split; [auto|]. unfold of_peer. destruct (peer_named s mac) as [p|] eqn:Em; [|eauto]. apply peer_named_some in Em.
    destruct (peer_free_ok s p Hw (proj1 Em)) as (s' & E & H & _). eauto.
  - right. split; [auto|]. destruct (group_at s id) eqn:Ei; [eauto|]. destruct (started_ok s mac own ifn go id ok Hw Ei) as (s' & E & H & _). eauto.
  - destruct (group_named s ifn) as [g|] eqn:En.
    + apply group_named_some in En. destruct En as [Hg <-]. destruct (free_ok s g Hw Hg) as [[H E]|[H E]].
      * left. split; [exists g; auto|auto].
      * right. split; [|eexists; split; [exact E|apply wf_clear, Hw]]. intros (h & Hh & Ei & Ht).
        assert (h = g). { assert (A1 := group_named_in s h Hw Hh). assert (A2 := group_named_in s g Hw Hg). congruence. }
        subst h. auto.
    + right. split; [|eauto]. intros (h & Hh & Ei & _). rewrite <- Ei, (group_named_in s h Hw Hh) in En. discriminate.
  - right. split; [auto|]. unfold sta_connected. destruct (peer_named s mac) as [p|] eqn:Em; [|eauto]. destruct (p_g p); [eauto|].
    destruct (group_named s ifn) as [g|] eqn:En; [|eauto]. apply peer_named_some in Em. apply group_named_some in En.
    destruct (set_group_ok s p g Hw (proj1 Em) (proj1 En)) as (s' & E & H & _). eauto.
  - right. split; [auto|]. unfold of_peer. destruct (peer_named s mac) as [p|] eqn:Em; [|eauto]. apply peer_named_some in Em.
    rewrite (leave_eq s p Hw (proj1 Em)). eexists. split; [reflexivity|]. apply wf_left; tauto.
  - right. split; [auto|]. unfold of_peer. destruct (peer_named s mac) as [p|] eqn:Em; [|eauto]. apply peer_named_some in Em.
    rewrite (leave_eq s p Hw (proj1 Em)). eexists. split; [reflexivity|]. apply wf_left; tauto.
  - destruct (group_at s id) as [g|] eqn:En.
    + apply group_at_some in En. destruct En as [Hg <-]. destruct (free_ok s g Hw Hg) as [[H E]|[H E]].
      * left. split; [exists g; auto|auto].
      * right. split; [|eexists; split; [exact E|apply wf_clear, Hw]]. intros (h & Hh & Ei & Ht).
        assert (h = g). { assert (A1 := group_at_in s h Hw Hh). assert (A2 := group_at_in s g Hw Hg). congruence. }
        subst h. auto.
    + right. split; [|eauto]. intros (h & Hh & Ei & _). rewrite <- Ei, (group_at_in s h Hw Hh) in En. discriminate.
  - destruct (group_at s id) as [g|] eqn:En.
    + apply group_at_some in En. destruct En as [Hg <-]. destruct (comm_ok s g l Hw Hg) as [[H E]|[H E]].
      * left. split; [exists g; tauto|auto].
      * right. split; [|exact E]. intros (h & Hh & Ei & Ht).
        assert (h = g). { assert (A1 := group_at_in s h Hw Hh). assert (A2 := group_at_in s g Hw Hg). congruence. }
        subst h. auto.
    + right. split; [|eauto]. intros (h & Hh & Ei & _). rewrite <- Ei, (group_at_in s h Hw Hh) in En. discriminate.
  - right. split; [auto|]. rewrite (stopped_ok s Hw). eexists. split; [reflexivity|].
    repeat apply conj; simpl; try constructor. contradiction.
Qed.
Lemma wf_init : wf init.
Proof. repeat apply conj; simpl; try constructor. contradiction. Qed.
Lemma run_ok es : forall s, wf s -> run s es <> Endless /\ forall s', run s es = Ret s' -> wf s'.
Proof.
  induction es as [|e es IH]; intros s Hw; cbn [run].
  - split; [discriminate|]. intros s' E. injection E as <-. exact Hw.
  - destruct (step_ok s e Hw) as [[_ E]|[_ (t & E & Ht)]]; rewrite E; cbn [obind]; [split; discriminate|auto].
Qed.
Lemma run_wf es s : run init es = Ret s -> wf s.
Proof. apply (run_ok es init wf_init). Qed.

(** ** Consequences *)
Lemma nz_inj l g h : NoDup (filter nz (map g_subnet l)) -> In g l -> In h l -> g_subnet g <> 0 -> g_subnet h = g_subnet g -> h = g.
Proof.
  induction l as [|x l IH]; simpl; [tauto|]. intros Hd Hg Hh Hz E.
  assert (Hl : NoDup (filter nz (map g_subnet l))) by (destruct (nz (g_subnet x)); [inversion Hd|]; auto).
  assert (Hin : forall y, In y l -> g_subnet y = g_subnet g -> In (g_subnet g) (filter nz (map g_subnet l))).
  { intros y Hy Ey. apply filter_In. split; [rewrite <- Ey; apply in_map, Hy|]. apply negb_true_iff, N.eqb_neq, Hz. }
  destruct Hg as [->|Hg], Hh as [->|Hh]; auto.
  - assert (Hn : nz (g_subnet g) = true) by (apply negb_true_iff, N.eqb_neq, Hz). rewrite Hn in Hd. inversion Hd as [|? ? Hx _]; subst.
    exfalso. apply Hx, (Hin h Hh E).
  - assert (Hn : nz (g_subnet h) = true) by (rewrite E; apply negb_true_iff, N.eqb_neq, Hz). rewrite Hn in Hd. inversion Hd as [|? ? Hx _]; subst.
    exfalso. apply Hx. rewrite E. apply (Hin g Hg eq_refl).
Qed.
Lemma subnets es s g : run init es = Ret s -> In g (s_groups s) -> g_go g = true ->
  50 <= g_subnet g < 256 /\ forall h, In h (s_groups s) -> g_id h <> g_id g -> g_subnet h <> g_subnet g.
Proof.
  intros E Hg Hgo. assert (Hw := run_wf es s E). destruct (wf_grp s g Hw Hg) as (_ & _ & Hs). rewrite Hgo in Hs. split; [auto|].
  intros h Hh Hn He. apply Hn. f_equal. destruct Hw as (_ & _ & _ & _ & _ & _ & H7). apply (nz_inj _ g h H7 Hg Hh); [lia|auto].
Qed.
Lemma start_iff es s mac own ifn go id : run init es = Ret s -> (forall g, In g (s_groups s) -> g_id g <> id /\ g_if g <> ifn) ->
  (own = true \/ exists p, In p (s_peers s) /\ p_mac p = mac) ->
  exists s', step s (GroupStarted mac own ifn go id true) = Ret s' /\
    ((exists g, In g (s_groups s') /\ g_if g = ifn) <-> go = false \/ exists n, free_subnet s n).
Proof.
  intros E Hn Hk. assert (Hw := run_wf es s E).
  assert (Ha : group_at s id = None).
  { unfold group_at. apply find_none_key. intros Hi. apply in_map_iff in Hi. destruct Hi as (g & Eg & Hg). apply Hn in Hg. tauto. }
  assert (Hb : group_named s ifn = None).
  { unfold group_named. apply find_none_key. intros Hi. apply in_map_iff in Hi. destruct Hi as (g & Eg & Hg). apply Hn in Hg. tauto. }
  cbn [step]. rewrite Ha. destruct (started_ok s mac own ifn go id true Hw Ha) as (s' & Es & _ & H). exists s'. auto.
Qed.
Lemma undef_iff es s e : run init es = Ret s -> (step s e = Undef <-> bad s e) /\ step s e <> Endless.
Proof.
  intros E. destruct (step_ok s e (run_wf es s E)) as [[H1 H2]|[H1 (s' & H2 & _)]]; rewrite H2; split; try discriminate; split; try tauto; discriminate.
Qed.
Lemma dangling_free es s : run init es = Ret s -> no_dangling s.
Proof.
  intros E p gid Hp Hg. destruct (peer_group s p gid (run_wf es s E) Hp Hg) as (g & H1 & H2 & _). eauto.
Qed.
Lemma torn_iff es s g : run init es = Ret s -> In g (s_groups s) ->
  (torn_twice s g <-> 0 < g_users g /\ g_users g = others g (s_peers s)) /\
  (g_sp g = None -> (torn_twice s g <-> exists p, In p (s_peers s) /\ p_g p = Some (g_id g))) /\
  ((exists p, In p (s_peers s) /\ p_g p = Some (g_id g) /\ g_sp g = Some (p_id p)) -> ~ torn_twice s g).
Proof.
  intros E Hg. assert (Hw := run_wf es s E). destruct (wf_grp s g Hw Hg) as (Hm & Hs & _). assert (Ho := others_members g (s_peers s)).
  unfold torn_twice. split; [lia|]. split.
  - intros Hn. rewrite (others_none g _ Hn). specialize (Hs Hn). split.
    + intros [H1 _]. rewrite Hs in H1. unfold members in H1. destruct (filter (in_group (g_id g)) (s_peers s)) as [|p l] eqn:Ef; [change (lenN (@nil peer)) with 0 in H1; lia|].
      exists p. assert (Hi : In p (filter (in_group (g_id g)) (s_peers s))) by (rewrite Ef; simpl; auto). apply filter_In in Hi. rewrite in_group_iff in Hi. exact Hi.
    + intros (p & Hp & Hpg). assert (H := members_in p _ _ Hp Hpg). lia.
  - intros (p & Hp & Hpg & Hsp). assert (others g (s_peers s) < members (g_id g) (s_peers s)); [|lia].
    apply in_split in Hp. destruct Hp as (a & b & Ep). rewrite Ep.
    assert (Happ : forall x y, others g (x ++ y) = others g x + others g y) by (intros; unfold others; rewrite filter_app, lenN_app; auto).
    rewrite Happ, members_app, others_cons, members_cons. rewrite (proj2 (in_group_iff (g_id g) p) Hpg). unfold owns. rewrite Hsp, N.eqb_refl. simpl.
    assert (H1 := others_members g a). assert (H2 := others_members g b). lia.
Qed.
Lemma clear_down s g : torn_down s (clear (g_id g) s) g.
Proof.
  unfold torn_down, clear. cbn [s_groups s_peers]. split.
  - intros h. rewrite filter_In, negb_true_iff, N.eqb_neq. tauto.
  - intros p. rewrite in_map_iff. unfold clr, leave. split; intros (q & H1 & H2); exists q; split; auto.
Qed.
Lemma teardown es s g e s' : run init es = Ret s -> In g (s_groups s) -> e = Removed (g_if g) \/ e = DhcpExit (g_id g) -> step s e = Ret s' -> torn_down s s' g.
Proof.
  intros E Hg He Es. assert (Hw := run_wf es s E).
  assert (Ef : free_group s (g_id g) = Ret s').
  { destruct He as [->| ->]; cbn [step] in Es; [rewrite (group_named_in s g Hw Hg) in Es|rewrite (group_at_in s g Hw Hg) in Es]; exact Es. }
  destruct (free_ok s g Hw Hg) as [[_ H]|[_ H]]; rewrite H in Ef; [discriminate|]. injection Ef as <-. apply clear_down.
Qed.
Lemma last_leaves es s g p e s' : run init es = Ret s -> In g (s_groups s) -> g_sp g = None -> In p (s_peers s) -> p_g p = Some (g_id g) ->
  (forall q, In q (s_peers s) -> p_g q = Some (g_id g) -> q = p) ->
  e = StaLeft (p_mac p) \/ e = Disconnect (p_mac p) -> step s e = Ret s' -> torn_down s s' g.
Proof.
  intros E Hg Hsp Hp Hpg Hon He Es. assert (Hw := run_wf es s E).
  assert (El : leave_group s (p_id p) = Ret s').
  { assert (Hm := Hw). destruct Hm as (_ & _ & _ & H4 & _). assert (Hf : peer_named s (p_mac p) = Some p) by (unfold peer_named; apply (find_key p_mac); auto).
    destruct He as [->| ->]; cbn [step] in Es; unfold of_peer in Es; rewrite Hf in Es; exact Es. }
  rewrite (leave_eq s p Hw Hp) in El. injection El as <-. unfold left_by. rewrite Hpg, (group_at_in s g Hw Hg).
  unfold owns. rewrite Hsp. destruct (wf_grp s g Hw Hg) as (_ & Hs & _). rewrite (Hs Hsp).
  assert (Hm : members (g_id g) (s_peers s) = 1).
  { assert (Hw' := Hw). destruct Hw' as (_ & H2 & _). destruct (in_split _ _ Hp) as (a & b & Ep). rewrite Ep in *. rewrite members_app, members_cons.
    rewrite (proj2 (in_group_iff (g_id g) p) Hpg). destruct (nodup_mid _ _ _ _ H2) as (N1 & N2 & _).
    assert (Hz : forall l, (forall q, In q l -> In q (a ++ p :: b) /\ q <> p) -> members (g_id g) l = 0).
    { intros l Hl. unfold members. destruct (filter (in_group (g_id g)) l) as [|q l'] eqn:Ef; [auto|].
      assert (Hi : In q (filter (in_group (g_id g)) l)) by (rewrite Ef; simpl; auto). apply filter_In in Hi. rewrite in_group_iff in Hi.
      destruct Hi as [Hi1 Hi2]. destruct (Hl q Hi1) as [Hl1 Hl2]. exfalso. apply Hl2, Hon; auto. }
    rewrite (Hz a), (Hz b).
    - reflexivity.
    - intros q Hq. split; [apply in_app_iff; simpl; auto|]. intros ->. apply N2, in_map, Hq.
    - intros q Hq. split; [apply in_app_iff; simpl; auto|]. intros ->. apply N1, in_map, Hq. }
  rewrite Hm. apply clear_down.
Qed.
Lemma stop_all es s : run init es = Ret s -> step s Stopped = Ret init.
Proof. intros E. apply stopped_ok, (run_wf es s E). Qed.

(** ** Connected peers *)
Definition conn_ok (s : st) : Prop := forall p, In p (s_peers s) -> p_conn p = true -> p_g p <> None.
Lemma conn_map f gs gs' ps : (forall p, In p ps -> p_conn (f p) = true -> (p_conn p = true -> p_g p <> None) -> p_g (f p) <> None) -> conn_ok (mkSt gs ps) -> conn_ok (mkSt gs' (map f ps)).
Proof. intros Hf Hc p Hp E. apply in_map_iff in Hp. destruct Hp as (q & <- & Hq). apply Hf; auto. Qed.
Lemma conn_upd f i s : (forall p, p_conn (f p) = true -> (p_conn p = true -> p_g p <> None) -> p_g (f p) <> None) -> conn_ok s -> conn_ok (upd_peer f i s).
Proof. intros Hf Hc. destruct s as [gs ps]. apply (conn_map _ gs); [|exact Hc]. intros p _. destruct (p_id p =? i); auto. Qed.
Lemma conn_groups gs gs' ps : conn_ok (mkSt gs ps) -> conn_ok (mkSt gs' ps). Proof. intros H. exact H. Qed.
Lemma conn_clear i s : conn_ok s -> conn_ok (clear i s).
Proof. intros Hc. apply (conn_map _ (s_groups s)); [|destruct s; exact Hc]. intros p _. unfold clr. destruct (in_group i p); [discriminate|auto]. Qed.
Lemma conn_left s p : conn_ok s -> conn_ok (left_by s p).
Proof.
  intros Hc. unfold left_by. destruct (p_g p) as [gid|]; [|auto]. destruct (group_at s gid) as [g|]; [|auto].
  destruct (owns g p); [apply conn_upd; [discriminate|auto]|]. destruct (g_users g =? 1); [apply conn_clear, Hc|].
  apply conn_upd; [discriminate|]. exact Hc.
Qed.
Lemma conn_set s p gid s' : wf s -> In p (s_peers s) -> set_group s (p_id p) gid = Ret s' -> conn_ok s -> conn_ok s'.
Proof.
  intros Hw Hp E Hc. unfold set_group in E. rewrite (peer_at_in s p Hw Hp) in E. destruct (is (p_g p) gid); [injection E as <-; auto|].
  rewrite (leave_eq s p Hw Hp) in E. cbn [obind] in E. destruct (group_at (left_by s p) gid); [|discriminate]. injection E as <-.
  assert (H := conn_upd (set_pg (Some gid)) (p_id p) _ ltac:(intros q _ _; simpl; discriminate) (conn_left s p Hc)). exact H.
Qed.
Lemma conn_step s e s' : wf s -> step s e = Ret s' ->
  (forall id l g o, e = DhcpLine id l -> In g (s_groups s) -> g_id g = id -> g_sp g = Some o -> exists p, In p (s_peers s) /\ p_id p = o /\ p_g p = Some id) ->
  conn_ok s -> conn_ok s'.
Proof.
  intros Hw E Hl Hc. destruct e as [id mac|mac|mac own ifn go id ok|ifn|mac ifn|mac|mac|id|id l|]; cbn [step] in E.
  - destruct (peer_named s mac); [injection E as <-; auto|]. destruct (peer_at s id); injection E as <-; auto.
    intros p [<-|Hp]; [discriminate|auto].
  - unfold of_peer in E. destruct (peer_named s mac) as [p|] eqn:Em; [|injection E as <-; auto]. apply peer_named_some in Em.
    unfold peer_free in E. rewrite (leave_eq s p Hw (proj1 Em)) in E. cbn [obind] in E. injection E as <-.
    intros q Hq. cbn [s_peers] in Hq. apply filter_In in Hq. apply (conn_left s p Hc), Hq.
  - destruct (group_at s id) eqn:Ei; [injection E as <-; auto|]. unfold group_started in E.
    destruct (peer_named s mac) as [p|] eqn:Ep.
    2:{ destruct own; [|injection E as <-; auto]. destruct (group_named s ifn) as [g|] eqn:En; [injection E as <-; auto|].
        assert (H := group_new_ok s id ifn go ok Hw Ei En).
        destruct (group_new s id ifn go ok) as [t|]; injection E as <-; [|auto]. destruct H as (_ & Hps & _). intros q. rewrite Hps. apply Hc. }
    apply peer_named_some in Ep. destruct Ep as [Hp Em].
    assert (Hend : forall t gid, wf t -> In p (s_peers t) -> conn_ok t -> 
      (let* s0 := set_group t (p_id p) gid in
         match group_at s0 gid with None => Undef | Some _ => Ret (upd_group (set_owner (p_id p)) gid s0) end) = Ret s' -> conn_ok s').
    { intros t gid Ht Hpt Hct Et. destruct (set_group t (p_id p) gid) as [u| |] eqn:Eu; cbn [obind] in Et; try discriminate.
      destruct (group_at u gid); [|discriminate]. injection Et as <-. apply (conn_set t p gid u Ht Hpt Eu Hct). }
    destruct (group_named s ifn) as [g|] eqn:En; [destruct own; apply (Hend s (g_id g)); auto|].
    assert (H := group_new_ok s id ifn go ok Hw Ei En).
    destruct (group_new s id ifn go ok) as [t|].
    + destruct H as (Ht & Hps & _). assert (Hct : conn_ok t) by (intros q; rewrite Hps; apply Hc). destruct own; apply (Hend t id); auto; rewrite Hps; auto.
    + destruct own; injection E as <-; auto.
  - destruct (group_named s ifn) as [g|] eqn:En; [|injection E as <-; auto]. apply group_named_some in En.
    destruct (free_ok s g Hw (proj1 En)) as [[_ H]|[_ H]]; rewrite H in E; [discriminate|]. injection E as <-. apply conn_clear, Hc.
  - unfold sta_connected in E. destruct (peer_named s mac) as [p|] eqn:Em; [|injection E as <-; auto]. destruct (p_g p); [injection E as <-; auto|].
    destruct (group_named s ifn) as [g|]; [|injection E as <-; auto]. apply peer_named_some in Em. apply (conn_set s p (g_id g) s' Hw (proj1 Em) E Hc).
  - unfold of_peer in E. destruct (peer_named s mac) as [p|] eqn:Em; [|injection E as <-; auto]. apply peer_named_some in Em.
    rewrite (leave_eq s p Hw (proj1 Em)) in E. injection E as <-. apply conn_left, Hc.
  - unfold of_peer in E. destruct (peer_named s mac) as [p|] eqn:Em; [|injection E as <-; auto]. apply peer_named_some in Em.
    rewrite (leave_eq s p Hw (proj1 Em)) in E. injection E as <-. apply conn_left, Hc.
  - destruct (group_at s id) as [g|] eqn:En; [|injection E as <-; auto]. apply group_at_some in En. destruct En as [Hg <-].
    destruct (free_ok s g Hw Hg) as [[_ H]|[_ H]]; rewrite H in E; [discriminate|]. injection E as <-. apply conn_clear, Hc.
  - destruct (group_at s id) as [g|] eqn:En; [|injection E as <-; auto]. apply group_at_some in En. destruct En as [Hg <-].
    unfold comm_line in E. rewrite (group_at_in s g Hw Hg) in E.
    assert (Htail : forall t h, conn_ok t -> (forall o, g_sp h = Some o -> forall q, peer_at t o = Some q -> p_g q <> None) -> group_at t (g_id g) = Some h ->
      wf t ->
      match group_at t (g_id g) with
      | None => Undef
      | Some g0 =>
          if g_local g0 then
            match g_sp g0 with
            | Some o =>
                match peer_at t o with
                | None => Undef
                | Some p => Ret (if p_addr p then upd_peer set_conn o t else t)
                end
            | None => Ret (mkSt (s_groups t) (map (fun p => if is (p_g p) (g_id g) && p_addr p then set_conn p else p) (s_peers t)))
            end
          else Ret t
      end = Ret s' -> conn_ok s').
    { intros t h Hct Ho Eh Ht Et. rewrite Eh in Et. destruct (g_local h); [|injection Et as <-; auto]. destruct (g_sp h) as [o|] eqn:Eo.
      - destruct (peer_at t o) as [q|] eqn:Eq; [|discriminate]. specialize (Ho o eq_refl q Eq). injection Et as <-. destruct (p_addr q); [|auto].
        destruct t as [gs ps]. apply (conn_map _ gs); [|exact Hct]. intros r Hr. destruct (N.eqb_spec (p_id r) o) as [Er|]; [|auto]. intros _ _. simpl.
        assert (r = q). { assert (A := peer_at_in (mkSt gs ps) r Ht Hr). rewrite Er in A. congruence. } subst r. exact Ho.
      - injection Et as <-. apply (conn_map _ (s_groups t)); [|destruct t; exact Hct]. intros r _. destruct (p_g r) as [x|] eqn:Ex; cbn [is andb]; [|rewrite Ex; auto].
        destruct ((x =? g_id g) && p_addr r); simpl; rewrite Ex; discriminate. }
    assert (Howner : forall i f, (forall q, p_id (f q) = p_id q /\ p_g (f q) = p_g q) -> forall o, g_sp g = Some o -> forall q, peer_at (upd_peer f i s) o = Some q -> p_g q <> None).
    { intros i f Hf o Eo q Eq. destruct (Hl (g_id g) l g o eq_refl Hg eq_refl Eo) as (p & Hp & E1 & E2).
      apply peer_at_some in Eq. destruct Eq as [Hq Eq]. unfold upd_peer in Hq. cbn [s_peers] in Hq. apply in_map_iff in Hq. destruct Hq as (r & <- & Hr).
      assert (Er : p_id r = o) by (destruct (p_id r =? i); [rewrite (proj1 (Hf r)) in Eq|]; auto).
      assert (r = p). { assert (A := peer_at_in s r Hw Hr). assert (B := peer_at_in s p Hw Hp). rewrite Er in A. rewrite E1 in B. congruence. } subst r.
      destruct (p_id p =? i); [rewrite (proj2 (Hf p))|]; rewrite E2; discriminate. }
    assert (Hid : upd_peer (fun p => p) 0 s = s).
    { destruct s as [gs ps]. unfold upd_peer. cbn [s_groups s_peers]. f_equal. rewrite <- (map_id ps) at 2. apply map_ext. intros q. destruct (p_id q =? 0); auto. }
    assert (Hsame : forall o, g_sp g = Some o -> forall q, peer_at s o = Some q -> p_g q <> None).
    { rewrite <- Hid. apply Howner. auto. }
    assert (Hca : forall i, conn_ok (upd_peer set_addr i s)) by (intros i; apply conn_upd; [auto|exact Hc]).
    assert (Hwa : forall i, wf (upd_peer set_addr i s)) by (intros i; destruct s; apply wf_addr; auto).
    destruct l as [| |[i|]|]; cbn [obind] in E.
    + apply (Htail (upd_group set_local (g_id g) s) (set_local g)); auto.
      * apply (group_at_in (upd_group set_local (g_id g) s) (set_local g) (wf_local s _ Hw)). unfold upd_group. cbn [s_groups].
        apply (in_map (fun h => if g_id h =? g_id g then set_local h else h)) in Hg. rewrite N.eqb_refl in Hg. exact Hg.
      * apply wf_local, Hw.
    + destruct (g_sp g) as [o|] eqn:Eo.
      * destruct (peer_at s o) as [q|] eqn:Eq; [|discriminate]. cbn [obind] in E.
        apply (Htail (upd_peer set_addr o s) g); auto; [rewrite Eo; apply Howner; auto|apply (group_at_in (upd_peer set_addr o s) g (Hwa _) Hg)].
      * cbn [obind] in E. apply (Htail s g); auto; [rewrite Eo; discriminate|apply group_at_in; auto].
    + apply (Htail (upd_peer set_addr i s) g); auto; [apply Howner; auto|apply (group_at_in (upd_peer set_addr i s) g (Hwa _) Hg)].
    + apply (Htail s g); auto. apply group_at_in; auto.
    + apply (Htail s g); auto. apply group_at_in; auto.
  - rewrite (stopped_ok s Hw) in E. injection E as <-. intros p Hp. contradiction.
Qed.
Lemma run_snoc es e s0 s' : run s0 (es ++ [e]) = Ret s' -> exists s, run s0 es = Ret s /\ step s e = Ret s'.
Proof.
  revert s0. induction es as [|x es IH]; intros s0; cbn [run app].
  - destruct (step s0 e) eqn:E; cbn [obind]; try discriminate. intros H. injection H as <-. eauto.
  - destruct (step s0 x) as [t| |]; cbn [obind]; try discriminate. apply IH.
Qed.
Lemma connected_in es s : owners_in es -> run init es = Ret s -> forall p, In p (s_peers s) -> p_conn p = true -> p_g p <> None.
Proof.
  revert s. induction es as [|e es IH] using rev_ind; intros s Ho E; [injection E as <-; intros p Hp; contradiction|].
  destruct (run_snoc es e init s E) as (t & Et & Es). apply (conn_step t e s (run_wf es t Et) Es).
  - intros id l g o -> Hg Eg Eo. apply (Ho es id l [] t g o); auto.
  - intros q. apply (IH t); [|exact Et]. intros es1 id l es2 u g o Ee. apply (Ho es1 id l (es2 ++ [e])). rewrite Ee, <- app_assoc. auto.
Qed.
