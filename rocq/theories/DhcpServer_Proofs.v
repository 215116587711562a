From Coq Require Import Permutation Sorting.Sorted.
From Verif Require Import Base DhcpOpt_Model DhcpOpt_Spec DhcpOpt_Proofs DhcpServer_Model DhcpServer_Spec.
Arguments N.land : simpl never.

Lemma eq_bytes_ok a b : eq_bytes a b = true <-> a = b.
Proof.
  revert b; induction a as [|x a IH]; intros [|y b]; cbn; split; try easy.
  - rewrite andb_true_iff, N.eqb_eq, IH. intros [-> ->]; reflexivity.
  - intros [= -> ->]. rewrite andb_true_iff, N.eqb_eq, IH. split; reflexivity.
Qed.
Lemma eq_bytes_no a b : eq_bytes a b = false <-> a <> b.
Proof.
  pose proof (eq_bytes_ok a b) as H. destruct (eq_bytes a b).
  - split; [easy|]. intros K. destruct K. now apply H.
  - split; [|easy]. intros _ K. apply H in K. discriminate.
Qed.

(** ** List and index primitives *)
Lemma in_remove_first l id j : NoDup l -> (In j (list_remove l id) <-> In j l /\ j <> id).
Proof.
  induction l as [|x l IH]; intros Hn; cbn; [tauto|].
  inversion Hn as [|? ? Hx Hn']; subst. destruct (N.eqb_spec x id) as [->|E].
  - split.
    + intros H. split; [now right|]. intros ->. contradiction.
    + intros [[H|H] K]; [congruence|assumption].
  - cbn. rewrite (IH Hn'). split.
    + intros [->|[H K]]; [split; [now left|congruence]|]. split; [now right|assumption].
    + intros [[H|H] K]; [now left|right; split; assumption].
Qed.
Lemma nodup_remove_first l id : NoDup l -> NoDup (list_remove l id).
Proof.
  induction l as [|x l IH]; intros Hn; cbn; [constructor|].
  inversion Hn as [|? ? Hx Hn']; subst. destruct (x =? id); [assumption|].
  constructor; [|now apply IH]. rewrite in_remove_first by assumption. intros [H _]. contradiction.
Qed.

Lemma lookup_remove i k j : hash_lookup (hash_remove i k) j = if j =? k then None else hash_lookup i j.
Proof.
  unfold hash_lookup, hash_remove. induction i as [|[a v] i IH]; cbn; [now destruct (j =? k)|].
  destruct (N.eqb_spec a k) as [E|E]; cbn.
  - rewrite IH. destruct (N.eqb_spec j k) as [F|F]; [reflexivity|].
    destruct (N.eqb_spec a j); [congruence|reflexivity].
  - destruct (N.eqb_spec a j) as [F|F].
    + destruct (N.eqb_spec j k); [congruence|reflexivity].
    + exact IH.
Qed.
Lemma lookup_insert i k v j : hash_lookup (hash_insert i k v) j = if j =? k then Some v else hash_lookup i j.
Proof.
  unfold hash_insert. unfold hash_lookup at 1. cbn. destruct (N.eqb_spec k j) as [E|E]; cbn.
  - destruct (N.eqb_spec j k); [reflexivity|congruence].
  - fold (hash_lookup (hash_remove i k) j). rewrite lookup_remove. destruct (N.eqb_spec j k); [congruence|reflexivity].
Qed.

(** ** Invariant *)
Definition good (s : server) (x : lease) : Prop :=
  start_ip s <= nip x <= end_ip s /\ nip x <> 0 /\ mac x <> bcast /\ mac x <> any.
Record inv (s : server) : Prop := {
  i_nodup : NoDup (leases s);
  i_list : forall id, In id (leases s) -> exists x, heap s id = Some x /\ good s x
    /\ hash_lookup (index s) (nip x) = Some id;
  i_index : forall k id, hash_lookup (index s) k = Some id ->
    In id (leases s) /\ exists x, heap s id = Some x /\ nip x = k;
  i_mac : forall id1 id2 x y, In id1 (leases s) -> In id2 (leases s) ->
    heap s id1 = Some x -> heap s id2 = Some y -> mac x = mac y -> id1 = id2;
  i_next : forall id, In id (leases s) -> id < next_id s }.

Lemma inv_table s : inv s -> table_ok s.
Proof.
  intros [Hn Hl Hi Hm _]. split; auto.
  - intros id H. destruct (Hl id H) as (x & E & _). now exists x.
  - intros id1 id2 x y H1 H2 E1 E2 E.
    destruct (Hl _ H1) as (x' & F1 & _ & L1). destruct (Hl _ H2) as (y' & F2 & _ & L2). congruence.
  - intros x (id & H & E). destruct (Hl _ H) as (x' & F & (A & B & _) & _).
    assert (x' = x) by congruence. subst. auto.
  - intros x (id & H & E). destruct (Hl _ H) as (x' & F & (_ & _ & A & B) & _).
    assert (x' = x) by congruence. subst. split; assumption.
  - intros a x. split.
    + intros (id & L & E). destruct (Hi _ _ L) as (H & y & F & K).
      assert (y = x) by congruence. subst. split; [now exists id|reflexivity].
    + intros ((id & H & E) & <-). destruct (Hl _ H) as (y & F & _ & L).
      assert (y = x) by congruence. subst. exists id. split; assumption.
  - intros a id L. exact (proj1 (Hi _ _ L)).
Qed.

Definition same_config (s s' : server) : Prop :=
  start_ip s' = start_ip s /\ end_ip s' = end_ip s /\ server_nip s' = server_nip s
  /\ secs s' = secs s /\ opts s' = opts s.
Lemma config_refl s : same_config s s. Proof. repeat split. Qed.
Lemma config_trans s s' s'' : same_config s s' -> same_config s' s'' -> same_config s s''.
Proof. unfold same_config. intros (?&?&?&?&?) (?&?&?&?&?). repeat split; congruence. Qed.

(** Taking a lease out of list and index. *)
Definition drop (s : server) (id k : N) : server :=
  set_index (set_leases s (list_remove (leases s) id)) (hash_remove (index s) k).
Lemma drop_inv s id x : inv s -> In id (leases s) -> heap s id = Some x ->
  inv (drop s id (nip x))
  /\ forall j, In j (leases (drop s id (nip x))) <-> In j (leases s) /\ j <> id.
Proof.
  intros I Hid E. pose proof (i_nodup s I) as Hn.
  assert (Hin : forall j, In j (leases (drop s id (nip x))) <-> In j (leases s) /\ j <> id).
  { intros j. cbn. apply in_remove_first, Hn. }
  split; [|exact Hin]. split.
  - cbn. now apply nodup_remove_first.
  - intros j Hj. apply Hin in Hj as [Hj Hne]. destruct (i_list s I j Hj) as (y & F & G & L).
    exists y. split; [exact F|]. split; [exact G|]. cbn. rewrite lookup_remove.
    destruct (N.eqb_spec (nip y) (nip x)) as [K|K]; [|exact L].
    destruct (i_list s I id Hid) as (z & Fz & _ & Lz). assert (z = x) by congruence. subst z.
    rewrite K in L. congruence.
  - intros k j. cbn [drop set_index set_leases index leases heap]. rewrite lookup_remove.
    destruct (N.eqb_spec k (nip x)) as [->|K]; [discriminate|]. intros L.
    destruct (i_index s I k j L) as (Hj & y & F & <-). split; [|now exists y].
    apply (in_remove_first _ _ _ Hn). split; [exact Hj|]. intros ->. congruence.
  - intros j1 j2 y z H1 H2. apply Hin in H1 as [H1 _]. apply Hin in H2 as [H2 _].
    apply (i_mac s I j1 j2 y z H1 H2).
  - intros j Hj. apply Hin in Hj as [Hj _]. apply (i_next s I j Hj).
Qed.

Lemma heap_inv s id v : inv s -> ~ In id (leases s) -> inv (set_heap s (upd (heap s) id v)).
Proof.
  intros I Hid. split; cbn.
  - apply I.
  - intros j Hj. unfold upd. destruct (N.eqb_spec j id) as [->|_]; [contradiction|]. apply (i_list s I j Hj).
  - intros k j L. destruct (i_index s I k j L) as (Hj & y & F & K). split; [exact Hj|].
    exists y. unfold upd. destruct (N.eqb_spec j id) as [->|_]; [contradiction|]. split; assumption.
  - intros j1 j2 y z H1 H2. unfold upd.
    destruct (N.eqb_spec j1 id) as [->|_]; [contradiction|].
    destruct (N.eqb_spec j2 id) as [->|_]; [contradiction|]. apply (i_mac s I j1 j2 y z H1 H2).
  - apply (i_next s I).
Qed.

Lemma remove_lease_eq s id x : heap s id = Some x ->
  remove_lease s id = Ret (set_heap (drop s id (nip x)) (upd (heap (drop s id (nip x))) id None)).
Proof. intros E. unfold remove_lease, deref. rewrite E. reflexivity. Qed.

(** ** find_lease_by_mac *)
Lemma find_mac_ok s l m :
  (forall id, In id l -> exists x, heap s id = Some x) ->
  exists r, find_mac s l m = Ret r /\
  match r with
  | Some id => In id l /\ exists x, heap s id = Some x /\ mac x = m
  | None => forall id x, In id l -> heap s id = Some x -> mac x <> m
  end.
Proof.
  induction l as [|j l IH]; intros H; cbn.
  - exists None. split; [reflexivity|]. intros ? ? [].
  - destruct (H j (or_introl eq_refl)) as (x & E). unfold deref. rewrite E; cbn.
    destruct (eq_bytes (mac x) m) eqn:F.
    + apply eq_bytes_ok in F. exists (Some j). split; [reflexivity|]. split; [now left|]. now exists x.
    + apply eq_bytes_no in F. destruct IH as (r & -> & K); [intros id Hid; apply H; now right|].
      exists r. split; [reflexivity|]. destruct r as [id|].
      * destruct K as (K & y). split; [now right|exact y].
      * intros id y [->|Hid] Hy; [congruence|eauto].
Qed.
Lemma find_by_mac s m : inv s ->
  exists r, find_lease_by_mac s m = Ret r /\
  match r with
  | Some id => In id (leases s) /\ exists x, heap s id = Some x /\ mac x = m
  | None => forall x, has s x -> mac x <> m
  end.
Proof.
  intros I. destruct (find_mac_ok s (leases s) m) as (r & E & K).
  { intros id H. destruct (i_list s I id H) as (x & F & _). now exists x. }
  exists r. split; [exact E|]. destruct r; [exact K|]. intros x (id & H & F). eauto.
Qed.

(** ** get_lease *)
Definition takes (s s' : server) (id : N) (m : list byte) (y : N) : Prop :=
  inv s' /\ same_config s s' /\ ~ In id (leases s') /\ id < next_id s'
  /\ (exists x, heap s' id = Some x)
  /\ (forall j, In j (leases s') <->
        In j (leases s) /\ exists x, heap s j = Some x /\ mac x <> m /\ nip x <> y)
  /\ (forall j, In j (leases s') -> heap s' j = heap s j).

Definition usable (s : server) (m : list byte) (y : N) : bool :=
  negb ((y =? 0) || (y <? start_ip s) || (end_ip s <? y) || eq_bytes m bcast || eq_bytes m any).

Lemma get_lease_ok mem s y m : inv s ->
  exists s' r, get_lease mem s y m = Ret (s', r) /\
  match r with
  | None => s' = s /\ (usable s m y = false \/ mem = false /\ forall x, has s x -> mac x <> m /\ nip x <> y)
  | Some id => usable s m y = true /\ takes s s' id m y
  end.
Proof.
  intros I. unfold get_lease, usable.
  destruct (y =? 0) eqn:E1; [exists s, None; split; [reflexivity|split; [reflexivity|now left]]|].
  destruct (y <? start_ip s) eqn:E2; [exists s, None; split; [reflexivity|split; [reflexivity|now left]]|].
  destruct (end_ip s <? y) eqn:E3; [exists s, None; split; [reflexivity|split; [reflexivity|now left]]|].
  destruct (eq_bytes m bcast) eqn:E4; [exists s, None; split; [reflexivity|split; [reflexivity|now left]]|].
  destruct (eq_bytes m any) eqn:E5; [exists s, None; split; [reflexivity|split; [reflexivity|now left]]|].
  destruct (find_by_mac s m I) as (lm & -> & Hm). cbn [obind].
  pose proof (inv_table s I) as T.
  destruct (hash_lookup (index s) y) as [ln|] eqn:L.
  - destruct (i_index s I y ln L) as (Hln & x & Ex & Hx). rewrite <- Hx.
    destruct (drop_inv s ln x I Hln Ex) as (I' & Hin).
    change (set_index (set_leases s (list_remove (leases s) ln)) _) with (drop s ln (nip x)).
    destruct lm as [lm|].
    + destruct Hm as (Hlm & z & Ez & Hz).
      destruct (N.eqb_spec ln lm) as [->|Ne]; cbn [negb].
      * (* the client asks for the address it has *)
        assert (z = x) by congruence. subst z.
        eexists _, _. split; [reflexivity|]. split; [reflexivity|]. split; [exact I'|].
        split; [repeat split|]. split; [rewrite Hin; tauto|]. split; [apply (i_next s I lm Hlm)|].
        split; [now exists x|]. split; [|reflexivity].
        intros j. rewrite Hin. split.
        -- intros [Hj Ne]. split; [exact Hj|]. destruct (i_list s I j Hj) as (w & Ew & _).
           exists w. split; [exact Ew|]. split.
           ++ intros K. apply Ne. eapply (t_mac s T j lm w x); eauto. congruence.
           ++ intros K. apply Ne. eapply (t_nip s T j lm w x); eauto. 
        -- intros (Hj & w & Ew & K1 & K2). split; [exact Hj|]. intros ->. congruence.
      * (* the address is taken over; the other lease of the client is freed *)
        assert (Hlm' : In lm (leases (drop s ln (nip x)))) by (rewrite Hin; split; congruence).
        rewrite (remove_lease_eq (drop s ln (nip x)) lm z) by exact Ez. cbn [obind].
        destruct (drop_inv (drop s ln (nip x)) lm z I' Hlm' Ez) as (I'' & Hin').
        remember (drop (drop s ln (nip x)) lm (nip z)) as s2 eqn:Es2.
        eexists _, _. split; [reflexivity|]. split; [reflexivity|].
        assert (Hh : heap s2 = heap s) by (subst s2; reflexivity).
        assert (Hl2 : forall j, In j (leases s2) <-> In j (leases s) /\ j <> ln /\ j <> lm).
        { intros j. rewrite Hin', Hin. tauto. }
        assert (I3 : inv (set_heap s2 (upd (heap s2) lm None))).
        { apply heap_inv; [exact I''|]. rewrite Hl2. tauto. }
        split; [exact I3|]. split; [subst s2; repeat split|].
        split; [cbn; rewrite Hl2; tauto|].
        split; [subst s2; apply (i_next s I ln Hln)|].
        split; [exists x; cbn; unfold upd; rewrite Hh; destruct (N.eqb_spec ln lm); congruence|].
        split.
        -- intros j. cbn. rewrite Hl2. split.
           ++ intros (Hj & N1 & N2). split; [exact Hj|]. destruct (i_list s I j Hj) as (w & Ew & _).
              exists w. split; [exact Ew|]. split.
              ** intros K. apply N2. eapply (t_mac s T j lm w z); eauto. congruence.
              ** intros K. apply N1. eapply (t_nip s T j ln w x); eauto.
           ++ intros (Hj & w & Ew & K1 & K2). split; [exact Hj|]. split; intros ->; congruence.
        -- intros j Hj. cbn in Hj. apply Hl2 in Hj as (Hj & N1 & N2). cbn. unfold upd. rewrite Hh.
           destruct (N.eqb_spec j lm); [contradiction|reflexivity].
    + eexists _, _. split; [reflexivity|]. split; [reflexivity|]. split; [exact I'|].
      split; [repeat split|]. split; [rewrite Hin; tauto|]. split; [apply (i_next s I ln Hln)|].
      split; [now exists x|]. split; [|reflexivity].
      intros j. rewrite Hin. split.
      * intros [Hj Ne]. split; [exact Hj|]. destruct (i_list s I j Hj) as (w & Ew & _).
        exists w. split; [exact Ew|]. split.
        -- apply Hm. now exists j.
        -- intros K. apply Ne. eapply (t_nip s T j ln w x); eauto.
      * intros (Hj & w & Ew & K1 & K2). split; [exact Hj|]. intros ->. congruence.
  - assert (Hy : forall j x, In j (leases s) -> heap s j = Some x -> nip x <> y).
    { intros j x Hj Ej K. destruct (i_list s I j Hj) as (w & Ew & _ & Lw). congruence. }
    destruct lm as [lm|].
    + destruct Hm as (Hlm & z & Ez & Hz).
      replace (deref (set_leases s (list_remove (leases s) lm)) lm) with (Ret z)
        by (unfold deref; cbn; now rewrite Ez).
      cbn [obind]. destruct (drop_inv s lm z I Hlm Ez) as (I' & Hin).
      change (set_index _ _) with (drop s lm (nip z)).
      eexists _, _. split; [reflexivity|]. split; [reflexivity|]. split; [exact I'|].
      split; [repeat split|]. split; [rewrite Hin; tauto|]. split; [apply (i_next s I lm Hlm)|].
      split; [now exists z|]. split; [|reflexivity].
      intros j. rewrite Hin. split.
      * intros [Hj Ne]. split; [exact Hj|]. destruct (i_list s I j Hj) as (w & Ew & _).
        exists w. split; [exact Ew|]. split; [|eauto].
        intros K. apply Ne. eapply (t_mac s T j lm w z); eauto. congruence.
      * intros (Hj & w & Ew & K1 & K2). split; [exact Hj|]. intros ->. congruence.
    + destruct mem.
      2: { exists s, None. split; [reflexivity|]. split; [reflexivity|]. right. split; [reflexivity|].
           intros x (j & Hj & Ej). split; [apply Hm; now exists j|eauto]. }
      assert (Hfresh : ~ In (next_id s) (leases s)).
      { intros K. apply (i_next s I) in K. lia. }
      eexists _, _. split; [reflexivity|]. split; [reflexivity|].
      pose proof (heap_inv s (next_id s) (Some (mkLease 0 0 any)) I Hfresh) as I'.
      split.
      { destruct I' as [A B C D F]. split; auto. intros id Hid. cbn in *. specialize (F id Hid). lia. }
      split; [repeat split|]. split; [exact Hfresh|]. split; [cbn; lia|].
      split; [exists (mkLease 0 0 any); cbn; unfold upd; now rewrite N.eqb_refl|]. split.
      * intros j. cbn. split; [|tauto]. intros Hj. split; [exact Hj|].
        destruct (i_list s I j Hj) as (w & Ew & _). exists w. split; [exact Ew|]. split; [|eauto].
        apply Hm. now exists j.
      * intros j Hj. cbn in *. unfold upd. destruct (N.eqb_spec j (next_id s)); [congruence|reflexivity].
Qed.

(** ** add_lease *)
Lemma insert_perm s l id x : (forall j, In j l -> exists y, heap s j = Some y) ->
  exists l', insert_sorted s l id x = Ret l' /\ Permutation l' (id :: l).
Proof.
  induction l as [|j l IH]; intros H; cbn.
  - exists [id]. split; reflexivity.
  - destruct (H j (or_introl eq_refl)) as (y & E). unfold deref; rewrite E; cbn.
    destruct (0 <? compare_expire x y)%Z.
    + destruct IH as (l' & -> & P); [intros k Hk; apply H; now right|]. cbn.
      exists (j :: l'). split; [reflexivity|]. rewrite P. apply perm_swap.
    + exists (id :: j :: l). split; reflexivity.
Qed.

Definition fresh_lease (now : N) (s : server) (exp y : N) (m : list byte) : lease :=
  mkLease (if exp =? 0 then now + secs s else exp) y m.

Lemma put_inv s id x l' : inv s -> ~ In id (leases s) -> id < next_id s -> good s x ->
  (forall j w, In j (leases s) -> heap s j = Some w -> mac w <> mac x /\ nip w <> nip x) ->
  Permutation l' (id :: leases s) ->
  let s' := set_index (set_leases (set_heap s (upd (heap s) id (Some x))) l') (hash_insert (index s) (nip x) id) in
  inv s' /\ (forall j, In j (leases s') <-> j = id \/ In j (leases s))
  /\ heap s' id = Some x /\ (forall j, j <> id -> heap s' j = heap s j).
Proof.
  intros I Hid Hlt G Hdis P s'.
  assert (Hin : forall j, In j l' <-> j = id \/ In j (leases s)).
  { intros j. split.
    - intros H. apply (Permutation_in _ P) in H as [->|H]; auto.
    - intros H. apply (Permutation_in _ (Permutation_sym P)). destruct H as [->|H]; [now left|now right]. }
  assert (Hh : heap s' id = Some x) by (cbn; unfold upd; now rewrite N.eqb_refl).
  assert (Ho : forall j, j <> id -> heap s' j = heap s j).
  { intros j Hj. cbn. unfold upd. destruct (N.eqb_spec j id); [contradiction|reflexivity]. }
  split; [|split; [exact Hin|split; [exact Hh|exact Ho]]].
  assert (Hold : forall j, In j (leases s) -> heap s' j = heap s j).
  { intros j Hj. apply Ho. intros ->. contradiction. }
  split.
  - cbn. apply (Permutation_NoDup (Permutation_sym P)). constructor; [exact Hid|apply I].
  - intros j Hj. cbn in Hj. apply Hin in Hj as [->|Hj].
    + exists x. split; [exact Hh|]. split; [exact G|]. cbn. now rewrite lookup_insert, N.eqb_refl.
    + rewrite (Hold j Hj). destruct (i_list s I j Hj) as (w & Ew & Gw & Lw). exists w.
      split; [exact Ew|]. split; [exact Gw|]. cbn. rewrite lookup_insert.
      destruct (N.eqb_spec (nip w) (nip x)) as [K|K]; [|exact Lw]. exfalso. eapply Hdis; eauto.
  - intros k j. cbn [index s' set_index]. rewrite lookup_insert. destruct (N.eqb_spec k (nip x)) as [->|K].
    + intros [= <-]. split; [apply Hin; now left|]. exists x. split; [exact Hh|reflexivity].
    + intros L. destruct (i_index s I k j L) as (Hj & w & Ew & Kw). split; [apply Hin; now right|].
      exists w. rewrite (Hold j Hj). split; assumption.
  - intros j1 j2 y z H1 H2 E1 E2 E. cbn in H1, H2. apply Hin in H1, H2.
    destruct H1 as [->|H1]; destruct H2 as [->|H2]; try reflexivity.
    + rewrite (Hold _ H2) in E2. assert (y = x) by congruence. subst y. exfalso.
      apply (proj1 (Hdis _ _ H2 E2)). congruence.
    + rewrite (Hold _ H1) in E1. assert (z = x) by congruence. subst z. exfalso.
      apply (proj1 (Hdis _ _ H1 E1)). congruence.
    + rewrite (Hold _ H1) in E1. rewrite (Hold _ H2) in E2. apply (i_mac s I j1 j2 y z); assumption.
  - intros j Hj. cbn in Hj. apply Hin in Hj as [->|Hj]; [exact Hlt|]. apply (i_next s I j Hj).
Qed.

Lemma usable_good s m y e : usable s m y = true -> good s (mkLease e y m).
Proof.
  unfold usable. rewrite negb_true_iff, !orb_false_iff, N.eqb_neq, !N.ltb_ge, !eq_bytes_no.
  intros ((((A & B) & C) & D) & E). repeat split; assumption.
Qed.

Lemma add_lease_ok mem now s exp m y : inv s ->
  exists s' r, add_lease mem now s exp m y = Ret (s', r) /\ inv s' /\ same_config s s' /\
  match r with
  | None => s' = s /\ (usable s m y = false \/ mem = false /\ forall x, has s x -> mac x <> m /\ nip x <> y)
  | Some id => usable s m y = true /\ In id (leases s') /\ heap s' id = Some (fresh_lease now s exp y m)
      /\ forall x, has s' x <-> x = fresh_lease now s exp y m \/ has s x /\ mac x <> m /\ nip x <> y
  end.
Proof.
  intros I. unfold add_lease. destruct (get_lease_ok mem s y m I) as (s1 & [id|] & -> & H); cbn [obind].
  - destruct H as (U & I1 & C1 & Hid & Hlt & (w0 & Ew0) & Hin & Hh).
    unfold deref at 1. rewrite Ew0. cbn [obind].
    assert (Hs : secs s1 = secs s) by apply C1. rewrite Hs. fold (fresh_lease now s exp y m).
    set (x := fresh_lease now s exp y m).
    edestruct (insert_perm (set_heap s1 (upd (heap s1) id (Some x))) (leases s1) id x) as (l' & E & P).
    { intros j Hj. cbn. unfold upd. destruct (N.eqb_spec j id) as [->|_]; [contradiction|].
      destruct (i_list s1 I1 j Hj) as (w & Ew & _). now exists w. }
    cbn [leases set_heap] in *. rewrite E. cbn [obind].
    assert (G : good s1 x).
    { pose proof (usable_good s m y (expire x) U) as G. unfold good in *. destruct C1 as (-> & -> & _). exact G. }
    assert (D : forall j w, In j (leases s1) -> heap s1 j = Some w -> mac w <> mac x /\ nip w <> nip x).
    { intros j w Hj Ew. rewrite (Hh j Hj) in Ew. apply Hin in Hj as (Hj & w' & Ew' & K).
      assert (w' = w) by congruence. subst. exact K. }
    destruct (put_inv s1 id x l' I1 Hid Hlt G D P) as (I2 & Hin2 & Hx2 & Ho2).
    change (nip x) with y in *.
    match goal with |- context [Ret (?a, Some id)] =>
      change a with (set_index (set_leases (set_heap s1 (upd (heap s1) id (Some x))) l') (hash_insert (index s1) y id)) end.
    set (s2 := set_index _ _) in *.
    exists s2, (Some id). split; [reflexivity|]. split; [exact I2|]. split; [exact C1|].
    split; [exact U|]. split; [apply Hin2; now left|]. split; [exact Hx2|].
    intros z. split.
    + intros (j & Hj & Ej). apply Hin2 in Hj as [->|Hj]; [left; congruence|]. right.
      assert (j <> id) by congruence. rewrite (Ho2 j), (Hh j) in Ej by assumption.
      apply Hin in Hj as (Hj & w & Ew & K). assert (w = z) by congruence. subst.
      split; [now exists j|exact K].
    + intros [->|((j & Hj & Ej) & K)].
      * exists id. split; [apply Hin2; now left|exact Hx2].
      * assert (Hj1 : In j (leases s1)) by (apply Hin; split; [exact Hj|]; exists z; split; assumption).
        exists j. split; [apply Hin2; now right|]. rewrite Ho2, (Hh j) by congruence. exact Ej.
  - destruct H as (-> & H). exists s, None. split; [reflexivity|]. split; [exact I|].
    split; [apply config_refl|]. split; [reflexivity|exact H].
Qed.

(** ** remove_lease and lease_set_expire *)
Lemma remove_lease_ok s id x : inv s -> In id (leases s) -> heap s id = Some x ->
  exists s', remove_lease s id = Ret s' /\ inv s' /\ same_config s s'
  /\ forall z, has s' z <-> has s z /\ mac z <> mac x.
Proof.
  intros I Hid E. rewrite (remove_lease_eq s id x E). destruct (drop_inv s id x I Hid E) as (I1 & Hin).
  eexists. split; [reflexivity|].
  assert (Hid' : ~ In id (leases (drop s id (nip x)))) by (rewrite Hin; tauto).
  split; [apply heap_inv; assumption|]. split; [repeat split|].
  intros z. unfold has. cbn [leases set_heap heap]. split.
  - intros (j & Hj & Ej). unfold upd in Ej. destruct (N.eqb_spec j id); [discriminate|].
    apply Hin in Hj as [Hj _]. split; [now exists j|]. intros K. apply n.
    exact (i_mac s I j id z x Hj Hid Ej E K).
  - intros ((j & Hj & Ej) & K). exists j. assert (Ne : j <> id) by congruence.
    split; [apply Hin; split; assumption|]. unfold upd. destruct (N.eqb_spec j id); [contradiction|exact Ej].
Qed.

Lemma set_expire_ok s id x exp : inv s -> In id (leases s) -> heap s id = Some x ->
  exists s', lease_set_expire s id exp = Ret s' /\ inv s' /\ same_config s s'
  /\ forall z, has s' z <-> z = mkLease exp (nip x) (mac x) \/ has s z /\ mac z <> mac x.
Proof.
  intros I Hid E. unfold lease_set_expire.
  replace (deref (set_leases s (list_remove (leases s) id)) id) with (Ret x)
    by (unfold deref; cbn; now rewrite E).
  cbn [obind]. set (x' := mkLease exp (nip x) (mac x)).
  destruct (drop_inv s id x I Hid E) as (I1 & Hin).
  assert (Hid' : ~ In id (leases (drop s id (nip x)))) by (rewrite Hin; tauto).
  edestruct (insert_perm (set_heap (set_leases s (list_remove (leases s) id)) (upd (heap s) id (Some x')))
     (list_remove (leases s) id) id x') as (l' & El & P).
  { intros j Hj. apply Hin in Hj as [Hj Ne]. cbn. unfold upd. destruct (N.eqb_spec j id); [contradiction|].
    destruct (i_list s I j Hj) as (w & Ew & _). now exists w. }
  cbn [leases set_heap set_leases heap] in *. rewrite El. cbn [obind].
  assert (G : good (drop s id (nip x)) x').
  { destruct (i_list s I id Hid) as (w & Ew & Gw & _). assert (w = x) by congruence. subst. exact Gw. }
  assert (D : forall j w, In j (leases (drop s id (nip x))) -> heap (drop s id (nip x)) j = Some w ->
                          mac w <> mac x' /\ nip w <> nip x').
  { intros j w Hj Ew. apply Hin in Hj as [Hj Ne]. pose proof (inv_table s I) as T. split; intros K; apply Ne.
    - exact (t_mac s T j id w x Hj Hid Ew E K).
    - exact (t_nip s T j id w x Hj Hid Ew E K). }
  destruct (put_inv (drop s id (nip x)) id x' l' I1 Hid' (i_next s I id Hid) G D P) as (I2 & Hin2 & Hx2 & Ho2).
  eexists. split; [reflexivity|].
  assert (Hidx : forall k, hash_lookup (hash_insert (index (drop s id (nip x))) (nip x') id) k = hash_lookup (index s) k).
  { intros k. rewrite lookup_insert. cbn [drop set_index index nip x']. rewrite lookup_remove.
    destruct (N.eqb_spec k (nip x)) as [->|K]; [|reflexivity].
    destruct (i_list s I id Hid) as (w & Ew & _ & L). assert (w = x) by congruence. subst. now rewrite L. }
  split.
  { destruct I2 as [A B C F H]. split; auto.
    - intros j Hj. destruct (B j Hj) as (w & Ew & Gw & Lw). exists w. split; [exact Ew|]. split; [exact Gw|].
      cbn in Lw |- *. now rewrite Hidx in Lw.
    - intros k j L. apply C. cbn in L |- *. now rewrite Hidx. }
  split; [repeat split|].
  intros z. split.
  - intros (j & Hj & Ej). apply Hin2 in Hj as [->|Hj]; [left; cbn in Hx2; cbn in Ej; congruence|]. right.
    assert (Ne : j <> id) by congruence. pose proof (Ho2 j Ne) as K. cbn in K, Ej. rewrite K in Ej.
    apply Hin in Hj as [Hj _]. split; [now exists j|]. intros F. apply Ne. exact (i_mac s I j id z x Hj Hid Ej E F).
  - intros [->|((j & Hj & Ej) & K)].
    + exists id. split; [apply Hin2; now left|exact Hx2].
    + assert (Ne : j <> id) by congruence. exists j.
      split; [apply Hin2; right; apply Hin; split; assumption|].
      pose proof (Ho2 j Ne) as F. cbn in F |- *. rewrite F. exact Ej.
Qed.

(** ** Picking an address *)
Lemma lookup_none s y : inv s -> hash_lookup (index s) y = None <-> (forall x, has s x -> nip x <> y).
Proof.
  intros I. split.
  - intros L x (j & Hj & Ej) K. destruct (i_list s I j Hj) as (w & Ew & _ & Lw). congruence.
  - intros H. destruct (hash_lookup (index s) y) as [id|] eqn:L; [|reflexivity].
    destruct (i_index s I y id L) as (Hid & x & Ex & K). exfalso. apply (H x); [now exists id|exact K].
Qed.
Lemma land255 x : N.land x 255 = x mod 256.
Proof. change 255 with (N.ones 8). now rewrite N.land_ones. Qed.

Lemma find_free_ok fuel s ip : ip < 2 ^ 32 ->
  find_free fuel s ip = Endless \/ exists r, find_free fuel s ip = Ret r /\
  match r with
  | Some y => y <= end_ip s /\ y mod 256 <> 0 /\ y mod 256 <> 255 /\ hash_lookup (index s) y = None
  | None => forall z, ip <= z <= end_ip s -> z mod 256 <> 0 -> z mod 256 <> 255 ->
            hash_lookup (index s) z <> None
  end.
Proof.
  revert ip; induction fuel as [|fuel IH]; intros ip Hp; cbn [find_free]; [now left|].
  assert (Step : (end_ip s <? ip) = false ->
    (ip mod 256 <> 0 -> ip mod 256 <> 255 -> hash_lookup (index s) ip <> None) ->
    find_free fuel s (wrap32 (ip + 1)) = Endless \/
    exists r, find_free fuel s (wrap32 (ip + 1)) = Ret r /\
    match r with
    | Some y => y <= end_ip s /\ y mod 256 <> 0 /\ y mod 256 <> 255 /\ hash_lookup (index s) y = None
    | None => forall z, ip <= z <= end_ip s -> z mod 256 <> 0 -> z mod 256 <> 255 ->
            hash_lookup (index s) z <> None
    end).
  { intros Hle Hip. destruct (IH (wrap32 (ip + 1))) as [E|(r & E & K)]; [|now left|right].
    { unfold wrap32, two32. now apply N.mod_lt. }
    exists r. split; [exact E|]. destruct r as [y|]; [exact K|]. intros z Hz Z0 Z255.
    destruct (N.eq_dec z ip) as [->|Ne]; [now apply Hip|]. apply K; auto.
    unfold wrap32, two32. assert (ip + 1 < 2 ^ 32 \/ ip + 1 = 2 ^ 32) as [F|F] by lia.
    - rewrite N.mod_small; [lia|exact F].
    - rewrite F, N.mod_same by discriminate. lia. }
  destruct (end_ip s <? ip) eqn:E0.
  { right. exists None. split; [reflexivity|]. intros z Hz. lia. }
  rewrite land255. destruct (N.eqb_spec (ip mod 256) 0) as [E1|E1]; [apply Step; auto; contradiction|].
  destruct (N.eqb_spec (ip mod 256) 255) as [E2|E2]; [apply Step; auto; contradiction|].
  destruct (hash_lookup (index s) ip) as [id|] eqn:L; [apply Step; auto; intros; discriminate|].
  right. exists (Some ip). split; [reflexivity|]. split; [lia|]. auto.
Qed.
Lemma find_free_terminates fuel s ip : end_ip s < 2 ^ 32 - 1 -> (N.to_nat (end_ip s + 1 - ip) < fuel)%nat ->
  find_free fuel s ip <> Endless.
Proof.
  intros He. revert ip; induction fuel as [|fuel IH]; intros ip Hf; [lia|]. cbn [find_free].
  assert (Step : (end_ip s <? ip) = false -> find_free fuel s (wrap32 (ip + 1)) <> Endless).
  { intros E. apply IH. unfold wrap32, two32. change (2 ^ 32) with 4294967296 in *. rewrite N.mod_small; lia. }
  destruct (end_ip s <? ip) eqn:E0; [discriminate|].
  destruct (N.land ip 255 =? 0); [now apply Step|].
  destruct (N.land ip 255 =? 255); [now apply Step|].
  destruct (hash_lookup (index s) ip); [now apply Step|discriminate].
Qed.

Lemma last_in l : match last_id l with Some id => In id l | None => l = [] end.
Proof.
  induction l as [|x l IH]; [reflexivity|]. destruct l as [|y l]; [now left|].
  change (last_id (x :: y :: l)) with (last_id (y :: l)). destruct (last_id (y :: l)); [now right|discriminate].
Qed.

Lemma find_nip_ok fuel now s i : inv s -> start_ip s < 2 ^ 32 -> ~ holds (has s) (chaddr i) ->
  find_free fuel s (start_ip s) = Endless /\ find_nip fuel now s = Endless \/ exists y, find_nip fuel now s = Ret y /\
  (y <> 0 -> chosen s now (has s) i y).
Proof.
  intros I Hs Hno. unfold find_nip. destruct (find_free_ok fuel s (start_ip s) Hs) as [->|(r & -> & K)]; [left; split; reflexivity|].
  right. cbn [obind]. destruct r as [y|].
  - exists y. split; [reflexivity|]. intros _. destruct K as (K1 & K2 & K3 & K4).
    apply ChooseFree; auto. now apply lookup_none.
  - pose proof (last_in (leases s)) as H. destruct (last_id (leases s)) as [id|].
    + destruct (i_list s I id H) as (x & Ex & _). unfold deref. rewrite Ex. cbn [obind].
      unfold is_expired. destruct (N.ltb_spec (expire x) now) as [E|E].
      * exists (nip x). split; [reflexivity|]. intros _. apply ChooseExpired with x; auto.
        { now exists id. }
        intros z Hz Z0 Z255. specialize (K z Hz Z0 Z255).
        destruct (hash_lookup (index s) z) as [j|] eqn:L; [|contradiction].
        destruct (i_index s I z j L) as (Hj & w & Ew & Kw). exists w. split; [now exists j|exact Kw].
      * exists 0. split; [reflexivity|]. lia.
    + exists 0. split; [reflexivity|]. lia.
Qed.

(** ** One packet *)
Lemma usable_iff s m y : usable s m y = true <-> in_range s y /\ real_client m.
Proof.
  unfold usable, in_range, real_client. rewrite negb_true_iff, !orb_false_iff, N.eqb_neq, !N.ltb_ge, !eq_bytes_no.
  tauto.
Qed.

Definition step_ok (s : server) (now : N) (i : input) (s' : server) (out : list msg) : Prop :=
  inv s' /\ same_config s s' /\
  exists T, (forall x, has s' x <-> T x) /\ effect s now (has s) i T out.

Lemma step_nothing s now i out : inv s -> out = [] \/ out = [Nak] \/ out = [InformAck] -> step_ok s now i s out.
Proof.
  intros I H. split; [exact I|]. split; [apply config_refl|]. exists (has s). split; [reflexivity|].
  now apply EfNothing.
Qed.

Lemma send_offer_ok fuel mem now s i l req : inv s -> start_ip s < 2 ^ 32 -> type i = 1 ->
  req = match req_ip i with Some v => v | None => 0 end ->
  match l with
  | Some id => In id (leases s) /\ exists x, heap s id = Some x /\ mac x = chaddr i
  | None => forall x, has s x -> mac x <> chaddr i
  end ->
  find_free fuel s (start_ip s) = Endless /\ send_offer fuel mem now s i l req = Endless \/
  exists s' out, send_offer fuel mem now s i l req = Ret (s', out) /\ step_ok s now i s' out.
Proof.
  intros I Hs Ht Hreq Hl. unfold send_offer.
  set (get := match l with Some _ => _ | None => _ end).
  assert (Hy : find_free fuel s (start_ip s) = Endless /\ get = Endless \/ exists y, get = Ret y /\ (y <> 0 -> chosen s now (has s) i y)).
  { unfold get. destruct l as [id|].
    - destruct Hl as (Hid & x & Ex & Hm). right. exists (nip x). unfold deref. rewrite Ex. cbn.
      split; [reflexivity|]. intros _. apply ChooseOwn with x; auto. now exists id.
    - assert (Hno : ~ holds (has s) (chaddr i)) by (intros (x & Hx & K); now apply (Hl x)).
      assert (Hc : exists b, check_requested_nip now s req = Ret b /\ (b = true -> req <> 0 -> chosen s now (has s) i req)).
      { unfold check_requested_nip. destruct (N.eqb_spec req 0); [exists false; split; [reflexivity|discriminate]|].
        destruct (req <? start_ip s); [exists false; split; [reflexivity|discriminate]|].
        destruct (end_ip s <? req); [exists false; split; [reflexivity|discriminate]|].
        assert (Hr : req_ip i = Some req) by (destruct (req_ip i); congruence).
        destruct (hash_lookup (index s) req) as [id|] eqn:L.
        - destruct (i_index s I req id L) as (Hid & x & Ex & Kx). unfold deref. rewrite Ex. cbn [obind].
          exists (is_expired now x). split; [reflexivity|]. unfold is_expired. rewrite N.ltb_lt. intros He _.
          apply ChooseNamed; auto. intros z (j & Hj & Ej) Kz.
          assert (j = id) by (eapply (t_nip s (inv_table s I)); eauto; congruence). subst j. congruence.
        - exists true. split; [reflexivity|]. intros _ _. apply ChooseNamed; auto.
          intros z Hz Kz. apply (proj1 (lookup_none s req I) L) in Hz. contradiction. }
      destruct Hc as (b & -> & Hb). cbn [obind]. destruct b.
      + right. exists req. split; [reflexivity|]. now apply Hb.
      + now apply find_nip_ok. }
  destruct Hy as [(Hf & ->)|(y & -> & Hy)]; [left; split; [exact Hf|reflexivity]|right]. cbn [obind].
  destruct (N.eqb_spec y 0) as [E|E].
  { exists s, []. split; [reflexivity|]. apply step_nothing; auto. }
  destruct (add_lease_ok mem now s OFFER_TIME (chaddr i) y I) as (s' & r & -> & I' & C & K). cbn [obind].
  destruct r as [id|].
  - exists s', [Offer y]. split; [reflexivity|]. split; [exact I'|]. split; [exact C|].
    destruct K as (U & _ & _ & K). apply usable_iff in U as [R M].
    exists (put (has s) (mkLease 300 y (chaddr i))). split; [exact K|]. apply EfOffer; auto.
  - destruct K as (-> & _). exists s, []. split; [reflexivity|]. apply step_nothing; auto.
Qed.

Lemma handle_ok fuel mem now s i : inv s -> start_ip s < 2 ^ 32 ->
  find_free fuel s (start_ip s) = Endless /\ handle fuel mem now s i = Endless \/
  exists s' out, handle fuel mem now s i = Ret (s', out) /\ step_ok s now i s' out.
Proof.
  intros I Hs. unfold handle. destruct (find_by_mac s (chaddr i) I) as (l & -> & Hl). cbn [obind].
  set (req := match req_ip i with Some v => v | None => 0 end).
  assert (Nothing : forall out, out = [] \/ out = [Nak] \/ out = [InformAck] ->
    exists s' o, Ret (s, out) = Ret (s', o) /\ step_ok s now i s' o).
  { intros out H. exists s, out. split; [reflexivity|]. now apply step_nothing. }
  destruct (N.eqb_spec (type i) 1) as [T1|T1]; [now apply send_offer_ok|].
  destruct (N.eqb_spec (type i) 3) as [T3|T3].
  { right. assert (Hreq : (if req =? 0 then ciaddr i else req) = requested i).
    { unfold requested, req. destruct (req_ip i); [reflexivity|]. now rewrite N.eqb_refl. }
    rewrite Hreq. destruct (N.eqb_spec (requested i) 0) as [E|E]; [apply Nothing; auto|].
    destruct l as [id|].
    - cbn [obind]. destruct Hl as (Hid & x & Ex & Hm). unfold deref. rewrite Ex. cbn [obind].
      destruct (N.eqb_spec (requested i) (nip x)) as [F|F].
      + unfold send_ack. destruct (add_lease_ok mem now s 0 (chaddr i) (nip x) I) as (s' & r & -> & I' & C & K).
        cbn [obind]. destruct r as [id'|].
        * destruct K as (U & _ & _ & K). eexists _, _. split; [reflexivity|]. split; [exact I'|]. split; [exact C|].
          apply usable_iff in U as [R M].
          eexists. split; [exact K|]. rewrite <- F. apply EfAck; auto; [now rewrite F|].
          intros z (j & Hj & Ej) Hz. rewrite F.
          assert (j = id) by (eapply (i_mac s I); eauto; congruence). congruence.
        * exfalso. destruct K as (-> & K).
          destruct (i_list s I id Hid) as (w & Ew & (G1 & G2 & G3 & G4) & _). assert (w = x) by congruence. subst w.
          assert (U : usable s (chaddr i) (nip x) = true).
          { apply usable_iff. unfold in_range, real_client. rewrite <- Hm. auto. }
          destruct K as [K|(_ & K)]; [congruence|]. destruct (K x) as [K1 _]; [now exists id|contradiction].
      + destruct (server_id i); apply Nothing; auto.
    - destruct (add_lease_ok mem now s OFFER_TIME (chaddr i) (requested i) I) as (s1 & r & -> & I1 & C1 & K1).
      cbn [obind]. destruct r as [id|].
      + destruct K1 as (U & Hid & Eid & K1). unfold deref. rewrite Eid. cbn [obind nip fresh_lease].
        rewrite N.eqb_refl. unfold send_ack.
        destruct (add_lease_ok mem now s1 0 (chaddr i) (requested i) I1) as (s2 & r & -> & I2 & C2 & K2).
        cbn [obind]. destruct r as [id2|].
        * destruct K2 as (_ & _ & _ & K2). eexists _, _. split; [reflexivity|]. split; [exact I2|].
          split; [eapply config_trans; eassumption|].
          exists (put (has s) (mkLease (now + secs s) (requested i) (chaddr i))). split.
          -- intros z. rewrite K2, K1. unfold fresh_lease. replace (secs s1) with (secs s) by (symmetry; apply C1).
             cbn [N.eqb]. unfold put. cbn [mac nip]. split.
             ++ intros [->|([->|H] & H1 & H2)]; [now left| |now right]. exfalso. now apply H1.
             ++ intros [->|H]; [now left|right]. split; [now right|apply H].
          -- apply usable_iff in U as [R M]. apply EfAck; auto.
             intros z Hz F. exfalso. now apply (Hl z).
        * exfalso. destruct K2 as (-> & K2).
          assert (U1 : usable s1 (chaddr i) (requested i) = true).
          { apply usable_iff. apply usable_iff in U. unfold in_range in *. destruct C1 as (-> & -> & _). exact U. }
          destruct K2 as [K2|(_ & K2)]; [congruence|].
          destruct (K2 _ (ex_intro _ id (conj Hid Eid))) as [K _]. now apply K.
      + destruct K1 as (-> & _). apply Nothing; auto. }
  right. destruct (N.eqb_spec (type i) 4) as [T4|T4].
  { destruct (server_id i) as [sid|]; [|apply Nothing; auto].
    destruct (req_ip i) as [v|] eqn:Er; [|apply Nothing; auto].
    destruct l as [id|]; [|apply Nothing; auto].
    destruct Hl as (Hid & x & Ex & Hm). unfold deref. rewrite Ex. cbn [obind]. unfold req.
    destruct (N.eqb_spec v (nip x)) as [F|F]; [|apply Nothing; auto].
    destruct (remove_lease_ok s id x I Hid Ex) as (s' & -> & I' & C & K). cbn [obind].
    eexists _, _. split; [reflexivity|]. split; [exact I'|]. split; [exact C|].
    exists (fun z => has s z /\ mac z <> chaddr i).
    split; [|apply (EfDecline s now (has s) i x); auto; [now exists id|congruence]].
    intros z. rewrite K, Hm. reflexivity. }
  destruct (N.eqb_spec (type i) 7) as [T7|T7].
  { destruct (server_id i) as [sid|]; [|apply Nothing; auto].
    destruct l as [id|]; [|apply Nothing; auto].
    destruct Hl as (Hid & x & Ex & Hm). unfold deref. rewrite Ex. cbn [obind].
    destruct (N.eqb_spec (ciaddr i) (nip x)) as [F|F]; [|apply Nothing; auto].
    destruct (set_expire_ok s id x (wrap32 now) I Hid Ex) as (s' & -> & I' & C & K). cbn [obind].
    eexists _, _. split; [reflexivity|]. split; [exact I'|]. split; [exact C|].
    exists (fun z => z = mkLease (now mod 2 ^ 32) (nip x) (chaddr i) \/ has s z /\ mac z <> chaddr i).
    split; [|apply (EfRelease s now (has s) i x); auto; now exists id].
    intros z. rewrite K, Hm. reflexivity. }
  destruct (type i =? 8); apply Nothing; auto.
Qed.

(** ** Histories *)
Lemma new_inv a b me secs opts : inv (server_new a b me secs opts).
Proof. split; cbn; try easy; try (intros; contradiction). constructor. Qed.

Lemma event_ok fuel mem now s got s' i out : inv s -> start_ip s < 2 ^ 32 ->
  listener_event fuel mem now s got = Ret (s', i, out) ->
  match i with
  | Some i => step_ok s now i s' out
  | None => s' = s /\ out = []
  end.
Proof.
  intros I Hs. unfold listener_event. destruct (decode fuel s got) as [[j|]| |]; cbn [obind]; try discriminate.
  - destruct (handle_ok fuel mem now s j I Hs) as [(_ & ->)|(s1 & o & -> & K)]; cbn [obind]; [discriminate|].
    intros [= <- <- <-]. exact K.
  - intros [= <- <- <-]. split; reflexivity.
Qed.

Lemma history_inv fuel s l s' o : inv s -> start_ip s < 2 ^ 32 ->
  history fuel s l = Ret (s', o) -> inv s' /\ same_config s s'.
Proof.
  revert s s' o. induction l as [|e l IH]; intros s s' o I Hs; cbn [history].
  - intros [= <- _]. split; [exact I|apply config_refl].
  - destruct (listener_event fuel (e_mem e) (e_now e) s (e_bytes e)) as [[[s1 i] out]| |] eqn:E; cbn [obind]; try discriminate.
    pose proof (event_ok _ _ _ _ _ _ _ _ I Hs E) as K.
    assert (I1 : inv s1 /\ same_config s s1).
    { destruct i as [i|]; [split; apply K|]. destruct K as (-> & _). split; [exact I|apply config_refl]. }
    destruct I1 as [I1 C1].
    destruct (history fuel s1 l) as [[s2 o2]| |] eqn:H; cbn [obind]; try discriminate.
    intros [= <- <-]. assert (Hs1 : start_ip s1 < 2 ^ 32) by (destruct C1 as (-> & _); exact Hs).
    destruct (IH _ _ _ I1 Hs1 H) as [I2 C2]. split; [exact I2|]. eapply config_trans; eassumption.
Qed.
Lemma reachable_inv s : reachable s -> inv s /\ start_ip s < 2 ^ 32 /\ end_ip s < 2 ^ 32.
Proof.
  intros (a & b & me & secs & opts & fuel & l & o & Ha & Hb & H).
  apply history_inv in H as [I (C1 & C2 & _)]; [|apply new_inv|exact Ha].
  split; [exact I|]. rewrite C1, C2. split; assumption.
Qed.
Lemma reachable_table s : reachable s -> table_ok s.
Proof. intros H. apply inv_table. now apply reachable_inv. Qed.

Lemma reachable_step s fuel mem now i : reachable s ->
  handle fuel mem now s i <> Undef /\
  (end_ip s < 2 ^ 32 - 1 -> (N.to_nat (end_ip s + 1 - start_ip s) < fuel)%nat -> handle fuel mem now s i <> Endless) /\
  forall s' out, handle fuel mem now s i = Ret (s', out) ->
    table_ok s' /\ exists T, (forall x, has s' x <-> T x) /\ effect s now (has s) i T out.
Proof.
  intros R. apply reachable_inv in R as (I & Hs & He).
  destruct (handle_ok fuel mem now s i I Hs) as [(F & E)|(s1 & o & E & K)].
  - split; [congruence|]. split; [|intros; congruence]. intros H1 H2 _.
    exact (find_free_terminates fuel s (start_ip s) H1 H2 F).
  - split; [congruence|]. split; [congruence|]. intros s' out H. rewrite H in E. injection E as <- <-.
    split; [apply inv_table, K|apply K].
Qed.
