From Coq Require Import Permutation Sorting.Sorted.
From Verif Require Import Base DhcpOpt_Model DhcpOpt_Spec DhcpOpt_Proofs DhcpServer_Model DhcpServer_Spec DhcpServer_Proofs.

(** ** An address that is left alone stays with its client *)
Definition keeps (s : server) (a : N) (m : list byte) : Prop := exists x, has s x /\ nip x = a /\ mac x = m.

Lemma same_nip s x y : inv s -> has s x -> has s y -> nip x = nip y -> x = y.
Proof.
  intros I (i & Hi & Ei) (j & Hj & Ej) K. pose proof (t_nip s (inv_table s I) i j x y Hi Hj Ei Ej K) as ->. congruence.
Qed.
Lemma same_mac s x y : inv s -> has s x -> has s y -> mac x = mac y -> x = y.
Proof.
  intros I (i & Hi & Ei) (j & Hj & Ej) K. pose proof (i_mac s I i j x y Hi Hj Ei Ej K) as ->. congruence.
Qed.

Lemma quiet_effect s now i a m T out : inv s -> keeps s a m -> leaves_alone s now a m i ->
  effect s now (has s) i T out ->
  (exists x, T x /\ nip x = a /\ mac x = m)
  /\ (chaddr i <> m -> ~ In (Offer a) out /\ ~ In (Ack a) out).
Proof.
  intros I (x0 & Hx0 & Ha & Hm) Q E. unfold leaves_alone in Q.
  destruct E as [out Ho|y T1 Hc R M|y T3 Hy R M Hown|x T4 Hx Hxm Hr|x T7 Hx Hxm Hc].
  - split; [now exists x0|]. intros _. destruct Ho as [->|[->| ->]]; cbn; split; intros K; intuition discriminate.
  - destruct (eq_bytes (chaddr i) m) eqn:Em; [exfalso; tauto|]. apply eq_bytes_no in Em.
    assert (Ne : y <> a).
    { intros ->. destruct Hc as [x Hx Hxm Hxa|Hno Hr Hexp|Hno _ _ Hfree|x Hno Hx Hxa Hexp Hall].
      - apply Em. assert (x = x0) by (apply (same_nip s); auto; congruence). congruence.
      - destruct Q as [Q|(_ & Q)]; [contradiction|]. destruct (Q T1) as [(z & Hz & Kz & Lz)|(Q1 & _)]; [|contradiction].
        specialize (Hexp z Hz Kz). lia.
      - now apply (Hfree x0).
      - destruct Q as [Q|(_ & Q)]; [contradiction|]. destruct (Q T1) as [(z & Hz & Kz & Lz)|(_ & (f & Hf & F0 & F255 & Hn))].
        + assert (x = z) by (apply (same_nip s); auto; congruence). subst. lia.
        + destruct (Hall f Hf F0 F255) as (w & Hw & Kw). now apply (Hn w). }
    split.
    + exists x0. split; [|auto]. right. split; [exact Hx0|]. cbn. rewrite Hm, Ha. split; congruence.
    + intros _. cbn. split; intros [K|[]]; congruence.
  - destruct (eq_bytes (chaddr i) m) eqn:Em.
    + apply eq_bytes_ok in Em. split; [|congruence].
      assert (Hya : y = a) by (rewrite <- Ha; symmetry; apply Hown; [exact Hx0|congruence]).
      exists (mkLease (now + secs s) y (chaddr i)). split; [now left|]. cbn. auto.
    + apply eq_bytes_no in Em.
      assert (Ne : y <> a).
      { intros ->. destruct Q as [(z & Hz & Kz)|(Q & _)].
        - apply Em. assert (z = x0); [|congruence]. apply (same_nip s); auto.
          rewrite Ha. now apply Hown.
        - specialize (Q T3). unfold requested in Hy. destruct (req_ip i) as [v|]; [destruct (v =? 0)|]; congruence. }
      split.
      * exists x0. split; [|auto]. right. split; [exact Hx0|]. cbn. rewrite Hm, Ha. split; congruence.
      * intros _. cbn. split; intros [K|[]]; congruence.
  - destruct (eq_bytes (chaddr i) m) eqn:Em; [exfalso; tauto|]. apply eq_bytes_no in Em.
    split; [|intros _; cbn; tauto]. exists x0. split; [|auto]. split; [exact Hx0|congruence].
  - destruct (eq_bytes (chaddr i) m) eqn:Em; [exfalso; tauto|]. apply eq_bytes_no in Em.
    split; [|intros _; cbn; tauto]. exists x0. split; [|auto]. right. split; [exact Hx0|congruence].
Qed.

Lemma quiet_history fuel a m l : forall s s' o, inv s -> start_ip s < 2 ^ 32 ->
  keeps s a m -> quiet fuel s a m l -> history fuel s l = Ret (s', o) ->
  keeps s' a m /\ not_given a m o.
Proof.
  induction l as [|e l IH]; intros s s' o I Hs K Q; cbn [history].
  - intros [= <- <-]. split; [exact K|]. intros ? ? ? [].
  - cbn [quiet] in Q.
    destruct (listener_event fuel (e_mem e) (e_now e) s (e_bytes e)) as [[[s1 i] out]| |] eqn:E; cbn [obind]; try discriminate.
    destruct (history fuel s1 l) as [[s2 o2]| |] eqn:H; cbn [obind]; try discriminate. intros [= <- <-].
    pose proof (event_ok _ _ _ _ _ _ _ _ I Hs E) as EO. destruct Q as [Q1 Q2].
    destruct i as [i|].
    + destruct EO as (I1 & C1 & T & HT & Eff).
      destruct (quiet_effect _ _ _ _ _ _ _ I K Q1 Eff) as ((x & Hx & Kx) & Hout).
      assert (Hs1 : start_ip s1 < 2 ^ 32) by (destruct C1 as (-> & _); exact Hs).
      destruct (IH s1 s2 o2 I1 Hs1 (ex_intro _ x (conj (proj2 (HT x) Hx) Kx)) Q2 H) as [K2 G2].
      split; [exact K2|]. intros t j o [E1|Hin] Hne; [|eauto]. injection E1 as <- <- <-. now apply Hout.
    + destruct EO as (-> & ->). destruct (IH s s2 o2 I Hs K Q2 H) as [K2 G2].
      split; [exact K2|]. intros t j o [[=]|Hin] Hne. eauto.
Qed.

(** ** Oldest lease last *)
Definition older (s : server) (i j : N) : Prop :=
  forall x y, heap s i = Some x -> heap s j = Some y -> expire y <= expire x.
Definition small (s : server) : Prop := forall x, has s x -> expire x < 2 ^ 31.
Definition sorted (s : server) : Prop := StronglySorted (older s) (leases s).

Lemma compare_small x y : expire x < 2 ^ 31 -> expire y < 2 ^ 31 ->
  compare_expire x y = (Z.of_N (expire y) - Z.of_N (expire x))%Z.
Proof.
  unfold compare_expire, to_int. change (2 ^ 31) with 2147483648. intros A B.
  change (2 ^ 31)%Z with 2147483648%Z. change (2 ^ 32)%Z with 4294967296%Z.
  rewrite Z.mod_small; lia.
Qed.

Lemma insert_sorted_ok s l id x l' :
  (forall j, In j l -> exists y, heap s j = Some y /\ expire y < 2 ^ 31) ->
  heap s id = Some x -> expire x < 2 ^ 31 -> StronglySorted (older s) l ->
  insert_sorted s l id x = Ret l' -> StronglySorted (older s) l'.
Proof.
  intros Hl Hx Sx. revert l'. induction l as [|j l IH]; intros l' S; cbn [insert_sorted].
  - intros [= <-]. constructor; constructor.
  - destruct (Hl j (or_introl eq_refl)) as (y & Ey & Sy). unfold deref. rewrite Ey. cbn [obind].
    apply StronglySorted_inv in S as [S F]. rewrite (compare_small x y Sx Sy).
    destruct (0 <? _)%Z eqn:C.
    + destruct (insert_perm s l id x) as (r & Er & P).
      { intros k Hk. destruct (Hl k (or_intror Hk)) as (z & Ez & _). now exists z. }
      rewrite Er. cbn [obind]. intros [= <-]. constructor.
      * apply IH; auto. intros k Hk. apply Hl. now right.
      * apply (Permutation_Forall (Permutation_sym P)). constructor; [|exact F].
        intros a b Ea Eb. assert (a = y) by congruence. assert (b = x) by congruence. subst. lia.
    + intros [= <-]. constructor; [constructor; assumption|]. constructor.
      * intros a b Ea Eb. assert (a = x) by congruence. assert (b = y) by congruence. subst. lia.
      * rewrite Forall_forall in *. intros k Hk a b Ea Eb. assert (a = x) by congruence. subst a.
        pose proof (F k Hk y b Ey Eb). lia.
Qed.

Lemma sorted_remove s l id : StronglySorted (older s) l -> StronglySorted (older s) (list_remove l id).
Proof.
  induction 1 as [|j l S IH F]; cbn; [constructor|]. destruct (j =? id); [exact S|].
  constructor; [exact IH|]. rewrite Forall_forall in *. intros k Hk. apply F.
  clear -Hk. induction l as [|z l IHl]; cbn in Hk; [contradiction|]. destruct (z =? id); [now right|].
  destruct Hk as [->|Hk]; [now left|right; auto].
Qed.
Lemma sorted_ext s s' l : StronglySorted (older s) l -> (forall j, In j l -> heap s' j = heap s j) ->
  StronglySorted (older s') l.
Proof.
  induction 1 as [|j l S IH F]; intros H; [constructor|]. constructor.
  - apply IH. intros k Hk. apply H. now right.
  - rewrite Forall_forall in *. intros k Hk a b Ea Eb. rewrite H in Ea by now left. rewrite H in Eb by now right.
    exact (F k Hk a b Ea Eb).
Qed.

Lemma remove_sub l id j : In j (list_remove l id) -> In j l.
Proof.
  induction l as [|z l IH]; cbn; [tauto|]. destruct (z =? id); [now right|]. intros [->|H]; [now left|right; auto].
Qed.

Lemma get_lease_sorted mem s y m s' r : inv s -> sorted s -> get_lease mem s y m = Ret (s', r) -> sorted s'.
Proof.
  intros I S E. destruct (get_lease_ok mem s y m I) as (s1 & r1 & E1 & K). rewrite E in E1. injection E1 as <- <-.
  destruct r as [id|]; [|destruct K as (-> & _); exact S].
  destruct K as (_ & _ & _ & _ & _ & _ & _ & Hh). unfold sorted.
  apply (sorted_ext s); [|exact Hh]. clear Hh. revert E. unfold get_lease.
  destruct (y =? 0); [discriminate|]. destruct (y <? start_ip s); [discriminate|].
  destruct (end_ip s <? y); [discriminate|]. destruct (eq_bytes m bcast); [discriminate|].
  destruct (eq_bytes m any); [discriminate|].
  destruct (find_by_mac s m I) as (lm & -> & _). cbn [obind].
  destruct (hash_lookup (index s) y) as [ln|].
  - destruct lm as [lm|].
    + destruct (negb (ln =? lm)).
      * unfold remove_lease, deref. cbn. destruct (heap s lm); cbn; [|discriminate].
        intros [= <- _]. cbn. now apply sorted_remove, sorted_remove.
      * intros [= <- _]. cbn. now apply sorted_remove.
    + intros [= <- _]. cbn. now apply sorted_remove.
  - destruct lm as [lm|].
    + unfold deref. cbn. destruct (heap s lm); cbn; [|discriminate]. intros [= <- _]. cbn. now apply sorted_remove.
    + destruct mem; [|discriminate]. intros [= <- _]. exact S.
Qed.

Lemma add_lease_sorted mem now s exp m y s' r : inv s -> sorted s -> small s ->
  (if exp =? 0 then now + secs s else exp) < 2 ^ 31 ->
  add_lease mem now s exp m y = Ret (s', r) -> sorted s'.
Proof.
  intros I S B Hexp. unfold add_lease.
  destruct (get_lease mem s y m) as [[s1 r1]| |] eqn:G; cbn [obind]; try discriminate.
  pose proof (get_lease_sorted _ _ _ _ _ _ I S G) as S1.
  destruct (get_lease_ok mem s y m I) as (s2 & r2 & E & K). rewrite G in E. injection E as <- <-.
  destruct r1 as [id|]; [|intros [= <- _]; exact S1].
  destruct K as (U & I1 & C1 & Hid & _ & (w & Ew) & Hin & Hh).
  unfold deref at 1. rewrite Ew. cbn [obind]. replace (secs s1) with (secs s) by (symmetry; apply C1).
  match goal with |- context [insert_sorted ?a ?b ?c ?d] => destruct (insert_sorted a b c d) as [l| |] eqn:E end;
    cbn [obind]; try discriminate.
  intros [= <- _]. unfold sorted. cbn [leases set_index set_leases].
  apply (sorted_ext (set_heap s1 (upd (heap s1) id (Some (mkLease (if exp =? 0 then now + secs s else exp) y m)))));
    [|reflexivity].
  eapply insert_sorted_ok; [| | | |exact E].
  - cbn [leases set_heap]. intros j Hj. cbn. unfold upd. destruct (N.eqb_spec j id) as [->|_]; [contradiction|].
    rewrite (Hh j Hj). apply Hin in Hj as (Hj & z & Ez & _). exists z. split; [exact Ez|]. apply B. now exists j.
  - cbn. unfold upd. now rewrite N.eqb_refl.
  - exact Hexp.
  - cbn [leases set_heap]. apply (sorted_ext s1); [exact S1|]. intros j Hj. cbn. unfold upd.
    destruct (N.eqb_spec j id) as [->|_]; [contradiction|reflexivity].
Qed.

Lemma set_expire_sorted s id exp s' : inv s -> sorted s -> small s -> In id (leases s) -> exp < 2 ^ 31 ->
  lease_set_expire s id exp = Ret s' -> sorted s'.
Proof.
  intros I S B Hid Hexp. unfold lease_set_expire. destruct (i_list s I id Hid) as (x & Ex & _).
  replace (deref (set_leases s (list_remove (leases s) id)) id) with (Ret x)
    by (unfold deref; cbn; now rewrite Ex). cbn [obind].
  match goal with |- context [insert_sorted ?a ?b ?c ?d] => destruct (insert_sorted a b c d) as [l| |] eqn:E end;
    cbn [obind]; try discriminate.
  intros [= <-]. unfold sorted. cbn [leases set_leases].
  eapply (sorted_ext (set_heap (set_leases s (list_remove (leases s) id)) (upd (heap s) id _))); [|reflexivity].
  assert (Hni : ~ In id (list_remove (leases s) id)) by (rewrite in_remove_first by apply I; tauto).
  eapply insert_sorted_ok; [| | | |exact E].
  - cbn [leases set_heap set_leases]. intros j Hj. cbn. unfold upd. destruct (N.eqb_spec j id) as [->|_]; [contradiction|].
    apply remove_sub in Hj. destruct (i_list s I j Hj) as (z & Ez & _). exists z. split; [exact Ez|]. apply B. now exists j.
  - cbn. unfold upd. now rewrite N.eqb_refl.
  - exact Hexp.
  - cbn [leases set_heap set_leases]. apply (sorted_ext s); [now apply sorted_remove|]. intros j Hj. cbn. unfold upd.
    destruct (N.eqb_spec j id) as [->|_]; [contradiction|reflexivity].
Qed.

Lemma put_small s now i T out s' : small s -> now + secs s < 2 ^ 31 ->
  effect s now (has s) i T out -> (forall x, has s' x <-> T x) -> small s'.
Proof.
  intros B Ht E H x Hx. apply H in Hx.
  destruct E as [out Ho|y T1 Hc R M|y T3 Hy R M Hown|w T4 Hw Hxm Hr|w T7 Hw Hxm Hc].
  - now apply B.
  - destruct Hx as [->|(Hx & _)]; [reflexivity|now apply B].
  - destruct Hx as [->|(Hx & _)]; [exact Ht|now apply B].
  - destruct Hx as [Hx _]. now apply B.
  - destruct Hx as [->|(Hx & _)]; [|now apply B]. cbn [expire].
    assert (now < 2 ^ 31) by lia. change (2 ^ 31) with 2147483648 in *. rewrite N.mod_small; [assumption|].
    change (2 ^ 32) with 4294967296. lia.
Qed.

Lemma handle_sorted fuel mem now s i s' out : inv s -> start_ip s < 2 ^ 32 -> sorted s -> small s ->
  now + secs s < 2 ^ 31 -> handle fuel mem now s i = Ret (s', out) -> sorted s' /\ small s'.
Proof.
  intros I Hs S B Ht E. split.
  2: { destruct (handle_ok fuel mem now s i I Hs) as [(_ & K)|(s1 & o & K & _ & _ & T & HT & Eff)]; [congruence|].
       rewrite E in K. injection K as <- <-. exact (put_small _ _ _ _ _ _ B Ht Eff HT). }
  revert E. unfold handle. destruct (find_by_mac s (chaddr i) I) as (l & -> & Hl). cbn [obind].
  assert (Add : forall y e s1 r, add_lease mem now s e (chaddr i) y = Ret (s1, r) -> e = 0 \/ e = OFFER_TIME -> sorted s1).
  { intros y e s1 r E He. eapply add_lease_sorted; [exact I|exact S|exact B| |exact E].
    destruct He as [->| ->]; [exact Ht|reflexivity]. }
  destruct (type i =? 1).
  { unfold send_offer. match goal with |- obind ?g _ = _ -> _ => destruct g as [y| |]; cbn [obind]; try discriminate end.
    destruct (y =? 0); [intros [= <- _]; exact S|].
    destruct (add_lease mem now s OFFER_TIME (chaddr i) y) as [[s1 r]| |] eqn:E; cbn [obind]; try discriminate.
    pose proof (Add _ _ _ _ E (or_intror eq_refl)) as S1. destruct r; intros [= <- _]; exact S1. }
  destruct (type i =? 3).
  { match goal with |- (if ?b then _ else _) = _ -> _ => destruct b; [intros [= <- _]; exact S|] end.
    set (rq := if _ =? 0 then _ else _).
    destruct l as [id|]; cbn [obind].
    - destruct Hl as (Hid & x & Ex & Hm). unfold deref. rewrite Ex. cbn [obind].
      destruct (rq =? nip x).
      + unfold send_ack. destruct (add_lease mem now s 0 (chaddr i) (nip x)) as [[s1 r]| |] eqn:E; cbn [obind]; try discriminate.
        intros [= <- _]. eapply Add; [exact E|now left].
      + destruct (server_id i); intros [= <- _]; exact S.
    - destruct (add_lease mem now s OFFER_TIME (chaddr i) rq) as [[s1 r]| |] eqn:E; cbn [obind]; try discriminate.
      pose proof (Add _ _ _ _ E (or_intror eq_refl)) as S1. destruct r as [id|]; [|intros [= <- _]; exact S1].
      destruct (add_lease_ok mem now s OFFER_TIME (chaddr i) rq I) as (s1' & r1 & E1 & I1 & C1 & K1).
      rewrite E in E1. injection E1 as <- <-. destruct K1 as (U & Hid & Eid & K1).
      unfold deref. rewrite Eid. cbn [obind nip fresh_lease]. rewrite N.eqb_refl. unfold send_ack.
      destruct (add_lease mem now s1 0 (chaddr i) rq) as [[s2 r2]| |] eqn:E2; cbn [obind]; try discriminate.
      intros [= <- _]. eapply add_lease_sorted; [exact I1|exact S1| | |exact E2].
      + intros z Hz. apply K1 in Hz as [->|(Hz & _)]; [reflexivity|now apply B].
      + cbn [N.eqb]. replace (secs s1) with (secs s) by (symmetry; apply C1). exact Ht. }
  destruct (type i =? 4).
  { destruct (server_id i); [|intros [= <- _]; exact S]. destruct (req_ip i) as [v|]; [|intros [= <- _]; exact S].
    destruct l as [id|]; [|intros [= <- _]; exact S]. destruct Hl as (Hid & x & Ex & Hm).
    unfold deref. rewrite Ex. cbn [obind]. destruct (v =? nip x); [|intros [= <- _]; exact S].
    rewrite (remove_lease_eq s id x Ex). cbn [obind]. intros [= <- _]. unfold sorted. cbn [leases set_heap].
    apply (sorted_ext s); [now apply sorted_remove|]. intros j Hj. cbn in Hj. cbn. unfold upd.
    destruct (N.eqb_spec j id) as [->|_]; [|reflexivity]. exfalso. revert Hj. rewrite in_remove_first by apply I. tauto. }
  destruct (type i =? 7).
  { destruct (server_id i); [|intros [= <- _]; exact S].
    destruct l as [id|]; [|intros [= <- _]; exact S]. destruct Hl as (Hid & x & Ex & Hm).
    unfold deref. rewrite Ex. cbn [obind]. destruct (ciaddr i =? nip x); [|intros [= <- _]; exact S].
    destruct (lease_set_expire s id (wrap32 now)) as [s1| |] eqn:E; cbn [obind]; try discriminate.
    intros [= <- _]. eapply set_expire_sorted; [exact I|exact S|exact B|exact Hid| |exact E].
    unfold wrap32, two32. assert (now < 2 ^ 31) by lia. change (2 ^ 31) with 2147483648 in *.
    rewrite N.mod_small; [assumption|]. change (2 ^ 32) with 4294967296. lia. }
  destruct (type i =? 8); intros [= <- _]; exact S.
Qed.

Lemma last_oldest s x y id : sorted s -> last_id (leases s) = Some id -> heap s id = Some x -> has s y -> expire x <= expire y.
Proof.
  unfold sorted. intros S L Ex (j & Hj & Ej). revert L Hj. induction S as [|k l S IH F]; [discriminate|].
  destruct l as [|k2 l].
  - intros [= ->] [->|[]]. assert (x = y) by congruence. subst. lia.
  - change (last_id (k :: k2 :: l)) with (last_id (k2 :: l)). intros L [->|Hj]; [|now apply IH].
    rewrite Forall_forall in F. apply (F id); auto. pose proof (last_in (k2 :: l)) as K. now rewrite L in K.
Qed.

(** All times so far small enough for the comparison of 32 bits. *)
Lemma history_sorted fuel l : forall s s' o, inv s -> start_ip s < 2 ^ 32 -> sorted s -> small s ->
  (forall e, In e l -> e_now e + secs s < 2 ^ 31) -> history fuel s l = Ret (s', o) -> sorted s'.
Proof.
  induction l as [|e l IH]; intros s s' o I Hs S B Ht; cbn [history].
  - intros [= <- _]. exact S.
  - destruct (listener_event fuel (e_mem e) (e_now e) s (e_bytes e)) as [[[s1 i] out]| |] eqn:E; cbn [obind]; try discriminate.
    destruct (history fuel s1 l) as [[s2 o2]| |] eqn:H; cbn [obind]; try discriminate. intros [= <- <-].
    pose proof (event_ok _ _ _ _ _ _ _ _ I Hs E) as EO.
    assert (inv s1 /\ same_config s s1 /\ sorted s1 /\ small s1) as (I1 & C1 & S1 & B1).
    { destruct i as [i|].
      - revert E. unfold listener_event. destruct (decode fuel s (e_bytes e)) as [[j|]| |]; cbn [obind]; try discriminate.
        destruct (handle fuel (e_mem e) (e_now e) s j) as [[s3 o3]| |] eqn:Hd; cbn [obind]; try discriminate.
        intros [= -> -> ->]. split; [apply EO|]. split; [apply EO|].
        eapply handle_sorted; [exact I|exact Hs|exact S|exact B|apply Ht; now left|exact Hd].
      - destruct EO as (-> & _). split; [exact I|]. split; [apply config_refl|]. split; assumption. }
    eapply IH; [exact I1| |exact S1|exact B1| |exact H].
    + destruct C1 as (-> & _). exact Hs.
    + intros e' He'. replace (secs s1) with (secs s) by (symmetry; apply C1). apply Ht. now right.
Qed.

Lemma find_free_above fuel s ip y : end_ip s < 2 ^ 32 - 1 -> find_free fuel s ip = Ret (Some y) -> ip <= y.
Proof.
  intros He. revert ip; induction fuel as [|fuel IH]; intros ip; cbn [find_free]; [discriminate|].
  assert (Step : (end_ip s <? ip) = false -> find_free fuel s (wrap32 (ip + 1)) = Ret (Some y) -> ip <= y).
  { intros E H. apply IH in H. unfold wrap32, two32 in H. change (2 ^ 32) with 4294967296 in *.
    rewrite N.mod_small in H; lia. }
  destruct (end_ip s <? ip) eqn:E0; [discriminate|].
  destruct (N.land ip 255 =? 0); [now apply Step|].
  destruct (N.land ip 255 =? 255); [now apply Step|].
  destruct (hash_lookup (index s) ip); [now apply Step|intros [= <-]; lia].
Qed.

Lemma discover_gets_offer a b me secs0 opts0 fuel l s o fuel' now i :
  a < 2 ^ 32 -> b < 2 ^ 32 - 1 -> (forall e, In e l -> e_now e + secs0 < 2 ^ 31) ->
  history fuel (server_new a b me secs0 opts0) l = Ret (s, o) ->
  (N.to_nat (b + 1 - a) < fuel')%nat ->
  type i = 1 -> real_client (chaddr i) ->
  free_address s \/ (exists x, has s x /\ expire x < now) ->
  exists s' y, handle fuel' true now s i = Ret (s', [Offer y]).
Proof.
  intros Ha Hb Ht H Hf T1 M Hav.
  pose proof (history_inv _ _ _ _ _ (new_inv a b me secs0 opts0) Ha H) as [I C].
  assert (S : sorted s).
  { eapply history_sorted; [apply (new_inv a b me secs0 opts0)|exact Ha| | |exact Ht|exact H].
    - constructor.
    - intros x (j & [] & _). }
  assert (Hs : start_ip s < 2 ^ 32) by (destruct C as (-> & _); exact Ha).
  assert (He : end_ip s < 2 ^ 32 - 1) by (destruct C as (_ & -> & _); exact Hb).
  assert (Hfuel : (N.to_nat (end_ip s + 1 - start_ip s) < fuel')%nat) by (destruct C as (-> & -> & _); exact Hf).
  unfold handle. destruct (find_by_mac s (chaddr i) I) as (lm & -> & Hl). cbn [obind]. rewrite T1. cbn [N.eqb Pos.eqb].
  change (1 =? 1) with true. cbn iota. unfold send_offer.
  set (req := match req_ip i with Some _ => _ | None => _ end).
  assert (Fin : forall y, in_range s y -> exists s' z,
     (if y =? 0 then Ret (s, []) else
      obind (add_lease true now s OFFER_TIME (chaddr i) y) (fun '(s, r) =>
        match r with None => Ret (s, []) | Some _ => Ret (s, [Offer y]) end)) = Ret (s', [Offer z])).
  { intros y R. destruct (N.eqb_spec y 0) as [E|E]; [destruct R; contradiction|].
    destruct (add_lease_ok true now s OFFER_TIME (chaddr i) y I) as (s1 & r & -> & _ & _ & K). cbn [obind].
    destruct r as [id|]; [eexists _, _; reflexivity|]. exfalso. destruct K as (-> & [K|(K & _)]); [|discriminate].
    assert (U : usable s (chaddr i) y = true) by (apply usable_iff; split; assumption). congruence. }
  destruct lm as [id|].
  - destruct Hl as (Hid & x & Ex & Hm). unfold deref. rewrite Ex. cbn [obind]. apply Fin.
    destruct (i_list s I id Hid) as (w & Ew & (G1 & G2 & _) & _). assert (w = x) by congruence. subst. split; assumption.
  - assert (Pick : exists y, find_nip fuel' now s = Ret y /\ in_range s y).
    { unfold find_nip. pose proof (find_free_terminates fuel' s (start_ip s) He Hfuel) as NT.
      destruct (find_free_ok fuel' s (start_ip s) Hs) as [E|(r & E & K)]; [contradiction|]. rewrite E. cbn [obind].
      destruct r as [y|].
      - exists y. split; [reflexivity|]. destruct K as (K1 & K2 & K3 & K4). split; [intros ->; now apply K2|].
        split; [|exact K1]. exact (find_free_above fuel' s (start_ip s) y He E).
      - pose proof (last_in (leases s)) as HL. destruct (last_id (leases s)) as [id|] eqn:L.
        + destruct (i_list s I id HL) as (x & Ex & (G1 & G2 & _) & _). unfold deref. rewrite Ex. cbn [obind].
          exists (nip x). split; [|split; assumption].
          unfold is_expired. destruct (N.ltb_spec (expire x) now) as [F|F]; [reflexivity|]. exfalso.
          destruct Hav as [(f & Hf1 & F0 & F255 & Hn)|(y & Hy & Ey)].
          * apply (K f Hf1 F0 F255). now apply lookup_none.
          * pose proof (last_oldest s x y id S L Ex Hy). lia.
        + exfalso. destruct Hav as [(f & Hf1 & F0 & F255 & Hn)|(y & (j & Hj & _) & _)].
          * apply (K f Hf1 F0 F255). now apply lookup_none.
          * rewrite HL in Hj. contradiction. }
    destruct Pick as (y & Ep & Rp).
    unfold check_requested_nip. destruct (N.eqb_spec req 0); [cbn [obind]; rewrite Ep; cbn [obind]; now apply Fin|].
    destruct (N.ltb_spec req (start_ip s)); [cbn [obind]; rewrite Ep; cbn [obind]; now apply Fin|].
    destruct (N.ltb_spec (end_ip s) req); [cbn [obind]; rewrite Ep; cbn [obind]; now apply Fin|].
    assert (Rr : in_range s req) by (split; [assumption|lia]).
    destruct (hash_lookup (index s) req) as [id|] eqn:L.
    + destruct (i_index s I req id L) as (_ & x & Ex & _). unfold deref. rewrite Ex. cbn [obind].
      destruct (is_expired now x); cbn [obind]; [now apply Fin|rewrite Ep; cbn [obind]; now apply Fin].
    + cbn [obind]. now apply Fin.
Qed.

Lemma offer_ok s fuel mem now i s' y : reachable s ->
  handle fuel mem now s i = Ret (s', [Offer y]) ->
  start_ip s <= y <= end_ip s
  /\ (forall x, has s x -> nip x = y -> mac x = chaddr i \/ expire x < now)
  /\ (req_ip i <> Some y -> (forall x, has s x -> nip x <> y) -> y mod 256 <> 0 /\ y mod 256 <> 255).
Proof.
  intros R E. destruct (reachable_inv s R) as (I & Hs & _).
  destruct (reachable_step s fuel mem now i R) as (_ & _ & K). destruct (K s' _ E) as (_ & T & _ & Eff). clear K E.
  inversion Eff as [out Ho| z T1 Hc Rg M E1 E2|z T3 Hy Rg M Hown E1 E2| |]; subst.
  { destruct Ho as [Ho|[Ho|Ho]]; discriminate. }
  split; [apply Rg|]. split.
  - intros x Hx Kx. destruct Hc as [w Hw Kw Nw|Hno Hr Hexp|Hno _ _ Hfree|w Hno Hw Nw Hexp _].
    + left. assert (x = w) by (apply (same_nip s); auto; congruence). congruence.
    + right. now apply Hexp.
    + exfalso. now apply (Hfree x).
    + right. assert (x = w) by (apply (same_nip s); auto; congruence). now subst.
  - intros Hnr Hfr. destruct Hc as [w Hw Kw Nw|Hno Hr Hexp|Hno H0 H255 Hfree|w Hno Hw Nw Hexp _].
    + exfalso. now apply (Hfr w).
    + contradiction.
    + split; assumption.
    + exfalso. now apply (Hfr w).
Qed.

Lemma reachable_quiet s fuel l s' o a m : reachable s ->
  (exists x, has s x /\ nip x = a /\ mac x = m) ->
  quiet fuel s a m l -> history fuel s l = Ret (s', o) ->
  (exists x, has s' x /\ nip x = a /\ mac x = m) /\ not_given a m o.
Proof.
  intros R. apply reachable_inv in R as (I & Hs & _). intros K Q H. exact (quiet_history fuel a m l s s' o I Hs K Q H).
Qed.
