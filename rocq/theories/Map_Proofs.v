From Coq Require Import Permutation.
From Verif Require Import Base Htable_Model Htable_Spec Htable_Bits Htable_Proofs Map_Model Map_Spec.
Local Open Scope N_scope.

(** The table does not depend on the hashes of other objects. *)
Lemma WF_ext r r' w t L : 1 <= w <= 63 -> WF r w t L -> (forall p, In p L -> r p = r' p) -> WF r' w t L.
Proof.
  intros Hw [H|[T W]] E; [left; exact H|right; exists T]. destruct W as [A1 A2 A3 A4 A5 A6 A7 A8 A9 A10 A11].
  constructor; auto. destruct A6 as (Hl & HT). split; [exact Hl|]. intros i Hi Hv. destruct (HT i Hi Hv) as (p & d & Hp & Hd & Hi' & Hg & Hj).
  assert (Ip : In p L).
  { eapply Permutation_in; [apply Permutation_sym; exact A7|].
    assert (Hr : get_raw t (g T i) = p). { rewrite Hg. apply (raw_enc r (fun _ _ => true) w Hw); assumption. }
    rewrite <- Hr. apply (elts_in r (fun _ _ => true) w Hw); [|exact Hv]. lia. }
  exists p, d. unfold enc in *. rewrite <- (E p Ip). auto.
Qed.

Section Proofs.
  Context {K : Type} (eqb : K -> K -> bool) (hash : K -> N) (none : K) (w : N).
  Context (Heq : forall a b, eqb a b = true <-> a = b) (Hw : 1 <= w <= 63).
  Notation amap := (@map K).

  Definition rh (f : N -> K) : N -> N := fun q => hash (f q).
  Record holds (s : amap) (m : list (K * N)) : Prop := {
    h_wf : WF (rh (m_key s)) w (m_tab s) (List.map snd m);
    h_key : forall k p, In (k, p) m -> m_key s p = k;
    h_obj : NoDup (List.map snd m);
    h_one : forall k p q, In (k, p) m -> In (k, q) m -> p = q;
    h_cnt : m_cnt s = lenN m }.

  Lemma in_snd (m : list (K * N)) p : In p (List.map snd m) -> exists k, In (k, p) m.
  Proof. intros H. apply in_map_iff in H as ((k & q) & <- & H). eauto. Qed.
  Lemma snd_in (m : list (K * N)) k p : In (k, p) m -> In p (List.map snd m).
  Proof. intros H. exact (in_map snd _ _ H). Qed.

  Lemma find_ok s m k : holds s m -> exists r, map_find eqb hash s k = Ret r /\ has m k r.
  Proof.
    intros [W Hk _ _ _]. unfold map_find.
    destruct (lookup_ok (rh (m_key s)) (fun _ p => eqb k (m_key s p)) w Hw (m_tab s) _ 0 (hash k) W) as [(p & E & I & C)|(E & C)]; rewrite E.
    - exists (Some p). split; [reflexivity|]. cbn. apply in_snd in I as (k' & I). apply Heq in C. rewrite (Hk _ _ I) in C. now subst k'.
    - exists None. split; [reflexivity|]. intros p I. specialize (C p (snd_in _ _ _ I)). unfold rh in C. rewrite (Hk _ _ I) in C. specialize (C eq_refl).
      assert (X : eqb k k = true) by now apply Heq. congruence.
  Qed.
  Lemma perm_snd (m : list (K * N)) p L' : Permutation (List.map snd m) (p :: L') -> exists k m', Permutation m ((k, p) :: m') /\ Permutation L' (List.map snd m').
  Proof.
    intros P. assert (I : In p (List.map snd m)) by (eapply Permutation_in; [apply Permutation_sym; exact P|now left]).
    apply in_snd in I as (k & I). apply in_split in I as (a & b & ->). exists k, (a ++ b). split; [apply Permutation_sym, Permutation_middle|].
    apply Permutation_cons_inv with p. rewrite <- P. rewrite !map_app. cbn [List.map snd]. apply Permutation_sym, Permutation_middle.
  Qed.
  Lemma WF_perm r t L L' : WF r w t L -> Permutation L L' -> WF r w t L'.
  Proof.
    intros [[-> ->]|[T [A1 A2 A3 A4 A5 A6 A7 A8 A9 A10 A11]]] P; [apply Permutation_nil in P as ->; left; auto|]. right. exists T.
    constructor; auto; [now rewrite <- P|]. rewrite A8. unfold lenN. now rewrite (Permutation_length P).
  Qed.
  Lemma free_ok s m p : holds s m -> In p (List.map snd m) ->
    exists s' m' k, map_free eqb hash s p = Ret (s', Some p) /\ Permutation m ((k, p) :: m') /\ holds s' m'.
  Proof.
    intros [W Hk Hn Ho Hc] I. apply in_snd in I as (k & I). unfold map_free. rewrite (Hk _ _ I).
    destruct (remove_ok (rh (m_key s)) (fun _ q => eqb k (m_key s q)) w Hw (m_tab s) _ 0 (hash k) W) as [(q & t' & L' & E & W' & P & C)|(E & C)].
    - rewrite E. cbn [obind]. apply Heq in C. destruct (perm_snd _ _ _ P) as (k' & m' & Pm & PL).
      assert (Iq : In (k', q) m) by (eapply Permutation_in; [apply Permutation_sym; exact Pm|now left]).
      rewrite (Hk _ _ Iq) in C. subst k'. assert (q = p) as -> by exact (Ho _ _ _ Iq I).
      do 3 eexists. split; [reflexivity|]. split; [exact Pm|].
      assert (Sub : forall x, In x m' -> In x m). { intros x Ix. eapply Permutation_in; [apply Permutation_sym; exact Pm|now right]. }
      constructor; cbn [m_tab m_key m_cnt].
      + eapply WF_perm; eauto.
      + intros k0 p0 I0. apply Hk. auto.
      + assert (Pn : Permutation (List.map snd m) (p :: List.map snd m')) by (rewrite Pm; reflexivity).
        apply (Permutation_NoDup Pn) in Hn. now inversion Hn.
      + intros k0 a b Ia Ib. eapply Ho; eauto.
      + rewrite Hc. unfold lenN. rewrite (Permutation_length Pm). cbn [List.length]. lia.
    - exfalso. specialize (C p (snd_in _ _ _ I)). unfold rh in C. rewrite (Hk _ _ I) in C. specialize (C eq_refl).
      assert (X : eqb k k = true) by now apply Heq. congruence.
  Qed.
  Lemma holds_key s m k p : holds s m -> ~ In p (List.map snd m) -> holds (mkMap (m_tab s) (set_key (m_key s) p k) (m_cnt s)) m.
  Proof.
    intros [W Hk Hn Ho Hc] F. assert (Same : forall q, In q (List.map snd m) -> set_key (m_key s) p k q = m_key s q).
    { intros q I. unfold set_key. destruct (N.eqb_spec q p) as [->|]; [contradiction|reflexivity]. }
    constructor; cbn [m_tab m_key m_cnt]; auto.
    - eapply WF_ext; [exact Hw|exact W|]. intros q I. unfold rh. now rewrite Same.
    - intros k0 q I. rewrite Same by exact (snd_in _ _ _ I). auto.
  Qed.
  Lemma add_ok s m k p ok : holds s m -> fair w m (Add k p ok) -> lenN m + 1 <= 3 * 2 ^ 28 ->
    exists s' m' x, map_add eqb hash s k p ok = Ret (s', x) /\ does m (Add k p ok) m' x /\ holds s' m' /\ lenN m' <= lenN m + 1.
  Proof.
    intros H (Hp & Hf) Hmax. unfold map_add. destruct (find_ok s m k H) as (r & E & Hr). rewrite E. cbn [obind].
    destruct r as [q|]; [exists s, m, OAlready; split; [reflexivity|]; split; [exact (DAlready m k p ok q Hr)|]; split; [exact H|lia]|].
    cbn in Hr. assert (H' := holds_key s m k p H Hf). assert (Kp : set_key (m_key s) p k p = k) by (unfold set_key; now rewrite N.eqb_refl).
    destruct (insert_ok (rh (set_key (m_key s) p k)) (fun _ _ => true) w Hw (m_tab s) (List.map snd m) p ok (h_wf _ _ H') Hp) as [(t' & Et & Wt)|(-> & Et)].
    { unfold lenN in *. rewrite map_length. exact Hmax. }
    - unfold rh in Et at 2. rewrite Kp in Et. unfold rh in Et. rewrite Et. cbn [obind]. exists (mkMap t' (set_key (m_key s) p k) (m_cnt s + 1)), ((k, p) :: m), OAdded.
      split; [reflexivity|]. split; [constructor; exact Hr|]. destruct H' as [W Hk Hn Ho Hc]. cbn [m_tab m_key m_cnt] in *. split; [|len; lia]. constructor; cbn [m_tab m_key m_cnt].
      + exact Wt.
      + intros k0 q [[= <- <-]|I]; [exact Kp|exact (Hk _ _ I)].
      + cbn [List.map snd]. constructor; assumption.
      + intros k0 a b [[= <- <-]|Ia] [[= <-]|Ib]; auto; [exfalso; eapply Hr; exact Ib|subst; exfalso; eapply Hr; exact Ia|eapply Ho; eauto].
      + len. lia.
    - unfold rh in Et at 2. rewrite Kp in Et. unfold rh in Et. rewrite Et. cbn [obind].
      (* peer_free of the object that was not inserted finds nothing *)
      unfold map_free. cbn [m_tab m_key m_cnt]. rewrite Kp.
      destruct (remove_ok (rh (set_key (m_key s) p k)) (fun _ q => eqb k (set_key (m_key s) p k q)) w Hw (m_tab s) _ 0 (hash k) (h_wf _ _ H')) as [(q & t' & L' & E' & _ & P & C)|(E' & _)].
      + exfalso. apply Heq in C. assert (I : In q (List.map snd m)) by (eapply Permutation_in; [apply Permutation_sym; exact P|now left]).
        apply in_snd in I as (k' & I). apply (Hr q). assert (X := h_key _ _ H' _ _ I). cbn [m_key] in X. congruence.
      + rewrite E'. cbn [obind]. exists (mkMap (m_tab s) (set_key (m_key s) p k) (m_cnt s)), m, ONoMem. split; [reflexivity|]. split; [constructor; exact Hr|]. split; [exact H'|lia].
  Qed.
  Lemma step_ok s m o : holds s m -> fair w m o -> (is_add o = true -> lenN m + 1 <= 3 * 2 ^ 28) ->
    exists s' m' x, map_step eqb hash s o = Ret (s', x) /\ does m o m' x /\ holds s' m' /\ lenN m' <= lenN m + (if is_add o then 1 else 0).
  Proof.
    intros H F Hmax. destruct o as [k p ok|k|p|]; cbn [map_step is_add] in *.
    - exact (add_ok s m k p ok H F (Hmax eq_refl)).
    - destruct (find_ok s m k H) as (r & E & Hr). rewrite E. cbn [obind]. exists s, m, (OFound r). split; [reflexivity|]. split; [constructor; exact Hr|]. split; [exact H|lia].
    - destruct (free_ok s m p H F) as (s' & m' & k & E & P & H'). rewrite E. cbn [obind]. exists s', m', (OFreed (Some p)). split; [reflexivity|]. split; [econstructor; exact P|]. split; [exact H'|].
      unfold lenN. rewrite (Permutation_length P). cbn [List.length]. lia.
    - destruct (foreach_perm (rh (m_key s)) (fun _ _ => true) w Hw (m_tab s) _ (h_wf _ _ H)) as (l & E & P). rewrite E. cbn [obind]. exists s, m, (OEach l). split; [reflexivity|]. split; [constructor; exact P|]. split; [exact H|lia].
  Qed.
  Lemma init_holds : holds (map_init none) [].
  Proof. constructor; cbn; [left; auto|intros ? ? []|constructor|intros ? ? ? []|reflexivity]. Qed.
  Lemma run_ok ops : forall s m, holds s m -> all_fair w m ops -> lenN m + adds ops <= 3 * 2 ^ 28 ->
    exists s' m' xs, map_run eqb hash s ops = Ret (s', xs) /\ does_all m ops m' xs /\ holds s' m'.
  Proof.
    induction ops as [|o ops IH]; intros s m H F Hmax; cbn [map_run].
    - exists s, m, []. split; [reflexivity|]. split; [constructor|exact H].
    - destruct F as (F & G). unfold adds in *. cbn [filter] in Hmax. destruct (step_ok s m o H F) as (s1 & m1 & x & E & D & H1 & L1).
      { intros A. rewrite A in Hmax. len. lia. }
      rewrite E. cbn [obind]. destruct (IH s1 m1 H1 (G _ _ D)) as (s2 & m2 & xs & E2 & D2 & H2). { destruct (is_add o); len; lia. }
      rewrite E2. cbn [obind]. exists s2, m2, (x :: xs). split; [reflexivity|]. split; [econstructor; eauto|exact H2].
  Qed.
  Lemma is_map ops : all_fair w [] ops -> adds ops <= 3 * 2 ^ 28 ->
    exists s m xs, map_run eqb hash (map_init none) ops = Ret (s, xs) /\ does_all [] ops m xs /\ m_cnt s = lenN m.
  Proof.
    intros F M. destruct (run_ok ops (map_init none) [] init_holds F M) as (s & m & xs & E & D & H). exists s, m, xs. split; [exact E|]. split; [exact D|exact (h_cnt _ _ H)].
  Qed.
End Proofs.

Lemma bytes_eqb_eq a : forall b, bytes_eqb a b = true <-> a = b.
Proof.
  induction a as [|x a IH]; intros [|y b]; cbn [bytes_eqb]; try (split; [discriminate|discriminate]); [tauto|].
  rewrite Bool.andb_true_iff, N.eqb_eq, IH. split; [intros (-> & ->); reflexivity|]. intros [= -> ->]. auto.
Qed.
Lemma eqb_str_eq a b : eqb_str a b = true <-> a = b.
Proof.
  destruct a as [a|], b as [b|]; cbn [eqb_str]; try (split; [discriminate|discriminate]); [|tauto].
  rewrite bytes_eqb_eq. split; [now intros ->|now intros [= ->]].
Qed.
Lemma str_map w ops : 1 <= w <= 63 -> all_fair w [] ops -> adds ops <= 3 * 2 ^ 28 ->
  exists s m xs, map_run eqb_str hash_str (map_init None) ops = Ret (s, xs) /\ does_all [] ops m xs /\ m_cnt s = lenN m.
Proof. intros Hw. exact (is_map eqb_str hash_str None w eqb_str_eq Hw ops). Qed.
Lemma num_map w ops : 1 <= w <= 63 -> all_fair w [] ops -> adds ops <= 3 * 2 ^ 28 ->
  exists s m xs, map_run N.eqb hash_num (map_init 0) ops = Ret (s, xs) /\ does_all [] ops m xs /\ m_cnt s = lenN m.
Proof. intros Hw. exact (is_map N.eqb hash_num 0 w N.eqb_eq Hw ops). Qed.
