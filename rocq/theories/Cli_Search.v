(** Searching links and peers by what was typed. *)
From Coq Require Import String ZArith.
From Verif Require Import Base Text Text_Proofs Atoi_Model Atoi_Spec Atoi_Proofs Mirror_Model Mirror_Client Cli_Model Cli_Spec.
Local Open Scope list_scope.

Lemma alike_case a b : case_eq a b = true <-> alike a b.
Proof. apply case_lower. Qed.
Lemma is_text_spec o t : is_text o t = true <-> exists x, o = Some x /\ alike x t.
Proof.
  unfold is_text. destruct o as [x|].
  - rewrite alike_case. split; [eauto|]. intros [y [E H]]. injection E as <-. exact H.
  - split; [discriminate|]. intros [x [E _]]. discriminate.
Qed.
Lemma find_split {A} (f : A -> bool) xs x : find f xs = Some x -> exists a b, xs = a ++ x :: b /\ f x = true /\ forall y, In y a -> f y = false.
Proof.
  induction xs as [|z xs IH]; cbn [find]; [discriminate|]. destruct (f z) eqn:F.
  - intros E. injection E as <-. exists [], xs. repeat split; auto. intros y [].
  - intros E. destruct (IH E) as [a [b [E1 [F1 H]]]]. subst. exists (z :: a), b. repeat split; auto. intros y [<-|Hy]; auto.
Qed.
Lemma find_intro {A} (f : A -> bool) a x b : f x = true -> (forall y, In y a -> f y = false) -> find f (a ++ x :: b) = Some x.
Proof.
  intros F H. induction a as [|z a IH]; cbn [app find]; [rewrite F; reflexivity|].
  rewrite (H z (or_introl eq_refl)). apply IH. intros y Hy. apply H. right. exact Hy.
Qed.
(** ** Stages *)
Fixpoint stages {A} (fs : list (A -> bool)) (xs : list A) : option A :=
  match fs with [] => None | f :: fs => match find f xs with Some x => Some x | None => stages fs xs end end.
Definition nth_fit {A} (fs : list (A -> bool)) (x : A) (r : N) : Prop := exists f, nth_error fs (N.to_nat r) = Some f /\ f x = true.
Lemma nth_fit_S {A} f (fs : list (A -> bool)) x r : nth_fit (f :: fs) x (r + 1) <-> nth_fit fs x r.
Proof. unfold nth_fit. replace (N.to_nat (r + 1)) with (S (N.to_nat r)) by lia. cbn [nth_error]. tauto. Qed.
Lemma nth_fit_0 {A} f (fs : list (A -> bool)) x : nth_fit (f :: fs) x 0 <-> f x = true.
Proof. unfold nth_fit. change (N.to_nat 0) with O. cbn [nth_error]. split; [intros [g [E H]]; injection E as <-; exact H|eauto]. Qed.
Lemma stages_best {A} (fs : list (A -> bool)) xs : forall x, stages fs xs = Some x <-> best (nth_fit fs) xs x.
Proof.
  induction fs as [|f fs IH]; intros x; cbn [stages].
  - split; [discriminate|]. intros [a [b [r [_ [[g [E _]] _]]]]]. destruct (N.to_nat r); discriminate.
  - destruct (find f xs) as [y|] eqn:F.
    + destruct (find_split f xs y F) as [a [b [E [Fy H]]]]. split.
      * intros X. injection X as <-. exists a, b, 0. rewrite nth_fit_0. repeat split; auto; [lia|].
        intros z Hz. rewrite nth_fit_0, (H z Hz). discriminate.
      * intros [a' [b' [r [E' [Fx [M L]]]]]]. assert (r = 0) as ->.
        { assert (r <= 0) by (apply (M y); [rewrite E; apply in_elt|apply nth_fit_0; exact Fy]). lia. }
        apply nth_fit_0 in Fx. assert (X : find f xs = Some x).
        { rewrite E'. apply find_intro; [exact Fx|]. intros z Hz. specialize (L z Hz). rewrite nth_fit_0 in L. destruct (f z); [contradiction L; reflexivity|reflexivity]. }
        rewrite X in F. injection F as ->. reflexivity.
    + assert (N0 : forall y, In y xs -> f y = false) by (intros y Hy; exact (find_none f xs F y Hy)).
      rewrite IH. split; intros [a [b [r [E [Fx [M L]]]]]].
      * exists a, b, (r + 1). split; [exact E|]. split; [apply nth_fit_S; exact Fx|]. split.
        -- intros y k Hy Fk. destruct (N.eq_dec k 0) as [->|Hk]; [apply nth_fit_0 in Fk; rewrite N0 in Fk by exact Hy; discriminate|].
           replace k with (k - 1 + 1) in Fk by lia. apply nth_fit_S in Fk. specialize (M y (k - 1) Hy Fk). lia.
        -- intros y Hy. rewrite nth_fit_S. exact (L y Hy).
      * assert (In x xs) by (rewrite E; apply in_elt). destruct (N.eq_dec r 0) as [->|Hr]; [apply nth_fit_0 in Fx; rewrite N0 in Fx by assumption; discriminate|].
        exists a, b, (r - 1). replace r with (r - 1 + 1) in Fx by lia. split; [exact E|]. split; [apply nth_fit_S in Fx; exact Fx|]. split.
        -- intros y k Hy Fk. specialize (M y (k + 1) Hy). rewrite nth_fit_S in M. specialize (M Fk). lia.
        -- intros y Hy Fk. apply (L y Hy). replace r with (r - 1 + 1) by lia. apply nth_fit_S. exact Fk.
Qed.
Lemma best_ext {A} (f g : A -> N -> Prop) xs x : (forall y k, In y xs -> f y k <-> g y k) -> best f xs x <-> best g xs x.
Proof.
  intros H. split; intros [a [b [r [E [Fx [M L]]]]]]; exists a, b, r; (split; [exact E|]);
    assert (In x xs) by (rewrite E; apply in_elt); (split; [apply H; auto|]); split.
  - intros y k Hy Fk. apply (M y k Hy). apply H; auto.
  - intros y Hy Fk. apply (L y Hy). apply H; [rewrite E; apply in_or_app; auto|exact Fk].
  - intros y k Hy Fk. apply (M y k Hy). apply H; auto.
  - intros y Hy Fk. apply (L y Hy). apply H; [rewrite E; apply in_or_app; auto|exact Fk].
Qed.
(** If anything fits, something is best. *)
Lemma best_exists {A} (fs : list (A -> bool)) xs y k : In y xs -> nth_fit fs y k -> exists x, best (nth_fit fs) xs x.
Proof.
  intros Hy F. destruct (stages fs xs) as [x|] eqn:E; [exists x; apply stages_best; exact E|]. exfalso.
  revert k F E. induction fs as [|f fs IH]; intros k [g [G Fg]] E; [destruct (N.to_nat k); discriminate|].
  cbn [stages] in E. destruct (find f xs) as [z|] eqn:Z; [discriminate|].
  destruct (N.eq_dec k 0) as [->|Hk].
  - cbn in G. injection G as <-. rewrite (find_none f xs Z y Hy) in Fg. discriminate.
  - apply (IH (k - 1)); [|exact E]. exists g. split; [|exact Fg]. replace (N.to_nat k) with (S (N.to_nat (k - 1))) in G by lia. exact G.
Qed.
(** ** Links *)
Definition lf (t : list byte) : list (clink -> bool) := [fun l => case_eq (cl_label l) t; fun l => is_text (cl_ifname l) t; fun l => is_text (cl_name l) t].
Lemma find_link_find c t : t <> [] -> find_link c t = find (fun l => case_eq (cl_label l) t) c.
Proof. intros Ht. induction c as [|l c IH]; destruct t as [|x t]; [congruence|reflexivity|congruence|]. cbn [find_link find]. destruct (case_eq (cl_label l) (x :: t)); auto. Qed.
Lemma search_stages c t : t <> [] -> search_link c t = stages (lf t) c.
Proof.
  intros Ht. destruct t as [|x t]; [congruence|]. unfold search_link, lf. cbn [stages]. rewrite find_link_find by discriminate.
  destruct (find _ c); [reflexivity|]. destruct (find _ c); [reflexivity|]. destruct (find (fun l => is_text (cl_name l) (x :: t)) c); reflexivity.
Qed.
Lemma lf_fit t l k : nth_fit (lf t) l k <-> link_fit t l k.
Proof.
  unfold nth_fit, lf. split.
  - intros [f [E F]]. destruct (N.to_nat k) as [|[|[|n]]] eqn:K; cbn [nth_error] in E.
    + injection E as <-. replace k with 0 by lia. apply Fit_label. apply alike_case. exact F.
    + injection E as <-. replace k with 1 by lia. apply is_text_spec in F. destruct F as [x [X Y]]. exact (Fit_ifname t l x X Y).
    + injection E as <-. replace k with 2 by lia. apply is_text_spec in F. destruct F as [x [X Y]]. exact (Fit_name t l x X Y).
    + destruct n; discriminate.
  - intros []; [exists (fun l => case_eq (cl_label l) t)|exists (fun l => is_text (cl_ifname l) t)|exists (fun l => is_text (cl_name l) t)]; (split; [reflexivity|]);
      [apply alike_case; assumption|apply is_text_spec; eauto|apply is_text_spec; eauto].
Qed.
Lemma search_link_nil c : search_link c [] = None. Proof. reflexivity. Qed.
Theorem search_link_spec c t l : search_link c t = Some l <-> link_named c t l.
Proof.
  unfold link_named. destruct t as [|x t]; [rewrite search_link_nil; split; [discriminate|intros [H _]; congruence]|].
  rewrite search_stages by discriminate. rewrite stages_best, (best_ext _ (link_fit (x :: t))) by (intros; apply lf_fit).
  split; [intros H; split; [discriminate|exact H]|intros [_ H]; exact H].
Qed.
Lemma search_link_in c t l : search_link c t = Some l -> In l c.
Proof. intros H. apply search_link_spec in H. destruct H as [_ [a [b [r [E _]]]]]. rewrite E. apply in_elt. Qed.
Theorem search_link_none c t : t <> [] -> search_link c t = None <-> forall l k, In l c -> ~ link_fit t l k.
Proof.
  intros Ht. rewrite search_stages by exact Ht. split.
  - intros H l k Hl F. apply lf_fit in F. destruct (best_exists (lf t) c l k Hl F) as [x B]. apply stages_best in B. congruence.
  - intros H. destruct (stages (lf t) c) as [x|] eqn:E; [|reflexivity]. apply stages_best in E. destruct E as [a [b [r [E [F _]]]]].
    exfalso. apply (H x r); [rewrite E; apply in_elt|apply lf_fit; exact F].
Qed.
(** ** Numbers *)
Lemma num_parse t i : number t i -> i < 2 ^ 32 -> ret (atoi_un t 10) = Success /\ next (atoi_un t 10) = lenN t /\ value (atoi_un t 10) = i.
Proof.
  intros [vs [Ht [D E]]] Hi.
  assert (R : Atoi_Spec.run 10 t 10 [] t vs []) by (constructor; [rewrite app_nil_r; reflexivity|constructor; lia|exact D|intros; discriminate]).
  destruct (atoi_exact_all 10 t 10 [] t vs [] ltac:(lia) R) as [N1 V]. rewrite E in V.
  destruct (V ltac:(rewrite p32 in Hi; rewrite p64; lia)) as [S1 V1].
  destruct (narrow_spec u32_max t 10 ltac:(rewrite u32_max_val, p64; lia)) as [A [B [C _]]]. fold (atoi_un t 10) in A, B, C.
  assert (S2 : ret (atoi_un t 10) = Success) by (apply C; [exact S1|rewrite V1, u32_max_val; rewrite p32 in Hi; lia]).
  split; [exact S2|]. split; [rewrite A, N1; rewrite lenN_nil; lia|]. destruct (B S2) as [_ [X _]]. congruence.
Qed.
Lemma parse_num t : t <> [] -> ret (atoi_un t 10) = Success -> next (atoi_un t 10) = lenN t -> number t (value (atoi_un t 10)).
Proof.
  intros Ht S1 N1. destruct (atoi_run_exists 10 t ltac:(lia)) as [b [pre [ds [vs [rest R]]]]].
  pose proof (atoi_exact_all 10 t b pre ds vs rest ltac:(lia) R) as [N2 V].
  destruct (narrow_spec u32_max t 10 ltac:(rewrite u32_max_val, p64; lia)) as [A [B _]]. fold (atoi_un t 10) in A, B.
  destruct (B S1) as [S2 [V2 M2]]. pose proof R as R0. destruct R as [E P D M].
  assert (X : b = 10 /\ pre = []) by (inversion P; subst; auto; congruence). destruct X as [-> ->]. clear P.
  assert (rest = []) as ->.
  { assert (L : lenN ds = lenN t) by (rewrite <- N1, A, N2; len; lia). rewrite E in L. cbn [app] in L. rewrite lenN_app in L. destruct rest; [reflexivity|]. rewrite lenN_cons in L. lia. }
  cbn [app] in E. rewrite app_nil_r in E. subst ds.
  exists vs. split; [exact Ht|]. split; [exact D|]. rewrite V2.
  destruct (N.lt_ge_cases (num 10 vs) (2 ^ 64)) as [Hlt|Hge]; [symmetry; apply V; exact Hlt|].
  exfalso. destruct vs as [|v0 vs0] using rev_ind; [unfold num in Hge; cbn in Hge; rewrite p64 in Hge; lia|].
  destruct (atoi_overflow_all 10 t 10 [] t vs0 v0 [] ltac:(lia) R0 Hge) as [O1 O2].
  destruct (N.lt_ge_cases (num 10 vs0 * 10) (2 ^ 64)) as [K|K]; [|destruct (O1 K) as [F _]; congruence].
  destruct (O2 K) as [_ F]. rewrite V2, F in M2. rewrite num_snoc in Hge.
  assert (v0 < 10). { apply Forall2_app_inv_r in D. destruct D as [l1 [l2 [_ [D _]]]]. inversion D; subst. eapply digit_lt; eauto. }
  rewrite u32_max_val in M2. rewrite p64 in Hge. lia.
Qed.
(** ** Peers *)
Lemma strip_spec p : forall s r, strip p s = Some r <-> s = p ++ r.
Proof.
  induction p as [|x p IH]; intros s r; [cbn [strip app]; split; [intros E; injection E; auto|intros ->; reflexivity]|].
  destruct s as [|y s]; cbn [strip app]; [split; discriminate|]. destruct (N.eqb_spec x y) as [->|H].
  - rewrite IH. split; [intros ->; reflexivity|intros E; injection E; auto].
  - split; [discriminate|]. intros E. injection E. congruence.
Qed.
Lemma starts_spec t label : starts t label = true <-> exists rest, label = t ++ 64 :: rest.
Proof.
  unfold starts. destruct (strip t label) as [r|] eqn:E.
  - apply strip_spec in E. subst. destruct r as [|x r].
    + split; [discriminate|]. intros [rest X]. apply app_inv_head in X. discriminate.
    + rewrite N.eqb_eq. split; [intros ->; eauto|]. intros [rest X]. apply app_inv_head in X. congruence.
  - split; [discriminate|]. intros [rest X]. apply strip_spec in X. congruence.
Qed.
Definition atoi_is (t : list byte) (i : N) : bool :=
  let a := atoi_un t 10 in match ret a with Success => (next a =? lenN t) && (value a =? i) | _ => false end.
Definition pf (t : list byte) : list (N * (clink * cpeer) -> bool) :=
  [fun x => starts t (cp_label (snd (snd x))); fun x => is_text (cp_name (snd (snd x))) t; fun x => is_text (cp_iface (snd (snd x))) t; fun x => atoi_is t (fst x)].
Lemma find_places {A} (f : A -> bool) xs : forall i, option_map snd (find (fun x => f (snd x)) (places i xs)) = find f xs.
Proof. induction xs as [|x xs IH]; intros i; cbn [places find snd]; [reflexivity|]. destruct (f x); [reflexivity|apply IH]. Qed.
Lemma nth_places {A} (v : N) (xs : list A) : forall i, i <= v -> option_map snd (find (fun x => v =? fst x) (places i xs)) = nth_N xs (v - i).
Proof.
  induction xs as [|x xs IH]; intros i Hi; cbn [places find nth_N fst]; [reflexivity|].
  destruct (N.eqb_spec v i) as [->|Hv].
  - replace (i - i) with 0 by lia. reflexivity.
  - rewrite IH by lia. destruct (N.eqb_spec (v - i) 0) as [E|E]; [lia|]. f_equal. lia.
Qed.
Lemma find_ext_in {A} (f g : A -> bool) xs : (forall x, f x = g x) -> find f xs = find g xs.
Proof. intros H. induction xs as [|x xs IH]; cbn [find]; [reflexivity|]. rewrite H, IH. reflexivity. Qed.
Lemma pick_stages ps t : pick ps t = option_map snd (stages (pf t) (places 0 ps)).
Proof.
  unfold pick, pf. cbn [stages].
  pose proof (find_places (fun x => starts t (cp_label (snd x))) ps 0) as E. destruct (find (fun x => starts t (cp_label (snd (snd x)))) (places 0 ps)) as [y|]; cbn [option_map] in E; rewrite <- E; [reflexivity|]. clear E.
  pose proof (find_places (fun x => is_text (cp_name (snd x)) t) ps 0) as E. destruct (find (fun x => is_text (cp_name (snd (snd x))) t) (places 0 ps)) as [y|]; cbn [option_map] in E; rewrite <- E; [reflexivity|]. clear E.
  pose proof (find_places (fun x => is_text (cp_iface (snd x)) t) ps 0) as E. destruct (find (fun x => is_text (cp_iface (snd (snd x))) t) (places 0 ps)) as [y|]; cbn [option_map] in E; rewrite <- E; [reflexivity|]. clear E.
  assert (N0 : (forall i, atoi_is t i = false) -> find (fun x : N * (clink * cpeer) => atoi_is t (fst x)) (places 0 ps) = None).
  { intros H. destruct (find _ (places 0 ps)) as [y|] eqn:F; [|reflexivity]. destruct (find_split _ _ _ F) as [_ [_ [_ [F1 _]]]]. rewrite H in F1. discriminate. }
  destruct (ret (atoi_un t 10)) eqn:R; try (rewrite N0; [reflexivity|]; intros i; unfold atoi_is; rewrite R; reflexivity).
  destruct (N.eqb_spec (next (atoi_un t 10)) (lenN t)) as [Hn|Hn].
  - rewrite (find_ext_in _ (fun x => value (atoi_un t 10) =? fst x)).
    2: { intros x. unfold atoi_is. rewrite R, Hn, N.eqb_refl. reflexivity. }
    pose proof (nth_places (value (atoi_un t 10)) ps 0 ltac:(lia)) as E. rewrite N.sub_0_r in E. rewrite <- E. destruct (find (fun x => value (atoi_un t 10) =? fst x) (places 0 ps)); reflexivity.
  - rewrite N0; [reflexivity|]. intros i. unfold atoi_is. rewrite R. apply N.eqb_neq in Hn. rewrite Hn. reflexivity.
Qed.
Lemma places_lt {A} (xs : list A) : forall i y, In y (places i xs) -> fst y < i + lenN xs.
Proof. induction xs as [|x xs IH]; intros i y; cbn [places]; [intros []|]. intros [<-|H]; [cbn [fst]; rewrite lenN_cons; lia|]. specialize (IH _ _ H). rewrite lenN_cons. lia. Qed.
Lemma pf_fit t ps y k : t <> [] -> lenN ps <= 2 ^ 32 -> In y (places 0 ps) -> nth_fit (pf t) y k <-> peer_fit t y k.
Proof.
  intros Ht Hl Hy. destruct y as [i [l p]]. unfold nth_fit, pf. split.
  - intros [f [E F]]. destruct (N.to_nat k) as [|[|[|[|n]]]] eqn:K; cbn [nth_error] in E.
    + injection E as <-. replace k with 0 by lia. apply starts_spec in F. destruct F as [rest F]. eapply Fit_mac. exact F.
    + injection E as <-. replace k with 1 by lia. apply is_text_spec in F. destruct F as [x [X Y]]. eapply Fit_friendly; [exact X|exact Y].
    + injection E as <-. replace k with 2 by lia. apply is_text_spec in F. destruct F as [x [X Y]]. eapply Fit_iface; [exact X|exact Y].
    + injection E as <-. replace k with 3 by lia. apply Fit_place. cbn [fst] in F. unfold atoi_is in F. destruct (ret (atoi_un t 10)) eqn:R; try discriminate.
      apply andb_prop in F. destruct F as [F1 F2]. apply N.eqb_eq in F1, F2. rewrite <- F2. apply parse_num; auto.
    + destruct n; discriminate.
  - intros H. inversion H; subst.
    + exists (fun x => starts t (cp_label (snd (snd x)))). split; [reflexivity|]. apply starts_spec. eauto.
    + exists (fun x => is_text (cp_name (snd (snd x))) t). split; [reflexivity|]. apply is_text_spec. eauto.
    + exists (fun x => is_text (cp_iface (snd (snd x))) t). split; [reflexivity|]. apply is_text_spec. eauto.
    + exists (fun x => atoi_is t (fst x)). split; [reflexivity|]. cbn [fst]. unfold atoi_is.
      pose proof (places_lt ps 0 _ Hy) as B. cbn [fst] in B.
      match goal with K : number t i |- _ => destruct (num_parse t i K ltac:(lia)) as [A1 [A2 A3]] end. rewrite A1, A2, A3, !N.eqb_refl. reflexivity.
Qed.
Theorem pick_spec ps t x : t <> [] -> lenN ps <= 2 ^ 32 -> pick ps t = Some x <-> peer_among ps t x.
Proof.
  intros Ht Hl. rewrite pick_stages. unfold peer_among. split.
  - intros E. destruct (stages (pf t) (places 0 ps)) as [[i y]|] eqn:F; [|discriminate]. cbn [option_map snd] in E. injection E as <-. exists i.
    apply stages_best in F. eapply best_ext; [|exact F]. intros z k Hz. symmetry. apply (pf_fit t ps); auto.
  - intros [i B]. assert (F : stages (pf t) (places 0 ps) = Some (i, x)).
    { apply stages_best. eapply best_ext; [|exact B]. intros z k Hz. apply (pf_fit t ps); auto. }
    rewrite F. reflexivity.
Qed.
Lemma pick_in ps t x : pick ps t = Some x -> In x ps.
Proof.
  rewrite pick_stages. destruct (stages (pf t) (places 0 ps)) as [y|] eqn:F; [|discriminate]. intros E. injection E as <-.
  apply stages_best in F. destruct F as [a [b [r [F _]]]]. assert (I : In y (places 0 ps)) by (rewrite F; apply in_elt). clear -I.
  revert I. generalize 0. induction ps as [|z ps IH]; intros i; cbn [places]; [intros []|]. intros [<-|I]; [left; reflexivity|right; exact (IH _ I)].
Qed.
Lemma break_none c s : snd (break_at c s) = None -> ~ In c s.
Proof.
  induction s as [|x s IH]; cbn [break_at]; [intros _ []|]. destruct (N.eqb_spec x c) as [->|H]; [discriminate|].
  destruct (break_at c s) as [a r]. cbn [snd] in *. intros E [F|F]; [congruence|exact (IH E F)].
Qed.
Lemma break_some c s a r : break_at c s = (a, Some r) -> exists rest, r = c :: rest /\ s = a ++ c :: rest /\ ~ In c a.
Proof.
  revert a r. induction s as [|x s IH]; intros a r; cbn [break_at]; [discriminate|]. destruct (N.eqb_spec x c) as [->|H].
  - intros E. injection E as <- <-. exists s. repeat split; auto.
  - destruct (break_at c s) as [a' r'] eqn:B. intros E. injection E as <- ->. destruct (IH a' r eq_refl) as [rest [-> [-> N1]]].
    exists rest. repeat split; auto. intros [F|F]; [congruence|exact (N1 F)].
Qed.
Lemma break_intro c a rest : ~ In c a -> break_at c (a ++ c :: rest) = (a, Some (c :: rest)).
Proof.
  induction a as [|x a IH]; intros H; cbn [app break_at]; [rewrite N.eqb_refl; reflexivity|].
  destruct (N.eqb_spec x c) as [->|E]; [exfalso; apply H; left; reflexivity|]. rewrite IH by (intros F; apply H; right; exact F). reflexivity.
Qed.
Lemma first_find {A} (key : A -> list byte) xs t x : find (fun y => case_eq (key y) t) xs = Some x <-> first_alike key xs t x.
Proof.
  split.
  - intros H. destruct (find_split _ _ _ H) as [a [b [E [F L]]]]. exists a, b. repeat split; [exact E|apply alike_case; exact F|].
    intros y Hy A1. apply alike_case in A1. rewrite L in A1 by exact Hy. discriminate.
  - intros [a [b [E [F L]]]]. rewrite E. apply find_intro; [apply alike_case; exact F|]. intros y Hy.
    destruct (case_eq (key y) t) eqn:C; [|reflexivity]. apply alike_case in C. destruct (L y Hy C).
Qed.
Lemma link_peer_find ps t : link_peer ps t = find (fun p => case_eq (cp_label p) t) ps.
Proof. induction ps as [|p ps IH]; cbn [link_peer find]; [reflexivity|]. rewrite IH. reflexivity. Qed.
Lemma at_unique t a r b q : at_link t a r -> at_link t b q -> a = b /\ r = q.
Proof.
  intros [E1 H1] [E2 H2]. pose proof (break_intro 64 a r H1) as B1. pose proof (break_intro 64 b q H2) as B2.
  rewrite <- E1 in B1. rewrite <- E2 in B2. rewrite B1 in B2. injection B2 as -> ->. auto.
Qed.
Lemma find_pair_spec c t x : find_pair c t = Some x <-> exact_peer c t x.
Proof.
  unfold exact_peer. split.
  - intros H. destruct t as [|t0 t]; [discriminate|]. unfold find_pair, link_of in H. destruct (break_at 64 (t0 :: t)) as [a [r|]] eqn:B; cbn [snd] in H; [|discriminate].
    destruct (break_some _ _ _ _ B) as [rest [-> [E Hn]]]. destruct (find_link c rest) as [l|] eqn:F; [|discriminate].
    destruct (link_peer (cl_peers l) (t0 :: t)) as [p|] eqn:P; [|discriminate]. injection H as <-. exists a, rest.
    assert (rest <> []) by (intros ->; destruct c; discriminate).
    split; [split; [exact E|exact Hn]|]. split; [assumption|]. cbn [fst snd]. split.
    + apply first_find. rewrite <- find_link_find by assumption. exact F.
    + apply first_find. rewrite <- link_peer_find. exact P.
  - intros [a [rest [[E Hn] [Hr [F P]]]]]. unfold find_pair, link_of. pose proof (break_intro 64 a rest Hn) as B. rewrite <- E in B. rewrite B. cbn [snd].
    apply first_find in F, P. rewrite <- find_link_find in F by exact Hr. rewrite <- link_peer_find in P. rewrite F, P. destruct t as [|t0 t]; [destruct a; discriminate|]. destruct x; reflexivity.
Qed.
Definition there (c : client) (t : list byte) : option (clink * cpeer) :=
  match break_at 64 t with
  | (name, Some (_ :: rest)) => match search_link c rest with Some l => pick (peers_of l) name | None => None end
  | _ => None
  end.
Lemma search_peer_eq c t : t <> [] -> search_peer c t = match find_pair c t with Some p => Some p | None => match there c t with Some p => Some p | None => pick (all_peers c) t end end.
Proof. intros Ht. destruct t; [congruence|reflexivity]. Qed.
Lemma all_len c l : In l c -> lenN (map (pair l) (cl_peers l)) <= lenN (all_peers c).
Proof.
  intros H. apply in_split in H. destruct H as [a [b ->]]. unfold all_peers. rewrite flat_map_app. cbn [flat_map]. rewrite !lenN_app. lia.
Qed.
Lemma there_spec c t x : few c -> ~ bare t -> there c t = Some x <-> there_peer c t x.
Proof.
  intros Hf Hb. unfold there, there_peer. split.
  - destruct (break_at 64 t) as [a [r|]] eqn:B; [|discriminate]. destruct (break_some _ _ _ _ B) as [rest [-> [E Hn]]]. intros H.
    destruct (search_link c rest) as [l|] eqn:S1; [|discriminate]. exists a, rest, l. split; [split; assumption|]. split; [apply search_link_spec; exact S1|].
    apply pick_spec; [intros ->; apply Hb; exists rest; exact E| |exact H]. unfold few in Hf. pose proof (all_len c l (search_link_in _ _ _ S1)). lia.
  - intros [a [rest [l [[E Hn] [S1 P]]]]]. rewrite E, break_intro by exact Hn. apply search_link_spec in S1. rewrite S1.
    apply pick_spec; [intros ->; apply Hb; exists rest; exact E| |exact P]. unfold few in Hf. pose proof (all_len c l (search_link_in _ _ _ S1)). unfold peers_of. lia.
Qed.
Theorem search_peer_spec c t x : few c -> ~ bare t -> search_peer c t = Some x <-> peer_named c t x.
Proof.
  intros Hf Hb. unfold peer_named. destruct t as [|t0 t]; [split; [discriminate|intros [H _]; congruence]|]. set (u := t0 :: t) in *.
  assert (Hu : u <> []) by discriminate. rewrite search_peer_eq by exact Hu. split.
  - intros H. split; [exact Hu|]. destruct (find_pair c u) as [y|] eqn:F; [left; apply find_pair_spec; congruence|]. right.
    split; [intros y Hy; apply find_pair_spec in Hy; congruence|].
    destruct (there c u) as [y|] eqn:T; [left; apply there_spec; auto; congruence|]. right.
    split; [intros y Hy; apply there_spec in Hy; auto; congruence|]. apply pick_spec; auto.
  - intros [_ [H|[H1 [H|[H2 H]]]]].
    + apply find_pair_spec in H. rewrite H. reflexivity.
    + destruct (find_pair c u) as [y|] eqn:F; [apply find_pair_spec in F; destruct (H1 _ F)|]. apply there_spec in H; auto. rewrite H. reflexivity.
    + destruct (find_pair c u) as [y|] eqn:F; [apply find_pair_spec in F; destruct (H1 _ F)|].
      destruct (there c u) as [y|] eqn:T; [apply there_spec in T; auto; destruct (H2 _ T)|]. apply pick_spec; auto.
Qed.
Lemma search_peer_in c t l p : search_peer c t = Some (l, p) -> In l c /\ In p (cl_peers l).
Proof.
  intros H. destruct t as [|t0 t]; [discriminate|]. rewrite search_peer_eq in H by discriminate.
  assert (G : forall ls, incl ls c -> In (l, p) (flat_map peers_of ls) -> In l c /\ In p (cl_peers l)).
  { intros ls Hl I. apply in_flat_map in I. destruct I as [k [K I]]. unfold peers_of in I. apply in_map_iff in I. destruct I as [q [E I]]. injection E as -> ->. split; [apply Hl; exact K|exact I]. }
  destruct (find_pair c (t0 :: t)) as [y|] eqn:F.
  - injection H as ->. apply find_pair_spec in F. destruct F as [n [r [_ [_ [[a [b [E _]]] [a' [b' [E' _]]]]]]]]. cbn [fst snd] in *. split; [rewrite E; apply in_elt|rewrite E'; apply in_elt].
  - destruct (there c (t0 :: t)) as [y|] eqn:T.
    + injection H as ->. unfold there in T. destruct (break_at 64 (t0 :: t)) as [a [[|z r]|]]; try discriminate. destruct (search_link c r) as [k|] eqn:S1; [|discriminate].
      apply pick_in in T. apply search_link_in in S1. apply (G [k]); [intros z0 [<-|[]]; exact S1|]. cbn [flat_map]. rewrite app_nil_r. exact T.
    + apply pick_in in H. apply (G c); [apply incl_refl|exact H].
Qed.
