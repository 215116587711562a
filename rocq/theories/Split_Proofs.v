From Verif Require Import Base Split_Model Split_Spec.

Lemma sep_hit_iff c sep : sep_hit c sep = true <-> In c sep.
Proof.
  induction sep as [|d sep IH]; cbn [sep_hit In]; [intuition discriminate|].
  destruct (N.eqb_spec c d) as [->|H]; cbn [negb]; [tauto|].
  rewrite IH. intuition congruence.
Qed.

Lemma split_of_sep (P : byte -> Prop) c s fs :
  P c -> split_of P s fs -> split_of P (c :: s) fs.
Proof.
  intros Hc H. destruct H as [g Hg|g f rest fs Hg Hf Hn Hr H].
  - constructor; auto.
  - change (c :: g ++ f ++ rest) with ((c :: g) ++ f ++ rest). constructor; auto.
Qed.

Lemma split_loop_of sep s : forall cur,
  Forall (fun c => ~ In c sep) cur ->
  split_of (fun c => In c sep) (cur ++ s) (split_loop sep s cur).
Proof.
  induction s as [|c s IH]; intros cur Hc; cbn [split_loop].
  - rewrite app_nil_r. destruct cur as [|x cur]; [constructor; constructor|].
    change (x :: cur) with ([] ++ (x :: cur)) at 1.
    rewrite <- (app_nil_r (x :: cur)) at 1.
    apply FCons; auto; [discriminate|constructor; constructor].
  - destruct (sep_hit c sep) eqn:E.
    + apply sep_hit_iff in E. destruct cur as [|x cur].
      * cbn [app]. apply split_of_sep; [exact E|]. apply (IH []). constructor.
      * change ((x :: cur) ++ c :: s) with ([] ++ (x :: cur) ++ c :: s).
        apply FCons; auto; [discriminate|right; eauto|].
        apply split_of_sep; [exact E|]. apply (IH []). constructor.
    + replace (cur ++ c :: s) with ((cur ++ [c]) ++ s) by (rewrite <- app_assoc; reflexivity).
      apply IH. apply Forall_app. split; [exact Hc|]. constructor; [|constructor].
      intros H. apply sep_hit_iff in H. congruence.
Qed.

Lemma strip_unique (P : byte -> Prop) g : forall g' x y,
  Forall P g -> Forall P g' ->
  (x = [] \/ exists c t, x = c :: t /\ ~ P c) ->
  (y = [] \/ exists c t, y = c :: t /\ ~ P c) ->
  g ++ x = g' ++ y -> g = g' /\ x = y.
Proof.
  induction g as [|c g IH]; intros g' x y Hg Hg' Hx Hy He.
  - destruct g' as [|c' g']; [auto|]. cbn in He. exfalso.
    inversion Hg'; subst. destruct Hx as [|[c [t [Hx Hn]]]]; [discriminate|].
    injection Hx as <- _. contradiction.
  - destruct g' as [|c' g'].
    + cbn in He. exfalso. inversion Hg; subst.
      destruct Hy as [|[d [t [Hy Hn]]]]; [discriminate|]. injection Hy as <- _. contradiction.
    + cbn in He. injection He as <- He. inversion Hg; inversion Hg'; subst.
      destruct (IH g' x y) as [-> ->]; auto.
Qed.

Lemma split_of_unique (P : byte -> Prop) s fs :
  split_of P s fs -> forall fs', split_of P s fs' -> fs = fs'.
Proof.
  assert (Hhead : forall f rest, f <> [] -> Forall (fun c => ~ P c) f ->
            f ++ rest = [] \/ exists c t, f ++ rest = c :: t /\ ~ P c).
  { intros f rest Hf Hn. destruct f as [|c f]; [congruence|]. inversion Hn; subst.
    right. exists c, (f ++ rest). auto. }
  induction 1 as [g Hg|g f rest fs Hg Hf Hn Hr H IH]; intros fs' H'.
  - destruct H' as [|g' f rest fs Hg' Hf Hn _ _]; [reflexivity|exfalso].
    apply Forall_app in Hg as [_ Hg]. apply Forall_app in Hg as [Hg _].
    destruct f as [|c f]; [congruence|]. inversion Hg; inversion Hn; subst. contradiction.
  - inversion H' as [g' Hg' E|g' f' rest' fs0 Hg' Hf' Hn' Hr' H0 E]; subst.
    + exfalso. apply Forall_app in Hg' as [_ Hg']. apply Forall_app in Hg' as [Hg' _].
      destruct f as [|c f]; [congruence|]. inversion Hg'; inversion Hn; subst. contradiction.
    + destruct (strip_unique P g g' (f ++ rest) (f' ++ rest') Hg Hg'
                  (Hhead _ _ Hf Hn) (Hhead _ _ Hf' Hn') (eq_sym E)) as [-> E2].
      destruct (strip_unique (fun c => ~ P c) f f' rest rest') as [-> ->]; auto.
      * destruct Hr as [|[c [t [-> Hc]]]]; [now left|right; exists c, t; split; auto].
      * destruct Hr' as [|[c [t [-> Hc]]]]; [now left|right; exists c, t; split; auto].
      * f_equal. auto.
Qed.

Lemma strsplit_fields s sep fs :
  split_of (fun c => In c sep) s fs ->
  (lenN fs < 2 ^ 31 -> strsplit s sep = Some (fs, lenN fs))
  /\ (2 ^ 31 <= lenN fs -> strsplit s sep = None).
Proof.
  intros H. unfold strsplit.
  rewrite <- (split_of_unique _ _ _ H _ (split_loop_of sep s [] (Forall_nil _))).
  destruct (2 ^ 31 <=? lenN fs) eqn:E; split; intros; try reflexivity; lia.
Qed.

Lemma strsplit_fields_exist s sep : exists fs, split_of (fun c => In c sep) s fs.
Proof. eexists. apply (split_loop_of sep s []). constructor. Qed.

(** ** Path prefixes *)
Definition is_slash (c : byte) : Prop := In c [47].

Lemma beq_eq a : forall b, beq a b = true <-> a = b.
Proof.
  induction a as [|x a IH]; intros [|y b]; cbn [beq]; try (split; (discriminate || reflexivity)).
  rewrite andb_true_iff, N.eqb_eq, IH. split; [intros [-> ->]; reflexivity|].
  intros [= -> ->]. auto.
Qed.

Lemma skip_slash_spec s :
  exists g, s = g ++ skip_slash s /\ Forall is_slash g
    /\ (skip_slash s = [] \/ exists c t, skip_slash s = c :: t /\ c <> 47).
Proof.
  induction s as [|c s IH].
  - exists []. cbn. auto.
  - destruct (N.eq_dec c 47) as [->|Hn].
    + destruct IH as [g [H1 [H2 H3]]]. exists (47 :: g). cbn [skip_slash app].
      rewrite <- H1. repeat split; auto. constructor; [now left|exact H2].
    + assert (Hs : skip_slash (c :: s) = c :: s).
      { unfold skip_slash. destruct c as [|p]; [reflexivity|].
        do 6 (destruct p; try reflexivity). congruence. }
      exists []. rewrite Hs. repeat split; auto. right. eauto.
Qed.

Lemma comp_spec s a b : comp s = (a, b) ->
  s = a ++ b /\ Forall (fun c => ~ is_slash c) a
  /\ (b = [] \/ exists t, b = 47 :: t) /\ (forall c t, s = c :: t -> c <> 47 -> a <> []).
Proof.
  revert a b. induction s as [|c s IH]; intros a b H; cbn [comp] in H.
  - injection H as <- <-. repeat split; auto. intros; discriminate.
  - destruct (N.eqb_spec c 47) as [->|Hn].
    + injection H as <- <-. repeat split; auto; [right; eauto|].
      intros c t [= <- <-] Hc. congruence.
    + destruct (comp s) as [a' b'] eqn:E. injection H as <- <-.
      destruct (IH _ _ eq_refl) as [H1 [H2 [H3 _]]]. subst s.
      repeat split; auto; [|discriminate].
      constructor; auto. intros [H|[]]. congruence.
Qed.

Lemma lenN_le_length {A} (a b : list A) : lenN a = lenN b -> length a = length b.
Proof. unfold lenN. lia. Qed.

Lemma split_exists (P : byte -> Prop) (dec : forall c, {P c} + {~ P c}) s :
  exists fs, split_of P s fs.
Proof.
  assert (H : forall s cur, Forall (fun c => ~ P c) cur -> exists fs, split_of P (cur ++ s) fs).
  { clear s. induction s as [|c s IH]; intros cur Hc.
    - rewrite app_nil_r. destruct cur as [|x cur]; [exists []; constructor; constructor|].
      exists [x :: cur]. rewrite <- (app_nil_r (x :: cur)).
      change ((x :: cur) ++ []) with ([] ++ (x :: cur) ++ []).
      rewrite app_nil_r at 2. apply FCons; auto; [discriminate|constructor; constructor].
    - destruct (dec c) as [Hs|Hs].
      + destruct (IH [] (Forall_nil _)) as [fs Hfs]. cbn [app] in Hfs.
        destruct cur as [|x cur].
        * exists fs. cbn [app]. now apply split_of_sep.
        * exists ((x :: cur) :: fs). change ((x :: cur) ++ c :: s) with ([] ++ (x :: cur) ++ c :: s).
          apply FCons; auto; [discriminate|right; eauto|now apply split_of_sep].
      + replace (cur ++ c :: s) with ((cur ++ [c]) ++ s) by (rewrite <- app_assoc; reflexivity).
        apply IH. apply Forall_app. auto. }
  apply (H s []). constructor.
Qed.

Lemma slash_dec c : {is_slash c} + {~ is_slash c}.
Proof. apply (in_dec N.eq_dec). Qed.

Lemma split_head g a b fs :
  Forall is_slash g -> a <> [] -> Forall (fun c => ~ is_slash c) a ->
  (b = [] \/ exists t, b = 47 :: t) ->
  split_of is_slash (g ++ a ++ b) fs -> exists fs', fs = a :: fs' /\ split_of is_slash b fs'.
Proof.
  intros Hg Ha Hn Hb H. destruct (split_exists is_slash slash_dec b) as [fs' Hfs'].
  exists fs'. split; [|exact Hfs'].
  eapply split_of_unique; [exact H|]. apply FCons; auto.
  destruct Hb as [|[t ->]]; [now left|right; exists 47, t; split; [reflexivity|now left]].
Qed.

Lemma split_slashes g fs : Forall is_slash g -> split_of is_slash g fs -> fs = [].
Proof. intros Hg H. eapply split_of_unique; [exact H|now constructor]. Qed.

Lemma split_of_slashes g s fs :
  Forall is_slash g -> split_of is_slash s fs -> split_of is_slash (g ++ s) fs.
Proof. intros Hg H. induction Hg; cbn [app]; [exact H|]. now apply split_of_sep. Qed.

Lemma psw_ok fuel : forall path prefix ps qs,
  (length prefix < fuel)%nat ->
  split_of is_slash path ps -> split_of is_slash prefix qs ->
  exists r, psw_loop fuel path prefix = Done r /\
    match r with
    | Some rest => exists rs g, ps = qs ++ rs /\ split_of is_slash rest rs
                     /\ path = g ++ rest /\ (forall t, rest <> 47 :: t)
    | None => forall rs, ps <> qs ++ rs
    end.
Proof.
  induction fuel as [|fuel IH]; intros path prefix ps qs Hf Hp Hq; [lia|].
  cbn [psw_loop].
  destruct (skip_slash_spec path) as [g1 [E1 [G1 T1]]].
  destruct (skip_slash_spec prefix) as [g2 [E2 [G2 T2]]].
  remember (skip_slash path) as p eqn:Dp. remember (skip_slash prefix) as q eqn:Dq.
  clear Dp Dq. destruct q as [|d q].
  - rewrite app_nil_r in E2. subst prefix.
    rewrite (split_slashes _ _ G2 Hq) in *.
    exists (Some p). split; [destruct p; reflexivity|].
    destruct (split_exists is_slash slash_dec p) as [rs Hrs].
    exists ps, g1. cbn [app]. split; [reflexivity|].
    assert (ps = rs).
    { eapply split_of_unique; [exact Hp|]. rewrite E1. now apply split_of_slashes. }
    subst rs. split; [exact Hrs|]. split; [exact E1|].
    intros t Ht. destruct T1 as [T1|[c [t' [T1 Hc]]]]; congruence.
  - destruct T2 as [T2|[c2 [t2 [T2 Hc2]]]]; [discriminate|]. injection T2 as <- <-.
    destruct p as [|c p].
    + exists None. split; [reflexivity|]. rewrite app_nil_r in E1. subst path.
      rewrite (split_slashes _ _ G1 Hp) in *. intros rs H.
      destruct (comp (d :: q)) as [b q'] eqn:Cq. destruct (comp_spec _ _ _ Cq) as [S2 [N2 [B2 L2]]].
      rewrite E2, S2 in Hq.
      destruct (split_head _ _ _ _ G2 (L2 _ _ eq_refl Hc2) N2 B2 Hq) as [qs' [-> _]]. discriminate.
    + destruct T1 as [T1|[c1 [t1 [T1 Hc1]]]]; [discriminate|]. injection T1 as <- <-.
      destruct (comp (c :: p)) as [a p'] eqn:Cp. destruct (comp (d :: q)) as [b q'] eqn:Cq.
      destruct (comp_spec _ _ _ Cp) as [S1 [N1 [B1 L1]]].
      destruct (comp_spec _ _ _ Cq) as [S2 [N2 [B2 L2]]].
      specialize (L1 _ _ eq_refl Hc1). specialize (L2 _ _ eq_refl Hc2).
      rewrite E1, S1 in Hp. rewrite E2, S2 in Hq.
      destruct (split_head _ _ _ _ G1 L1 N1 B1 Hp) as [ps' [-> Hp']].
      destruct (split_head _ _ _ _ G2 L2 N2 B2 Hq) as [qs' [-> Hq']].
      destruct (negb (lenN a =? lenN b) || negb (beq a b)) eqn:Eab.
      * exists None. split; [reflexivity|]. intros rs [= Hab _]. subst b.
        rewrite N.eqb_refl in Eab. rewrite (proj2 (beq_eq a a) eq_refl) in Eab. discriminate.
      * apply orb_false_iff in Eab as [_ Eab]. apply negb_false_iff, beq_eq in Eab. subst b.
        destruct (IH p' q' ps' qs') as [r [Hr Hres]]; auto.
        { rewrite E2, S2 in Hf. rewrite !app_length in Hf.
          destruct a; [congruence|]. cbn [length] in Hf. lia. }
        exists r. split; [exact Hr|]. destruct r as [rest|].
        -- destruct Hres as [rs [g [-> [H1 [-> H2]]]]]. exists rs, (g1 ++ a ++ g).
           repeat split; auto. rewrite E1, S1. rewrite <- !app_assoc. reflexivity.
        -- intros rs [= H]. eapply Hres; exact H.
Qed.

Lemma absolute_rooted s : absolute s = true <-> rooted s.
Proof.
  unfold absolute, rooted. destruct s as [|c t]; [split; [discriminate|intros [t H]; discriminate]|]. split.
  - intros H. exists t. f_equal. destruct (N.eq_dec c 47) as [|C]; [assumption|]. exfalso. revert H C. destruct c as [|p]; [discriminate|]. do 6 (destruct p as [p|p|]; try discriminate). intros _ C. apply C. reflexivity.
  - intros [u [= -> ->]]. reflexivity.
Qed.
Lemma path_startswith_ok path prefix ps qs :
  split_of is_slash path ps -> split_of is_slash prefix qs ->
  exists r, path_startswith (S (length prefix)) path prefix = Done r /\
    match r with
    | Some rest => (rooted path <-> rooted prefix) /\
        exists rs g, ps = qs ++ rs /\ split_of is_slash rest rs
          /\ path = g ++ rest /\ (forall t, rest <> 47 :: t)
    | None => ~ (rooted path <-> rooted prefix) \/ forall rs, ps <> qs ++ rs
    end.
Proof.
  intros Hp Hq. unfold path_startswith.
  destruct (Bool.eqb (absolute path) (absolute prefix)) eqn:E; cbn [negb].
  - apply Bool.eqb_prop in E. assert (R : rooted path <-> rooted prefix) by (rewrite <- !absolute_rooted, E; reflexivity).
    destruct (psw_ok (S (length prefix)) path prefix ps qs ltac:(lia) Hp Hq) as [r [Hr H]].
    exists r. split; [exact Hr|]. destruct r; auto.
  - exists None. split; [reflexivity|]. left. rewrite <- !absolute_rooted. apply Bool.eqb_false_iff in E. destruct (absolute path), (absolute prefix); intuition congruence.
Qed.
