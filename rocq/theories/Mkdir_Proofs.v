(** Proofs about making directories. *)
From Verif Require Import Base Split_Model Split_Spec Split_Proofs Mkdir_Model Mkdir_Spec.
Local Open Scope list_scope.

(** ** Names *)
Lemma names_named path : named path (names path).
Proof. exact (split_loop_of [47] path [] (Forall_nil _)). Qed.
Lemma named_names path ns : named path ns -> ns = names path.
Proof. intros H. eapply split_of_unique; [exact H|apply names_named]. Qed.
Lemma split_cut s : forall cur t, split_loop [47] (s ++ 47 :: t) cur = split_loop [47] s cur ++ split_loop [47] t [].
Proof.
  induction s as [|c s IH]; intros cur t; cbn [app split_loop].
  - change (sep_hit 47 [47]) with true. cbv iota. destruct cur; reflexivity.
  - destruct (sep_hit c [47]); [|apply IH]. destruct cur; rewrite IH; reflexivity.
Qed.
Lemma names_cut s t : names (s ++ 47 :: t) = names s ++ names t. Proof. apply split_cut. Qed.
Lemma split_word c : forall cur, ~ In 47 c -> split_loop [47] c cur = match cur ++ c with [] => [] | w => [w] end.
Proof.
  induction c as [|x c IH]; intros cur H; cbn [split_loop]; [rewrite app_nil_r; destruct cur; reflexivity|].
  replace (sep_hit x [47]) with false.
  2:{ symmetry. apply not_true_iff_false. rewrite sep_hit_iff. intros [E|[]]. apply H. left. congruence. }
  rewrite IH by (intros I; apply H; now right). now rewrite <- app_assoc.
Qed.
Lemma names_word c : ~ In 47 c -> c <> [] -> names c = [c].
Proof. intros H N. unfold names. rewrite split_word by exact H. cbn [app]. destruct c; [contradiction|reflexivity]. Qed.
Lemma names_slashes g : Forall (fun c => c = 47) g -> names g = [].
Proof. induction 1 as [|c g -> H IH]; [reflexivity|]. exact IH. Qed.
(** Texts that end where a name may begin. *)
Definition open (s : list byte) : Prop := s = [] \/ exists t, s = t ++ [47].
Lemma names_open s t : open s -> names (s ++ t) = names s ++ names t.
Proof. intros [->|(u & ->)]; [reflexivity|]. rewrite <- app_assoc. cbn [app]. rewrite !names_cut. cbn. now rewrite app_nil_r. Qed.
Lemma open_app s g : open s -> Forall (fun c => c = 47) g -> open (s ++ g).
Proof.
  intros O H. destruct g as [|x g] using rev_ind; [now rewrite app_nil_r|]. right. exists (s ++ g). apply Forall_app in H as [_ H]. inversion H; subst. now rewrite app_assoc.
Qed.
Lemma open_slashes g : Forall (fun c => c = 47) g -> open g. Proof. apply (open_app []). now left. Qed.
Lemma slash_list g : Forall is_slash g -> Forall (fun c => c = 47) g.
Proof. intros H. eapply Forall_impl; [|exact H]. intros c [E|[]]. now symmetry. Qed.
Lemma slashes_spec s : s = slashes s ++ skip_slash s /\ Forall (fun c => c = 47) (slashes s).
Proof.
  destruct (skip_slash_spec s) as (g & E & H & _). unfold slashes. generalize dependent (skip_slash s). intros r ->. rewrite lenN_app.
  replace (lenN g + lenN r - lenN r) with (lenN g) by lia. rewrite takeN_app, takeN_all, N.sub_diag, takeN_0, app_nil_r by lia. split; [reflexivity|now apply slash_list].
Qed.
Lemma rooted_dec path : {rooted path} + {~ rooted path}.
Proof. destruct (absolute path) eqn:E; [left|right]; rewrite <- absolute_rooted; congruence. Qed.
Lemma base_begins cwd path : begins_at cwd path (base cwd path).
Proof. unfold base, begins_at. rewrite <- absolute_rooted. destruct (absolute path); [left|right]; split; auto. Qed.
Lemma begins_base cwd path b : begins_at cwd path b -> b = base cwd path.
Proof. unfold base, begins_at. rewrite <- absolute_rooted. destruct (absolute path); intros [[A ->]|[A ->]]; congruence. Qed.
(** ** The kernel *)
Lemma beq_false a b : beq a b = false <-> a <> b. Proof. rewrite <- not_true_iff_false, beq_eq. tauto. Qed.
Lemma walk_leads f : forall ns l d, walk f l ns = inl d -> leads f l ns d.
Proof.
  induction ns as [|n ns IH]; intros l d; cbn [walk]; [injection 1 as ->; constructor|]. destruct (f l) as [[m|]|] eqn:E; try discriminate. intros W.
  assert (D : is_dir f l) by (exists m; exact E). unfold at_name in W. destruct (beq n [46]) eqn:B1; [apply beq_eq in B1; subst; constructor; auto|].
  destruct (beq n [46; 46]) eqn:B2; [apply beq_eq in B2; subst; constructor; auto|]. apply beq_false in B1, B2. apply LDown; auto.
Qed.
Lemma walk_mono (f f' : fs) : (forall l m, f l = Some m -> f' l = Some m) -> forall ns l d, walk f l ns = inl d -> walk f' l ns = inl d.
Proof.
  intros G. induction ns as [|n ns IH]; intros l d; cbn [walk]; [auto|]. destruct (f l) as [[m|]|] eqn:E; try discriminate. rewrite (G _ _ E). apply IH.
Qed.
Lemma walk_app f ms : forall l ns, walk f l (ms ++ ns) = match walk f l ms with inl d => walk f d ns | inr e => inr e end.
Proof. induction ms as [|m ms IH]; intros l ns; cbn [app walk]; [reflexivity|]. destruct (f l) as [[?|]|]; auto. Qed.
Lemma walk_plain f : forall ns l d, plain ns -> walk f l ns = inl d -> d = rev ns ++ l.
Proof.
  induction ns as [|n ns IH]; intros l d P; cbn [walk]; [injection 1 as ->; reflexivity|]. inversion P as [|? ? [P1 P2] P3]; subst. destruct (f l) as [[m|]|]; try discriminate.
  unfold at_name. apply beq_false in P1, P2. rewrite P1, P2. intros W. apply IH in W; [|exact P3]. cbn [rev]. now rewrite <- app_assoc.
Qed.
Lemma grows_refl mode f : grows mode f f. Proof. intros l. now left. Qed.
Lemma grows_trans mode f g h : grows mode f g -> grows mode g h -> grows mode f h.
Proof. intros A B l. destruct (A l) as [E|[E F]], (B l) as [G|[G H]]; [left|right|right|]; rewrite ?G, ?E in *; auto; congruence. Qed.
Lemma grows_keeps mode f f' : grows mode f f' -> forall l m, f l = Some m -> f' l = Some m.
Proof. intros G l m E. destruct (G l) as [->|[F _]]; congruence. Qed.
Lemma grows_dir mode f f' l : grows mode f f' -> is_dir f l -> is_dir f' l.
Proof. intros G [m E]. exists m. eapply grows_keeps; eauto. Qed.
Lemma loc_eqb_spec a b : loc_eqb a b = true <-> a = b.
Proof. unfold loc_eqb. destruct (list_eq_dec (list_eq_dec N.eq_dec) a b); split; congruence. Qed.
Lemma split_last {A} (ns : list A) n l : rev ns = n :: l -> ns = removelast ns ++ [n].
Proof. intros E. assert (X : ns = rev l ++ [n]) by (rewrite <- (rev_involutive ns), E; reflexivity). rewrite X at 1 2. now rewrite removelast_last. Qed.

Section Kernel.
Context (deny : loc -> N) (mode : N).
(** What mkdir does: nothing with an error, or a directory at the end. *)
Lemma mkdir_does f b ns r f' : mkdir_names deny f b ns mode = (r, f') ->
  (r <> 0 /\ f' = f) \/
  (r = 0 /\ exists d n, ns = removelast ns ++ [n] /\ walk f b (removelast ns) = inl d /\ is_dir f d /\ n <> [46] /\ n <> [46; 46] /\ f (n :: d) = None
   /\ (forall x, f' x = if loc_eqb x (n :: d) then Some (Dir mode) else f x)).
Proof.
  unfold mkdir_names. destruct (rev ns) as [|n l] eqn:R; [injection 1 as <- <-; left; split; [discriminate|reflexivity]|].
  destruct (walk f b (removelast ns)) as [d|e] eqn:W.
  2:{ injection 1 as <- <-. left. split; [|reflexivity]. clear -W. revert b W. induction (removelast ns) as [|m ms IH]; intros b; cbn [walk]; [discriminate|].
      destruct (f b) as [[?|]|]; [apply IH|injection 1 as <-; discriminate|injection 1 as <-; discriminate]. }
  destruct (f d) as [[m|]|] eqn:D; [|injection 1 as <- <-; left; split; [discriminate|reflexivity]..].
  destruct (beq n [46] || beq n [46; 46]) eqn:B; [injection 1 as <- <-; left; split; [discriminate|reflexivity]|].
  destruct (f (n :: d)) eqn:E; [injection 1 as <- <-; left; split; [discriminate|reflexivity]|].
  destruct (N.eqb_spec (deny (n :: d)) 0) as [Z|Z]; injection 1 as <- <-; [right|left; auto]. split; [reflexivity|]. exists d, n. apply orb_false_iff in B as [B1 B2].
  split; [eapply split_last; eauto|]. split; [reflexivity|]. split; [exists m; exact D|]. apply beq_false in B1, B2. auto.
Qed.
Lemma mkdir_grows f b ns r f' : mkdir_names deny f b ns mode = (r, f') -> grows mode f f'.
Proof.
  intros M. destruct (mkdir_does _ _ _ _ _ M) as [[_ ->]|(_ & d & n & _ & _ & _ & _ & _ & E & H)]; [apply grows_refl|]. intros x. rewrite H.
  destruct (loc_eqb x (n :: d)) eqn:L; [right|now left]. apply loc_eqb_spec in L. subst x. auto.
Qed.
Lemma mkdir_leads f b ns f' : mkdir_names deny f b ns mode = (0, f') -> exists d, leads f' b ns d /\ is_dir f' d.
Proof.
  intros M. pose proof (mkdir_grows _ _ _ _ _ M) as G. destruct (mkdir_does _ _ _ _ _ M) as [[R _]|(_ & d & n & S & W & D & N1 & N2 & E & H)]; [contradiction|].
  exists (n :: d). split.
  - apply walk_leads. rewrite S. rewrite walk_app, (walk_mono f f' (grows_keeps _ _ _ G) _ _ _ W). cbn [walk]. destruct (grows_dir _ _ _ _ G D) as [m ->].
    unfold at_name. apply beq_false in N1, N2. now rewrite N1, N2.
  - exists mode. rewrite H. now rewrite (proj2 (loc_eqb_spec _ _) eq_refl).
Qed.
Lemma mkdir_where f b ns r f' l : plain ns -> mkdir_names deny f b ns mode = (r, f') -> f' l <> f l -> l = rev ns ++ b.
Proof.
  intros P M N. destruct (mkdir_does _ _ _ _ _ M) as [[_ ->]|(_ & d & n & S & W & D & N1 & N2 & E & H)]; [contradiction|].
  rewrite H in N. destruct (loc_eqb l (n :: d)) eqn:L; [|contradiction]. apply loc_eqb_spec in L. subst l.
  assert (PR : plain (removelast ns)) by (rewrite S in P; apply Forall_app in P; tauto). apply walk_plain in W; [|exact PR]. subst d. rewrite S at 2. now rewrite rev_app_distr.
Qed.
End Kernel.

(** ** The loop *)
Lemma starts_spec path q : starts_with path q = true <-> (rooted path <-> rooted q) /\ exists rs, names path = names q ++ rs.
Proof.
  unfold starts_with. destruct (path_startswith_ok path q (names path) (names q) (names_named path) (names_named q)) as (r & -> & H). destruct r as [rest|].
  - split; [intros _|reflexivity]. destruct H as (R & rs & g & E & _). split; [exact R|]. eauto.
  - split; [discriminate|]. intros (R & rs & E). destruct H as [H|H]; [contradiction|]. exfalso. eapply H. exact E.
Qed.
Section Loop.
Context (deny : loc -> N) (cwd : loc) (prefix : option (list byte)) (mode : N).
Let mk := mkdir_names deny.
(** The same on names; [abs]: the path is absolute. *)
Definition skips (abs : bool) (ms : list name) : bool :=
  match prefix with Some q => if list_eq_dec (list_eq_dec N.eq_dec) (firstn (length ms) (names q)) ms then Bool.eqb (absolute q) abs else false | None => false end.
Fixpoint climb (abs : bool) (b : loc) (f : fs) (ds rs : list name) : N * fs :=
  match rs with
  | [] => (0, f)
  | c :: rs' =>
      match rs' with
      | [] => (0, f)
      | _ :: _ =>
          if skips abs (ds ++ [c]) then climb abs b f (ds ++ [c]) rs'
          else let '(r, f) := mkdir_names deny f b (ds ++ [c]) mode in if negb (r =? 0) && negb (r =? EEXIST) then (r, f) else climb abs b f (ds ++ [c]) rs'
      end
  end.
Lemma climb_more abs b f ds c x rs : climb abs b f ds (c :: x :: rs) =
  if skips abs (ds ++ [c]) then climb abs b f (ds ++ [c]) (x :: rs)
  else let '(r, f) := mkdir_names deny f b (ds ++ [c]) mode in if negb (r =? 0) && negb (r =? EEXIST) then (r, f) else climb abs b f (ds ++ [c]) (x :: rs).
Proof. reflexivity. Qed.
Lemma skips_spec t : absolute t = absolute t -> match prefix with Some q => starts_with q t | None => false end = skips (absolute t) (names t).
Proof.
  intros _. unfold skips. destruct prefix as [q|]; [|reflexivity]. apply eq_iff_eq_true. rewrite starts_spec, <- !absolute_rooted.
  match goal with |- context [list_eq_dec ?d ?x ?y] => destruct (list_eq_dec d x y) as [E|E] end.
  - assert (X : names q = names t ++ skipn (length (names t)) (names q)) by (rewrite <- E at 1; symmetry; apply firstn_skipn).
    destruct (absolute q), (absolute t); cbn; split; intuition eauto; discriminate.
  - split; [|discriminate]. intros (_ & rs & F). exfalso. apply E. rewrite F, firstn_app, firstn_all, Nat.sub_diag. cbn. apply app_nil_r.
Qed.
Lemma loop_climb path : forall fuel f done p, path = done ++ p -> open done -> p <> [] -> (forall t, p <> 47 :: t) -> (length p < fuel)%nat ->
  parents_loop deny cwd prefix mode fuel f done p = Some (climb (absolute path) (base cwd path) f (names done) (names p)).
Proof.
  induction fuel as [|fuel IH]; intros f done p EP O NP NS L; [lia|]. cbn [parents_loop]. destruct (comp p) as [c e] eqn:C.
  destruct (comp_spec _ _ _ C) as (S & NC & BE & NE).
  assert (c <> []). { destruct p as [|x p]; [contradiction|]. intros ->. cbn [comp] in C. destruct (N.eqb_spec x 47) as [->|]; [now apply (NS p)|]. destruct (comp p); discriminate C. }
  assert (WC : ~ In 47 c). { intros I. rewrite Forall_forall in NC. apply (NC 47 I). now left. }
  destruct (slashes_spec e) as [SE SF].
  assert (NPE : names p = c :: names (skip_slash e)).
  { rewrite S. destruct e as [|x e]; [rewrite app_nil_r; now rewrite names_word|]. destruct BE as [BE|(t & BE)]; [discriminate|]. injection BE as -> ->. rewrite names_cut, names_word by auto.
    cbn [app]. f_equal. change (skip_slash (47 :: t)) with (skip_slash t). destruct (slashes_spec t) as [ST SG]. rewrite ST at 1. rewrite (names_open _ _ (open_slashes _ SG)), (names_slashes _ SG). reflexivity. }
  destruct (skip_slash e) as [|y p2] eqn:P2; [rewrite NPE; reflexivity|].
  assert (AB : absolute (done ++ c) = absolute path). { rewrite EP, S. destruct done as [|z done]; [destruct c; [contradiction|reflexivity]|reflexivity]. }
  assert (NT : names (done ++ c) = names done ++ [c]) by (rewrite names_open by exact O; rewrite (names_word c) by auto; reflexivity).
  assert (NY : y <> 47). { destruct (skip_slash_spec e) as (g & _ & _ & [T|(z & t & T & Hz)]); rewrite P2 in T; [discriminate|]. injection T as -> _. exact Hz. }
  assert (NN : exists x xs, names (y :: p2) = x :: xs).
  { destruct (names (y :: p2)) as [|x xs] eqn:Q; [|eauto]. exfalso. pose proof (names_named (y :: p2)) as NM. rewrite Q in NM. inversion NM; subst. inversion H0 as [|? ? [K|[]] _]; subst. now apply NY. }
  assert (IHS : forall f, parents_loop deny cwd prefix mode fuel f ((done ++ c) ++ slashes e) (y :: p2) = Some (climb (absolute path) (base cwd path) f (names done ++ [c]) (names (y :: p2)))).
  { intros f0. rewrite IH.
    - do 2 f_equal. destruct SF as [|z g Z SF]; [now rewrite app_nil_r|]. subst z. rewrite names_cut, NT. rewrite (names_slashes _ SF). now rewrite app_nil_r.
    - rewrite EP, S, SE at 1. now rewrite <- !app_assoc.
    - destruct SF as [|z g Z SF].
      + exfalso. cbn [app] in SE. destruct BE as [BE|(t & BE)]; rewrite BE in SE; [discriminate SE|]. injection SE as <- _. now apply NY.
      + right. destruct g as [|w g _] using rev_ind; [subst z; exists (done ++ c); reflexivity|]. apply Forall_app in SF as [_ SF]. inversion SF; subst. exists ((done ++ c) ++ 47 :: g). rewrite <- !app_assoc. reflexivity.
    - discriminate.
    - intros t T. injection T as T _. contradiction.
    - assert (length p = (length c + length (slashes e) + length (y :: p2))%nat). { rewrite S, SE at 1. rewrite !app_length. lia. }
      destruct c; [contradiction|]. cbn [length] in *. lia. }
  rewrite NPE. destruct NN as (x & xs & NN). rewrite NN, climb_more. rewrite NN in IHS.
  pose proof (skips_spec (done ++ c) eq_refl) as SK. rewrite AB, NT in SK. match goal with |- context [skips ?a ?b] => replace (skips a b) with (match prefix with Some q => starts_with q (done ++ c) | None => false end) by exact SK end.
  destruct (match prefix with Some q => _ | None => _ end); [apply IHS|].
  replace (mkdir deny f cwd (done ++ c) mode) with (mkdir_names deny f (base cwd path) (names done ++ [c]) mode).
  2:{ unfold mkdir. rewrite NT. unfold base. rewrite AB. destruct (done ++ c) as [|h t] eqn:DC; [destruct done; [contradiction|discriminate DC]|reflexivity]. }
  unfold name in *. match goal with |- context [mkdir_names deny f ?b ?l mode] => destruct (mkdir_names deny f b l mode) as [r f2] end. destruct (negb (r =? 0) && negb (r =? EEXIST)); [reflexivity|apply IHS].
Qed.
End Loop.
