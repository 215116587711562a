(** Proofs about making directories: the whole run. *)
From Verif Require Import Base Split_Model Split_Spec Split_Proofs Mkdir_Model Mkdir_Spec Mkdir_Proofs.
Local Open Scope list_scope.

(** ** The parts of a path *)
Lemma before_none path : before_last path = None -> ~ In 47 path.
Proof.
  induction path as [|c t IH]; cbn [before_last]; [intros _ []|]. destruct (before_last t); [discriminate|]. destruct (N.eqb_spec c 47); [discriminate|]. intros _ [E|E]; [congruence|now apply IH].
Qed.
Lemma before_some path : forall d, before_last path = Some d -> exists w, path = d ++ 47 :: w /\ ~ In 47 w.
Proof.
  induction path as [|c t IH]; intros d; cbn [before_last]; [discriminate|]. destruct (before_last t) as [d'|] eqn:E.
  - injection 1 as <-. destruct (IH _ eq_refl) as (w & -> & H). exists w. auto.
  - destruct (N.eqb_spec c 47) as [->|]; [|discriminate]. injection 1 as <-. exists t. split; [reflexivity|]. now apply before_none.
Qed.
Lemma names_one w : ~ In 47 w -> names w = [] \/ exists n, names w = [n].
Proof. intros H. destruct w as [|x w]; [now left|]. right. exists (x :: w). apply names_word; [exact H|discriminate]. Qed.
Lemma parts path d : before_last path = Some d -> d <> [] -> absolute d = absolute path /\ (names path = names d \/ exists n, names path = names d ++ [n]).
Proof.
  intros B ND. destruct (before_some _ _ B) as (w & -> & H). split; [destruct d; [contradiction|reflexivity]|]. rewrite names_cut. destruct (names_one w H) as [->|(n & ->)]; [left; apply app_nil_r|eauto].
Qed.
Lemma parts_none path : (before_last path = None \/ before_last path = Some []) -> names path = [] \/ exists n, names path = [n].
Proof.
  intros [B|B]; [apply names_one; now apply before_none|]. destruct (before_some _ _ B) as (w & -> & H). exact (names_one w H).
Qed.

Section Run.
Context (deny : loc -> N) (cwd : loc) (prefix : option (list byte)) (mode : N).
Notation climb := (climb deny prefix mode).
Lemma whole_climb f path : parents_loop deny cwd prefix mode (S (length path)) f (slashes path) (skip_slash path) = Some (climb (absolute path) (base cwd path) f [] (names path)).
Proof.
  destruct (slashes_spec path) as [SE SF]. assert (NS : names (slashes path) = []) by now apply names_slashes.
  destruct (skip_slash path) as [|y p] eqn:P.
  - rewrite app_nil_r in SE. rewrite <- SE in NS. rewrite NS. reflexivity.
  - assert (NY : y <> 47). { destruct (skip_slash_spec path) as (g & _ & _ & [T|(z & t & T & Hz)]); rewrite P in T; [discriminate|]. injection T as -> _. exact Hz. }
    rewrite (loop_climb deny cwd prefix mode path); [replace (names path) with (names (slashes path) ++ names (y :: p)) by (rewrite <- (names_open _ _ (open_slashes _ SF)); now rewrite <- SE); rewrite NS; reflexivity|exact SE|now apply open_slashes|discriminate|intros t [= E _]; contradiction|].
    assert (length path = length (slashes path) + length (y :: p))%nat by (rewrite SE at 1; apply app_length). lia.
Qed.
Definition held path : bool := match prefix with Some q => starts_with path q | None => true end.
Lemma held_spec path : held path = true <-> inside prefix path (names path).
Proof.
  unfold held, inside. destruct prefix as [q|]; [|tauto]. rewrite starts_spec. split.
  - intros (R & rs & E). split; [tauto|]. exists (names q), rs. split; [apply names_named|exact E].
  - intros (R & qs & rs & Q & E). apply named_names in Q. subst qs. split; [tauto|eauto].
Qed.
(** The ways through shl__mkdir_parents. *)
Lemma parents_cases f path : exists r f1, mkdir_parents deny cwd prefix mode f path = Some (r, f1) /\
  ((held path = false /\ r = ENOTDIR /\ f1 = f) \/
   (held path = true /\ (before_last path = None \/ before_last path = Some []) /\ r = 0 /\ f1 = f) \/
   (held path = true /\ exists d, before_last path = Some d /\ d <> [] /\ stat f cwd d = inl true /\ r = 0 /\ f1 = f) \/
   (held path = true /\ exists d, before_last path = Some d /\ d <> [] /\ stat f cwd d = inl false /\ r = ENOTDIR /\ f1 = f) \/
   (held path = true /\ exists d e, before_last path = Some d /\ d <> [] /\ stat f cwd d = inr e /\ (r, f1) = climb (absolute path) (base cwd path) f [] (names path))).
Proof.
  unfold mkdir_parents. fold (held path). destruct (held path); cbn [negb]; [|do 2 eexists; split; [reflexivity|left; auto]].
  destruct (before_last path) as [d|] eqn:B; [|do 2 eexists; split; [reflexivity|right; left; auto]].
  destruct d as [|x d]; [do 2 eexists; split; [reflexivity|right; left; auto]|]. assert (x :: d <> []) by discriminate.
  destruct (stat f cwd (x :: d)) as [[]|e] eqn:S.
  - do 2 eexists; split; [reflexivity|]. right; right; left. split; [reflexivity|]. exists (x :: d). auto.
  - do 2 eexists; split; [reflexivity|]. right; right; right; left. split; [reflexivity|]. exists (x :: d). auto.
  - rewrite whole_climb. destruct (climb _ _ _ _ _) as [r f1]. exists r, f1. split; [reflexivity|]. right; right; right; right. split; [reflexivity|]. exists (x :: d), e. auto.
Qed.
Lemma climb_grows abs b : forall rs f ds r f', climb abs b f ds rs = (r, f') -> grows mode f f'.
Proof.
  induction rs as [|c rs IH]; intros f ds r f'; [injection 1 as <- <-; apply grows_refl|]. destruct rs as [|x rs]; [injection 1 as <- <-; apply grows_refl|].
  rewrite climb_more. destruct (skips _ _ _); [apply IH|]. destruct (mkdir_names _ _ _ _ _) as [r1 f1] eqn:M. apply mkdir_grows in M.
  destruct (negb (r1 =? 0) && negb (r1 =? EEXIST)); [injection 1 as <- <-; exact M|]. intros C. apply IH in C. eapply grows_trans; eauto.
Qed.
Lemma parents_grows f path r f' : mkdir_parents deny cwd prefix mode f path = Some (r, f') -> grows mode f f'.
Proof.
  intros H. destruct (parents_cases f path) as (r1 & f1 & E & C). rewrite H in E. injection E as <- <-.
  destruct C as [(_ & _ & ->)|[(_ & _ & _ & ->)|[(_ & d & _ & _ & _ & _ & ->)|[(_ & d & _ & _ & _ & _ & ->)|(_ & d & e & _ & _ & _ & K)]]]]; try apply grows_refl. symmetry in K. eapply climb_grows; eauto.
Qed.
(** The whole. *)
Lemma mkdir_p_cases f path : exists r f', mkdir_p deny cwd prefix mode f path = Some (r, f') /\
  exists r1 f1, mkdir_parents deny cwd prefix mode f path = Some (r1, f1) /\
  ((r1 <> 0 /\ r = r1 /\ f' = f1) \/
   (r1 = 0 /\ exists r2, mkdir deny f1 cwd path mode = (r2, f') /\
     ((r2 <> EEXIST /\ r = r2) \/ (r2 = EEXIST /\ match stat f' cwd path with inl true => r = 0 | inl false => r = EEXIST | inr e => r = e end)))).
Proof.
  unfold mkdir_p. destruct (parents_cases f path) as (r1 & f1 & E & _). rewrite E. destruct (N.eqb_spec r1 0) as [Z|Z]; cbn [negb].
  2:{ do 2 eexists. split; [reflexivity|]. exists r1, f1. split; [reflexivity|]. left. auto. }
  destruct (mkdir deny f1 cwd path mode) as [r2 f2] eqn:M. destruct (N.eqb_spec r2 0) as [Y|Y].
  { do 2 eexists. split; [reflexivity|]. exists r1, f1. split; [reflexivity|]. right. split; [exact Z|]. exists r2. split; [exact M|]. left. subst r2. split; [discriminate|reflexivity]. }
  destruct (N.eqb_spec r2 EEXIST) as [X|X]; cbn [negb].
  2:{ do 2 eexists. split; [reflexivity|]. exists r1, f1. split; [reflexivity|]. right. split; [exact Z|]. exists r2. split; [exact M|]. left. auto. }
  destruct (stat f2 cwd path) as [[]|e] eqn:S; (do 2 eexists; split; [reflexivity|]; exists r1, f1; split; [reflexivity|]; right; split; [exact Z|]; exists r2; split; [exact M|]; right; rewrite S; auto).
Qed.
Lemma mkdir_is f path : path <> [] -> mkdir deny f cwd path mode = mkdir_names deny f (base cwd path) (names path) mode.
Proof. destruct path; [contradiction|reflexivity]. Qed.
Lemma stat_is f path : path <> [] -> stat f cwd path =
  match walk f (base cwd path) (names path) with inr e => inr e | inl l => match f l with None => inr ENOENT | Some (Dir _) => inl true | Some File => if trailing path then inr ENOTDIR else inl false end end.
Proof. destruct path; [contradiction|reflexivity]. Qed.
Lemma stat_directory f path : stat f cwd path = inl true -> directory f cwd path.
Proof.
  intros S. assert (path <> []) by (intros ->; discriminate S). rewrite stat_is in S by assumption. destruct (walk _ _ _) as [l|e] eqn:W; [|discriminate].
  destruct (f l) as [[m|]|] eqn:D; [|destruct (trailing path); discriminate|discriminate]. exists (names path), (base cwd path), l. split; [apply names_named|]. split; [apply base_begins|].
  split; [now apply walk_leads|exists m; exact D].
Qed.
Lemma makes f path f' : mkdir_p deny cwd prefix mode f path = Some (0, f') -> directory f' cwd path.
Proof.
  intros H. destruct (mkdir_p_cases f path) as (r & f2 & E & r1 & f1 & P & C). rewrite H in E. injection E as <- <-. destruct C as [(Z & <- & _)|(_ & r2 & M & [(X & <-)|(X & S)])]; [contradiction| |].
  - assert (path <> []) by (intros ->; discriminate M). rewrite mkdir_is in M by assumption. destruct (mkdir_leads _ _ _ _ _ _ M) as (d & L & D).
    exists (names path), (base cwd path), d. split; [apply names_named|]. split; [apply base_begins|]. auto.
  - apply stat_directory. destruct (stat f' cwd path) as [[]|e] eqn:T; [reflexivity|discriminate S|]. subst e. exfalso.
    destruct path as [|x path]; [subst r2; discriminate M|]. rewrite stat_is in T by discriminate. clear -T. destruct (walk f' _ _) as [l|e] eqn:W.
    + destruct (f' l) as [[]|]; try discriminate. destruct (trailing _); discriminate T.
    + injection T as ->. revert W. generalize (base cwd (x :: path)). induction (names (x :: path)) as [|n ns IH]; intros b; cbn [walk]; [discriminate|].
      destruct (f' b) as [[]|]; [apply IH|discriminate|discriminate].
Qed.
Lemma only_grows f path r f' : mkdir_p deny cwd prefix mode f path = Some (r, f') -> grows mode f f'.
Proof.
  intros H. destruct (mkdir_p_cases f path) as (r0 & f2 & E & r1 & f1 & P & C). rewrite H in E. injection E as <- <-. apply parents_grows in P. destruct C as [(_ & _ & ->)|(_ & r2 & M & _)]; [exact P|].
  eapply grows_trans; [exact P|]. destruct path as [|x path]; [injection M as _ <-; apply grows_refl|]. rewrite mkdir_is in M by discriminate. eapply mkdir_grows; eauto.
Qed.
Lemma total f path : exists r f', mkdir_p deny cwd prefix mode f path = Some (r, f').
Proof. destruct (mkdir_p_cases f path) as (r & f' & E & _). eauto. Qed.
Lemma outside f path : ~ inside prefix path (names path) -> mkdir_p deny cwd prefix mode f path = Some (ENOTDIR, f).
Proof.
  intros H. unfold mkdir_p, mkdir_parents. fold (held path). destruct (held path) eqn:E; [apply held_spec in E; contradiction|]. reflexivity.
Qed.
Lemma outside_named f path ns : named path ns -> ~ inside prefix path ns -> mkdir_p deny cwd prefix mode f path = Some (ENOTDIR, f).
Proof. intros Q. apply named_names in Q. subst ns. apply outside. Qed.

(** ** Where *)
Lemma skips_below abs ms rs0 q : prefix = Some q -> absolute q = abs -> (exists rs, ms ++ rs0 = names q ++ rs) -> skips prefix abs ms = false -> lenN (names q) < lenN ms.
Proof.
  intros -> A (rs & E). unfold skips. match goal with |- context [list_eq_dec ?d ?x ?y] => destruct (list_eq_dec d x y) as [F|F] end; [rewrite A, Bool.eqb_reflx; discriminate|]. intros _.
  unfold lenN. assert (~ (length ms <= length (names q))%nat); [|lia]. intros L. apply F. assert (G : firstn (length ms) (ms ++ rs0) = firstn (length ms) (names q ++ rs)) by now rewrite E.
  rewrite !firstn_app, firstn_all, Nat.sub_diag in G. replace (length ms - length (names q))%nat with O in G by lia. cbn [firstn] in G. rewrite !app_nil_r in G. now symmetry.
Qed.
Lemma climb_where abs b l : forall rs f ds r f', plain (ds ++ rs) -> climb abs b f ds rs = (r, f') -> f' l <> f l ->
  exists ms rest, rs = ms ++ rest /\ ms <> [] /\ rest <> [] /\ l = rev (ds ++ ms) ++ b /\ skips prefix abs (ds ++ ms) = false.
Proof.
  induction rs as [|c rs IH]; intros f ds r f' PL; [injection 1 as <- <-; contradiction|]. destruct rs as [|x rs]; [injection 1 as <- <-; contradiction|].
  rewrite climb_more. change (c :: x :: rs) with ([c] ++ x :: rs) in *. rewrite app_assoc in PL.
  assert (K : forall f0, climb abs b f0 (ds ++ [c]) (x :: rs) = (r, f') -> f' l <> f0 l -> exists ms rest, [c] ++ x :: rs = ms ++ rest /\ ms <> [] /\ rest <> [] /\ l = rev (ds ++ ms) ++ b /\ skips prefix abs (ds ++ ms) = false).
  { intros f0 C D. destruct (IH f0 _ _ _ PL C D) as (ms & rest & E & N1 & N2 & L & S). exists ([c] ++ ms), rest. rewrite E. repeat split; auto; try discriminate; now rewrite app_assoc. }
  destruct (skips prefix abs (ds ++ [c])) eqn:SK; [apply K|]. destruct (mkdir_names _ _ _ _ _) as [r1 f1] eqn:M.
  assert (P1 : plain (ds ++ [c])) by (apply Forall_app in PL; tauto).
  assert (W : f1 l <> f l -> exists ms rest, [c] ++ x :: rs = ms ++ rest /\ ms <> [] /\ rest <> [] /\ l = rev (ds ++ ms) ++ b /\ skips prefix abs (ds ++ ms) = false).
  { intros D. exists [c], (x :: rs). repeat split; auto; try discriminate. eapply mkdir_where; eauto. }
  destruct (negb (r1 =? 0) && negb (r1 =? EEXIST)); [injection 1 as <- <-; exact W|]. intros C D.
  assert (DE : {f1 l = f l} + {f1 l <> f l}) by (decide equality; decide equality; apply N.eq_dec). destruct DE as [DE|DE]; [|now apply W]. apply (K f1 C). congruence.
Qed.
Lemma places f path r f' ns b l : named path ns -> begins_at cwd path b -> plain ns -> mkdir_p deny cwd prefix mode f path = Some (r, f') -> f' l <> f l ->
  inside prefix path ns /\ exists ms rest, ns = ms ++ rest /\ ms <> [] /\ l = rev ms ++ b /\ (rest = [] \/ below prefix ms).
Proof.
  intros Q B PL H D. apply named_names in Q. apply begins_base in B. subst ns b.
  destruct (held path) eqn:HE.
  2:{ exfalso. rewrite outside in H by (rewrite <- held_spec; congruence). injection H as <- <-. now apply D. }
  apply held_spec in HE. split; [exact HE|]. destruct (mkdir_p_cases f path) as (r0 & f2 & E & r1 & f1 & P & C). rewrite H in E. injection E as <- <-.
  assert (PW : f1 l <> f l -> exists ms rest, names path = ms ++ rest /\ ms <> [] /\ l = rev ms ++ base cwd path /\ (rest = [] \/ below prefix ms)).
  { intros D1. destruct (parents_cases f path) as (r2 & f2 & E & K). rewrite P in E. injection E as <- <-.
    destruct K as [(_ & _ & ->)|[(_ & _ & _ & ->)|[(_ & d & _ & _ & _ & _ & ->)|[(_ & d & _ & _ & _ & _ & ->)|(_ & d & e & _ & _ & _ & K)]]]]; try contradiction. symmetry in K.
    destruct (climb_where _ _ l _ _ [] _ _ PL K D1) as (ms & rest & E & N1 & N2 & L & S). cbn [app] in L, S. exists ms, rest. repeat split; auto. right.
    unfold below. destruct prefix as [q|] eqn:PQ; [|exact I]. intros qs QS. apply named_names in QS. subst qs. rewrite <- PQ in S. destruct HE as (RR & qs & rs & Q & HE). apply named_names in Q. subst qs.
    eapply skips_below; [exact PQ| |exists rs; rewrite <- E; exact HE|exact S]. apply eq_iff_eq_true. rewrite !absolute_rooted. exact RR. }
  assert (DE : {f1 l = f l} + {f1 l <> f l}) by (decide equality; decide equality; apply N.eq_dec). destruct DE as [DE|DE]; [|now apply PW].
  destruct C as [(_ & _ & ->)|(_ & r2 & M & _)]; [contradiction|]. destruct path as [|x path]; [injection M as _ <-; contradiction|]. rewrite mkdir_is in M by discriminate.
  assert (D2 : f' l <> f1 l) by congruence. assert (L := mkdir_where _ _ _ _ _ _ _ _ PL M D2). exists (names (x :: path)), []. rewrite app_nil_r. repeat split; auto. intros Z. rewrite Z in M. injection M as _ <-. now apply D2.
Qed.
End Run.
