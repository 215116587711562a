(** Proofs about making directories: file systems in which everything is in a directory. *)
From Verif Require Import Base Split_Model Split_Spec Split_Proofs Mkdir_Model Mkdir_Spec Mkdir_Proofs Mkdir_Run.
Local Open Scope list_scope.

Lemma up_dir f ms : forall b, sound f -> f (ms ++ b) <> None -> ms <> [] -> is_dir f b.
Proof.
  induction ms as [|m ms IH]; intros b S F NM; [contradiction|]. cbn [app] in F. destruct (S _ _ F) as [d D]. destruct ms as [|m2 ms]; [exists d; exact D|].
  apply IH; [exact S|now rewrite D|discriminate].
Qed.
Lemma at_plain n l : n <> [46] -> n <> [46; 46] -> at_name l n = n :: l.
Proof. intros A B. unfold at_name. apply beq_false in A, B. now rewrite A, B. Qed.
Lemma walk_there f : forall ns b, sound f -> plain ns -> f (rev ns ++ b) <> None -> walk f b ns = inl (rev ns ++ b).
Proof.
  induction ns as [|n ns IH]; intros b S P F; [reflexivity|]. inversion P as [|? ? [P1 P2] P3]; subst. cbn [walk].
  assert (D : is_dir f b) by (apply (up_dir f (rev (n :: ns))); [exact S|exact F|intros E; apply (f_equal (@length _)) in E; rewrite rev_length in E; discriminate]).
  destruct D as [m ->]. rewrite at_plain by assumption. cbn [rev] in *. rewrite <- app_assoc in *. cbn [app] in *. now apply IH.
Qed.
Lemma plain_app a b : plain (a ++ b) <-> plain a /\ plain b. Proof. apply Forall_app. Qed.
Lemma heads {A} (a : list A) : forall b x y, a ++ x = b ++ y -> (length a <= length b)%nat -> exists z, b = a ++ z.
Proof.
  induction a as [|n a IH]; intros [|m b] x y E L; cbn [length] in L; [exists []; reflexivity|exists (m :: b); reflexivity|lia|]. injection E as -> E. destruct (IH b x y E ltac:(lia)) as (z & ->). exists z. reflexivity.
Qed.
Section Sound.
Context (deny : loc -> N) (cwd : loc) (prefix : option (list byte)) (mode : N).
Notation climb := (climb deny prefix mode).
Lemma mkdir_at f b ds c : sound f -> plain (ds ++ [c]) -> is_dir f (rev ds ++ b) ->
  mkdir_names deny f b (ds ++ [c]) mode =
  match f (c :: rev ds ++ b) with
  | Some _ => (EEXIST, f)
  | None => if deny (c :: rev ds ++ b) =? 0 then (0, fun x => if loc_eqb x (c :: rev ds ++ b) then Some (Dir mode) else f x) else (deny (c :: rev ds ++ b), f)
  end.
Proof.
  intros S P [m D]. apply plain_app in P as [P1 P2]. inversion P2 as [|? ? [Q1 Q2] _]; subst. unfold mkdir_names. rewrite rev_app_distr. cbn [rev app]. rewrite removelast_last.
  rewrite walk_there by (auto; congruence). rewrite D. apply beq_false in Q1, Q2. rewrite Q1, Q2. reflexivity.
Qed.
(** A name beyond a file, or beyond nothing. *)
Lemma walk_file f b ms x xs : sound f -> plain ms -> f (rev ms ++ b) = Some File -> walk f b (ms ++ x :: xs) = inr ENOTDIR.
Proof. intros S P F. rewrite walk_app, walk_there by (auto; congruence). cbn [walk]. now rewrite F. Qed.
Lemma mkdir_file f b ms x xs : sound f -> plain ms -> f (rev ms ++ b) = Some File -> mkdir_names deny f b (ms ++ x :: xs) mode = (ENOTDIR, f).
Proof.
  intros S P F. unfold mkdir_names. destruct (rev (ms ++ x :: xs)) as [|n t] eqn:R; [apply (f_equal (@length _)) in R; rewrite rev_length, app_length in R; cbn in R; lia|].
  rewrite removelast_app by discriminate. destruct xs as [|y xs].
  - cbn [removelast]. rewrite app_nil_r, walk_there by (auto; congruence). now rewrite F.
  - change (removelast (x :: y :: xs)) with (x :: removelast (y :: xs)). now rewrite walk_file.
Qed.
Lemma mkdir_there f b ds c : sound f -> plain (ds ++ [c]) -> f (rev (ds ++ [c]) ++ b) <> None -> mkdir_names deny f b (ds ++ [c]) mode = (EEXIST, f).
Proof.
  intros S P F. rewrite rev_app_distr in F. cbn [rev app] in F. rewrite mkdir_at; auto; [|apply (S c (rev ds ++ b)); exact F]. destruct (f (c :: rev ds ++ b)); [reflexivity|contradiction].
Qed.
Lemma climb_file abs b f ms : sound f -> plain ms -> f (rev ms ++ b) = Some File ->
  forall rs ds, plain (ds ++ rs) -> (exists xs, ds ++ rs = ms ++ xs) -> snd (climb abs b f ds rs) = f /\ (fst (climb abs b f ds rs) = 0 \/ fst (climb abs b f ds rs) = ENOTDIR).
Proof.
  intros S P F. induction rs as [|c rs IH]; intros ds PL X; [split; [reflexivity|now left]|]. destruct rs as [|y rs]; [split; [reflexivity|now left]|].
  rewrite climb_more. change (ds ++ c :: y :: rs) with (ds ++ [c] ++ y :: rs) in *. rewrite app_assoc in *. specialize (IH _ PL X). destruct (skips _ _ _); [exact IH|].
  destruct X as (xs & X). apply plain_app in PL as [PL _].
  destruct (Nat.le_gt_cases (length (ds ++ [c])) (length ms)) as [L|L].
  - destruct (heads _ _ _ _ X L) as (zs0 & E).
    rewrite mkdir_there; [cbn [N.eqb negb andb EEXIST]; exact IH|exact S|exact PL|].
    destruct zs0 as [|z zs]; [rewrite app_nil_r in E; rewrite <- E; congruence|].
    destruct (up_dir f (rev (z :: zs)) (rev (ds ++ [c]) ++ b) S) as [m D]; [|intros Q; apply (f_equal (@length _)) in Q; rewrite rev_length in Q; discriminate|congruence].
    rewrite app_assoc, <- rev_app_distr, <- E. congruence.
  - destruct (heads _ _ _ _ (eq_sym X) ltac:(lia)) as (zs0 & E).
    destruct zs0 as [|z zs]; [rewrite app_nil_r in E; rewrite E in L; lia|]. rewrite E, mkdir_file by assumption. cbn. auto.
Qed.
Lemma blocked f path r f' ns b l : sound f -> named path ns -> begins_at cwd path b -> plain ns -> on_way b ns l -> f l = Some File -> path <> [] ->
  mkdir_p deny cwd prefix mode f path = Some (r, f') -> f' = f /\ (r = ENOTDIR \/ r = EEXIST).
Proof.
  intros S Q B PL (ms & xs & E & ->) F NP H. apply named_names in Q. apply begins_base in B. subst b ns. assert (PM : plain ms) by (rewrite E in PL; apply plain_app in PL; tauto).
  destruct (mkdir_p_cases deny cwd prefix mode f path) as (r0 & f2 & HH & r1 & f1 & P & C). rewrite H in HH. injection HH as <- <-.
  assert (K : f1 = f /\ (r1 = 0 \/ r1 = ENOTDIR)).
  { destruct (parents_cases deny cwd prefix mode f path) as (r3 & f3 & P3 & K). rewrite P in P3. injection P3 as <- <-.
    destruct K as [(_ & -> & ->)|[(_ & _ & -> & ->)|[(_ & d & _ & _ & _ & -> & ->)|[(_ & d & _ & _ & _ & -> & ->)|(_ & d & e & _ & _ & _ & K)]]]]; auto.
    destruct (climb_file (absolute path) (base cwd path) f ms S PM F (names path) [] PL (ex_intro _ xs E)) as [A1 A2]. rewrite <- K in A1, A2. exact (conj A1 A2). }
  destruct K as [-> K]. destruct C as [(Z & -> & ->)|(_ & r2 & M & C)]; [destruct K; [contradiction|auto]|]. rewrite mkdir_is in M by exact NP.
  destruct xs as [|x xs].
  - rewrite app_nil_r in E. rewrite E in M. rewrite <- E in M.
    assert (M2 : mkdir_names deny f (base cwd path) (names path) mode = (EEXIST, f)).
    { destruct (rev (names path)) as [|n t] eqn:R; [unfold mkdir_names; rewrite R; reflexivity|]. rewrite (split_last _ _ _ R). apply mkdir_there; [exact S|rewrite <- (split_last _ _ _ R); exact PL|]. rewrite <- (split_last _ _ _ R), E. congruence. }
    rewrite M2 in M. injection M as <- <-. split; [reflexivity|]. destruct C as [[C _]|[_ C]]; [contradiction|]. rewrite stat_is in C by exact NP. rewrite walk_there in C by (rewrite ?E; auto; congruence). rewrite E, F in C.
    destruct (trailing path); auto.
  - rewrite E, mkdir_file in M by assumption. injection M as <- <-. split; [reflexivity|]. destruct C as [[_ ->]|[C _]]; [now left|discriminate C].
Qed.

(** ** What is in the way of new directories *)
Lemma sound_grow f n l : sound f -> is_dir f l -> sound (fun x => if loc_eqb x (n :: l) then Some (Dir mode) else f x).
Proof.
  intros S [m D] n' l' F. destruct (loc_eqb l' (n :: l)) eqn:E2; [eauto|]. destruct (loc_eqb (n' :: l') (n :: l)) eqn:E1; [|apply (S n' l'); exact F].
  apply loc_eqb_spec in E1. injection E1 as -> ->. eauto.
Qed.
Definition free (f : fs) (b : loc) (ns : list name) : Prop := forall l, on_way b ns l -> f l <> Some File.
Lemma on_way_app b ms rest : on_way b (ms ++ rest) (rev ms ++ b). Proof. exists ms, rest. auto. Qed.
Lemma mkdir_free f b ds c : sound f -> plain (ds ++ [c]) -> is_dir f (rev ds ++ b) -> f (rev (ds ++ [c]) ++ b) <> Some File -> (forall l, deny l <> EEXIST) ->
  exists r f', mkdir_names deny f b (ds ++ [c]) mode = (r, f') /\ sound f' /\ (forall l, f' l = Some File -> f l = Some File) /\
  (((r = 0 \/ r = EEXIST) /\ is_dir f' (rev (ds ++ [c]) ++ b)) \/ (r <> 0 /\ r <> EEXIST /\ r = deny (rev (ds ++ [c]) ++ b) /\ f' (rev (ds ++ [c]) ++ b) = None)).
Proof.
  intros S P D NF ND. rewrite mkdir_at by auto. rewrite rev_app_distr in *. cbn [rev app] in *. destruct (f (c :: rev ds ++ b)) as [[m|]|] eqn:E; [|contradiction|].
  - do 2 eexists. split; [reflexivity|]. split; [exact S|]. split; [auto|]. left. split; [auto|exists m; exact E].
  - destruct (N.eqb_spec (deny (c :: rev ds ++ b)) 0) as [Z|Z].
    + do 2 eexists. split; [reflexivity|]. split; [now apply sound_grow|]. split; [intros l; destruct (loc_eqb l _); [discriminate|auto]|]. left. split; [auto|]. exists mode. now rewrite (proj2 (loc_eqb_spec _ _) eq_refl).
    + do 2 eexists. split; [reflexivity|]. split; [exact S|]. split; [auto|]. right. auto.
Qed.
Lemma skips_dir f b abs ms : sound f -> stands f b prefix -> skips prefix abs ms = true -> ms <> [] -> is_dir f (rev ms ++ b).
Proof.
  intros S ST. unfold skips. unfold stands in ST. destruct prefix as [q|]; [|discriminate]. specialize (ST _ (names_named q)).
  match goal with |- context [list_eq_dec ?d ?x ?y] => destruct (list_eq_dec d x y) as [F|F] end; [|discriminate]. intros _ _.
  assert (E : names q = ms ++ skipn (length ms) (names q)) by (rewrite <- F at 1; symmetry; apply firstn_skipn). destruct (skipn _ _) as [|z zs]; [rewrite app_nil_r in E; now rewrite <- E|].
  apply (up_dir f (rev (z :: zs))); [exact S| |intros Q; apply (f_equal (@length _)) in Q; rewrite rev_length in Q; discriminate]. rewrite app_assoc, <- rev_app_distr, <- E. destruct ST as [m ->]. discriminate.
Qed.
Lemma grows_stands f f' b : grows mode f f' -> stands f b prefix -> stands f' b prefix.
Proof. intros G. unfold stands. destruct prefix as [q|]; [|auto]. intros ST qs Q. eapply grows_dir; eauto. Qed.
Lemma climb_free abs b : (forall l, deny l <> EEXIST) -> forall rs f ds, sound f -> plain (ds ++ rs) -> rs <> [] -> free f b (ds ++ rs) -> is_dir f (rev ds ++ b) -> stands f b prefix ->
  exists r f', climb abs b f ds rs = (r, f') /\ sound f' /\ free f' b (ds ++ rs) /\
  ((r = 0 /\ is_dir f' (rev (removelast (ds ++ rs)) ++ b)) \/ (r <> 0 /\ exists l, on_way b (ds ++ rs) l /\ r = deny l /\ f' l = None)).
Proof.
  intros ND. induction rs as [|c rs IH]; intros f ds S PL NR FR D ST; [contradiction|]. destruct rs as [|x rs].
  { exists 0, f. split; [reflexivity|]. split; [exact S|]. split; [exact FR|]. left. rewrite removelast_last. auto. }
  rewrite climb_more. change (ds ++ c :: x :: rs) with (ds ++ [c] ++ x :: rs) in *. rewrite app_assoc in *. pose proof PL as PL2. apply plain_app in PL2 as [P1 _].
  destruct (skips prefix abs (ds ++ [c])) eqn:SK.
  { apply IH; auto; [discriminate|]. apply (skips_dir f b abs); auto. destruct ds; discriminate. }
  destruct (mkdir_free f b ds c S P1 D (FR _ (on_way_app _ _ _)) ND) as (r1 & f1 & M & S1 & K & C). rewrite M. destruct C as [[Z D1]|(Z1 & Z2 & DE & F1)].
  - assert (negb (r1 =? 0) && negb (r1 =? EEXIST) = false) as -> by (destruct Z as [->| ->]; reflexivity). apply mkdir_grows in M. apply IH; auto; [discriminate| |eapply grows_stands; eauto].
    intros l W F. apply (FR l W). now apply K.
  - assert (negb (r1 =? 0) && negb (r1 =? EEXIST) = true) as ->. { apply N.eqb_neq in Z1, Z2. now rewrite Z1, Z2. }
    exists r1, f1. split; [reflexivity|]. split; [exact S1|]. split; [intros l W F; apply (FR l W); now apply K|]. right. split; [exact Z1|]. exists (rev (ds ++ [c]) ++ b). split; [apply on_way_app|auto].
Qed.
Lemma stat_dir f path : sound f -> plain (names path) -> path <> [] -> is_dir f (rev (names path) ++ base cwd path) -> stat f cwd path = inl true.
Proof. intros S P NP [m D]. rewrite stat_is by exact NP. rewrite walk_there by (auto; congruence). now rewrite D. Qed.
Lemma complete f path ns b : sound f -> named path ns -> begins_at cwd path b -> plain ns -> path <> [] -> is_dir f b -> (forall l, on_way b ns l -> f l <> Some File) ->
  inside prefix path ns -> stands f b prefix -> (forall l, deny l <> EEXIST) ->
  exists r f', mkdir_p deny cwd prefix mode f path = Some (r, f') /\ (r = 0 \/ exists l, on_way b ns l /\ r = deny l /\ f' l = None).
Proof.
  intros S Q B PL NP DB FR IN ST ND. apply named_names in Q. apply begins_base in B. subst b ns.
  destruct (mkdir_p_cases deny cwd prefix mode f path) as (r & f' & H & r1 & f1 & P & C). exists r, f'. split; [exact H|].
  apply (held_spec deny cwd prefix path) in IN.
  assert (K : sound f1 /\ free f1 (base cwd path) (names path) /\ ((r1 = 0 /\ (names path = [] \/ is_dir f1 (rev (removelast (names path)) ++ base cwd path))) \/ (r1 <> 0 /\ exists l, on_way (base cwd path) (names path) l /\ r1 = deny l /\ f1 l = None)) /\ is_dir f1 (base cwd path)).
  { destruct (parents_cases deny cwd prefix mode f path) as (r3 & f3 & P3 & K). rewrite P in P3. injection P3 as <- <-.
    destruct K as [(HE & _)|[(_ & NB & -> & ->)|[(_ & d & BL & NE & SD & -> & ->)|[(_ & d & BL & NE & SD & -> & ->)|(_ & d & e & BL & NE & SD & K)]]]]; [congruence| | | |].
    - split; [exact S|]. split; [exact FR|]. split; [|exact DB]. left. split; [reflexivity|]. destruct (parts_none _ NB) as [E|(n & E)]; rewrite E; [now left|right; exact DB].
    - split; [exact S|]. split; [exact FR|]. split; [|exact DB]. left. split; [reflexivity|]. destruct (parts _ _ BL NE) as [AB E]. apply stat_directory in SD. destruct SD as (ms & b & e & Q & B & L & D).
      assert (PD : plain (names d)) by (destruct E as [E|(n & E)]; rewrite E in PL; [exact PL|apply plain_app in PL; tauto]).
      apply named_names in Q. apply begins_base in B. subst ms b. unfold base in L. rewrite AB in L. fold (base cwd path) in L.
      assert (X : e = rev (names d) ++ base cwd path).
      { clear -L PD. induction L as [l|l ns d0 D L IH|l ns d0 D L IH|l n ns d0 D N1 N2 L IH]; [reflexivity| | |]; inversion PD as [|? ? [Q1 Q2] PD']; subst; [contradiction|contradiction|]. rewrite (IH PD'). cbn [rev]. now rewrite <- app_assoc. }
      subst e. destruct E as [E|(n & E)]; rewrite E; [|right; rewrite removelast_last; exact D]. destruct (rev (names d)) as [|n t] eqn:R; [left; rewrite <- (rev_involutive (names d)), R; reflexivity|]. right.
      pose proof (split_last _ _ _ R) as SL. assert (RR : n :: t = [n] ++ rev (removelast (names d))) by (rewrite <- R, SL at 1; now rewrite rev_app_distr). rewrite RR in D. cbn [app] in D. destruct D as [m D]. apply (S n). congruence.
    - exfalso. rewrite stat_is in SD by exact NE. destruct (parts _ _ BL NE) as [AB E]. assert (PD : plain (names d)) by (destruct E as [E|(n & E)]; rewrite E in PL; [exact PL|apply plain_app in PL; tauto]).
      unfold base in SD. rewrite AB in SD. fold (base cwd path) in SD. destruct (walk _ _ _) as [l|e] eqn:W; [|discriminate]. apply walk_plain in W; [|exact PD]. subst l.
      destruct (f (rev (names d) ++ base cwd path)) as [[]|] eqn:F; try discriminate. apply (FR (rev (names d) ++ base cwd path)); [|exact F]. destruct E as [E|(n & E)]; rewrite E; [exists (names d), []; now rewrite app_nil_r|apply on_way_app].
    - destruct (names path) as [|n ns] eqn:E; [injection K as -> ->; split; [exact S|]; split; [exact FR|]; split; [|exact DB]; left; auto|]. rewrite <- E in *.
      destruct (climb_free (absolute path) (base cwd path) ND (names path) f [] S PL ltac:(rewrite E; discriminate) FR DB ST) as (r3 & f3 & K3 & S3 & F3 & C3). rewrite K3 in K. injection K as -> ->.
      split; [exact S3|]. split; [exact F3|]. cbn [app] in C3. split; [destruct C3 as [[? ?]|C3]; [left; auto|now right]|]. apply climb_grows in K3. eapply grows_dir; eauto. }
  destruct K as (S1 & F1 & K & DB1). destruct C as [(Z & -> & ->)|(Z & r2 & M & C)]; [destruct K as [[? _]|[_ K]]; [contradiction|now right]|]. destruct K as [[_ K]|[? _]]; [|contradiction]. rewrite mkdir_is in M by exact NP.
  assert (ED : r2 = EEXIST -> is_dir f' (rev (names path) ++ base cwd path) -> sound f' -> r = 0).
  { intros -> D S'. destruct C as [[C _]|[_ C]]; [contradiction|]. rewrite stat_dir in C by assumption. exact C. }
  destruct (rev (names path)) as [|n t] eqn:R.
  - unfold mkdir_names in M. rewrite R in M. injection M as <- <-. left. apply ED; auto.
  - rewrite <- R in *. pose proof (split_last _ _ _ R) as SL. destruct K as [K|K]; [rewrite K in R; discriminate R|].
    assert (X1 : plain (removelast (names path) ++ [n])) by (rewrite <- SL; exact PL).
    assert (X2 : f1 (rev (removelast (names path) ++ [n]) ++ base cwd path) <> Some File) by (rewrite <- SL; apply F1; exists (names path), []; now rewrite app_nil_r).
    destruct (mkdir_free f1 (base cwd path) (removelast (names path)) n S1 X1 K X2 ND) as (r3 & f3 & M3 & S3 & K3 & C3). rewrite <- SL in M3, C3. rewrite M3 in M. injection M as -> ->.
    destruct C3 as [[[Y|Y] D]|(Y1 & Y2 & DE & FN)].
    + left. subst r2. destruct C as [[_ C]|[C _]]; [exact C|discriminate C].
    + left. now apply ED.
    + right. exists (rev (names path) ++ base cwd path). split; [exists (names path), []; now rewrite app_nil_r|]. split; [|exact FN]. destruct C as [[_ ->]|[C _]]; [exact DE|contradiction].
Qed.

(** ** A missing prefix *)
Lemma walk_missing f b ms x xs : sound f -> plain (ms ++ x :: xs) -> (forall l, on_way b ms l -> f l <> Some File) -> f (rev ms ++ b) = None -> is_dir f b -> walk f b (ms ++ x :: xs) = inr ENOENT.
Proof.
  revert b. induction ms as [|m ms IH]; intros b S P FR F D; [destruct D; cbn in F; congruence|]. cbn [app walk]. destruct D as [d Db]. rewrite Db. inversion P as [|? ? [P1 P2] P3]; subst.
  rewrite at_plain by assumption. destruct (f (m :: b)) as [[d2|]|] eqn:E.
  - apply IH; auto; [|cbn [rev] in F; rewrite <- app_assoc in F; exact F|exists d2; exact E]. intros l (a & r & E1 & ->) FF. apply (FR (rev a ++ m :: b)); [|exact FF]. exists (m :: a), r. cbn [rev]. rewrite E1, <- app_assoc. auto.
  - exfalso. apply (FR (m :: b)); [|exact E]. exists [m], ms. auto.
  - destruct (ms ++ x :: xs) eqn:Q; [destruct ms; discriminate Q|]. cbn [walk]. unfold name in *. now rewrite E.
Qed.
Lemma mkdir_missing f b ms x xs : sound f -> plain (ms ++ x :: xs) -> (forall l, on_way b ms l -> f l <> Some File) -> f (rev ms ++ b) = None -> is_dir f b -> mkdir_names deny f b (ms ++ x :: xs) mode = (ENOENT, f).
Proof.
  intros S P FR F D. unfold mkdir_names. destruct (rev (ms ++ x :: xs)) as [|n t] eqn:R; [apply (f_equal (@length _)) in R; rewrite rev_length, app_length in R; cbn in R; lia|].
  rewrite removelast_app by discriminate. destruct xs as [|y xs].
  - cbn [removelast]. rewrite app_nil_r. destruct (walk f b ms) as [d|e] eqn:W.
    + apply walk_plain in W; [|apply plain_app in P; tauto]. subst d. now rewrite F.
    + destruct (rev ms) as [|n' t'] eqn:R'; [destruct D; cbn in F; congruence|]. rewrite <- R' in F. pose proof (split_last _ _ _ R') as SL.
      assert (e = ENOENT); [|now subst]. clear -W P FR D S. revert b W FR D. apply plain_app in P as [P _]. induction ms as [|m ms IH]; intros b W FR D; [discriminate|]. cbn [walk] in W. destruct D as [d Db]. rewrite Db in W.
      inversion P as [|? ? [P1 P2] P3]; subst. rewrite at_plain in W by assumption. destruct (f (m :: b)) as [[d2|]|] eqn:E.
      * apply (IH P3 _ W); [|exists d2; exact E]. intros l (a & r & E1 & ->) FF. apply (FR (rev a ++ m :: b)); [|exact FF]. exists (m :: a), r. cbn [rev]. rewrite E1, <- app_assoc. auto.
      * exfalso. apply (FR (m :: b)); [|exact E]. exists [m], ms. auto.
      * destruct ms as [|m2 ms]; [discriminate W|]. cbn [walk] in W. unfold name in *. rewrite E in W. now injection W.
  - change (removelast (x :: y :: xs)) with (x :: removelast (y :: xs)). rewrite walk_missing; auto. apply plain_app in P as [P1 P2]. apply plain_app. split; [exact P1|]. inversion P2 as [|? ? Q1 Q2]; subst. constructor; [exact Q1|].
    rewrite (app_removelast_last (l := y :: xs) []) in Q2 by discriminate. apply Forall_app in Q2. tauto.
Qed.
Lemma no_prefix f path q qs x xs b : prefix = Some q -> sound f -> named q qs -> named path (qs ++ x :: xs) -> begins_at cwd path b -> plain (qs ++ x :: xs) -> (rooted q <-> rooted path) ->
  is_dir f b -> (forall l, on_way b qs l -> f l <> Some File) -> f (rev qs ++ b) = None -> mkdir_p deny cwd prefix mode f path = Some (ENOENT, f).
Proof.
  intros PQ S Q NM B PL RR DB FR F. apply named_names in NM. apply begins_base in B. apply named_names in Q. subst b qs.
  assert (NP : path <> []) by (intros ->; destruct (names q); discriminate NM).
  assert (HE : held prefix path = true). { apply (held_spec deny cwd). unfold inside. rewrite PQ. split; [exact RR|]. exists (names q), (x :: xs). split; [apply names_named|now symmetry]. }
  assert (AB : absolute q = absolute path) by (apply eq_iff_eq_true; rewrite !absolute_rooted; exact RR).
  assert (CL : forall rs ds, ds ++ rs = names q ++ x :: xs -> climb (absolute path) (base cwd path) f ds rs = (0, f) \/ climb (absolute path) (base cwd path) f ds rs = (ENOENT, f)).
  { induction rs as [|c rs IH]; intros ds E; [now left|]. destruct rs as [|y rs]; [now left|]. rewrite climb_more. change (ds ++ c :: y :: rs) with (ds ++ [c] ++ y :: rs) in *. rewrite app_assoc in *. specialize (IH _ E).
    destruct (skips prefix (absolute path) (ds ++ [c])) eqn:SK; [exact IH|]. right. assert (L : lenN (names q) < lenN (ds ++ [c])) by (eapply (skips_below deny); eauto).
    destruct (heads _ _ _ _ (eq_sym E) ltac:(unfold lenN in L; lia)) as (zs0 & E2).
    destruct zs0 as [|z zs]; [rewrite app_nil_r in E2; rewrite E2 in L; lia|]. rewrite E2, mkdir_missing; auto. rewrite <- E2. rewrite <- E in PL. apply plain_app in PL. tauto. }
  destruct (mkdir_p_cases deny cwd prefix mode f path) as (r & f' & H & r1 & f1 & P & C). rewrite H.
  assert (K : f1 = f /\ (r1 = 0 \/ r1 = ENOENT)).
  { destruct (parents_cases deny cwd prefix mode f path) as (r3 & f3 & P3 & K). rewrite P in P3. injection P3 as <- <-.
    destruct K as [(X & _)|[(_ & _ & -> & ->)|[(_ & d & _ & _ & _ & -> & ->)|[(_ & d & BL & NE & SD & -> & ->)|(_ & d & e & _ & _ & _ & K)]]]]; auto; [congruence| |].
    - exfalso. rewrite stat_is in SD by exact NE. destruct (parts _ _ BL NE) as [AD E]. unfold base in SD. rewrite AD in SD. fold (base cwd path) in SD. rewrite <- NM in E.
      assert (X : exists ys, names d = names q ++ ys). { destruct E as [E|(n & E)]; [rewrite <- E; eauto|]. rewrite (app_removelast_last (l := x :: xs) []) in E by discriminate. rewrite app_assoc in E. apply app_inj_tail in E as [E _]. rewrite <- E. eauto. }
      destruct X as (ys & X). assert (PD : plain (names d)) by (destruct E as [E|(n & E)]; rewrite E in PL; [exact PL|apply plain_app in PL; tauto]). destruct (walk _ _ _) as [l|e] eqn:W; [|discriminate]. apply walk_plain in W; [|exact PD]. subst l.
      destruct (f (rev (names d) ++ base cwd path)) as [[]|] eqn:FF; try discriminate. rewrite X, rev_app_distr, <- app_assoc in FF. destruct ys as [|y ys]; [cbn in FF; congruence|].
      destruct (up_dir f (rev (y :: ys)) (rev (names q) ++ base cwd path) S) as [m D]; [congruence|intros Z; apply (f_equal (@length _)) in Z; rewrite rev_length in Z; discriminate|congruence].
    - rewrite <- NM in K. destruct (CL (names q ++ x :: xs) [] eq_refl) as [A|A]; rewrite A in K; injection K as -> ->; auto. }
  destruct K as [-> K]. destruct C as [(Z & -> & ->)|(_ & r2 & M & C)]; [destruct K as [K|K]; [contradiction|now subst]|]. rewrite mkdir_is, <- NM, mkdir_missing in M by auto. injection M as <- <-.
  destruct C as [[_ ->]|[C _]]; [reflexivity|discriminate C].
Qed.
End Sound.

(** ** Strings *)
Lemma strcat_exact (first second : option (list byte)) : lenN (or_empty first) < W64 -> lenN (or_empty second) < W64 ->
  strcat first second = Ok (if lenN (or_empty first) + lenN (or_empty second) + 1 <? W64 then Some (or_empty first ++ or_empty second ++ [0]) else None).
Proof.
  intros A B. unfold strcat. set (a := or_empty first) in *. set (b := or_empty second) in *. unfold put, W64 in *. rewrite lenN_app.
  destruct (N.ltb_spec (lenN a + lenN b + 1) (2 ^ 64)) as [L|L].
  - rewrite N.mod_small by exact L. replace (lenN a + lenN b + 1 <=? lenN a) with false by (symmetry; apply N.leb_gt; lia). rewrite N.leb_refl. cbn [bind]. now rewrite <- app_assoc.
  - assert (M : (lenN a + lenN b + 1) mod 2 ^ 64 = lenN a + lenN b + 1 - 2 ^ 64) by (rewrite <- (N.mod_add _ 1) at 1 by discriminate; replace (lenN a + lenN b + 1) with (lenN a + lenN b + 1 - 2 ^ 64 + 1 * 2 ^ 64) at 1 by lia; rewrite N.mod_add by discriminate; rewrite N.mod_add by discriminate; apply N.mod_small; lia).
    rewrite M. replace (lenN a + lenN b + 1 - 2 ^ 64 <=? lenN a) with true by (symmetry; apply N.leb_le; lia). reflexivity.
Qed.
Lemma join_sum args : forall len, len < W64 -> Forall (fun a => lenN a < W64) args ->
  join_len args len = if len + lenN (concat args) <? W64 then Some (len + lenN (concat args)) else None.
Proof.
  induction args as [|a args IH]; intros len L F; cbn [join_len concat].
  - change (lenN (@nil byte)) with 0. rewrite N.add_0_r. destruct (N.ltb_spec len W64); [reflexivity|lia].
  - inversion F as [|? ? A F']; subst. rewrite lenN_app. unfold W64 in *.
    destruct (N.lt_ge_cases (len + lenN a) (2 ^ 64)) as [S|S].
    + rewrite N.mod_small by exact S. replace (len + lenN a <? len) with false by (symmetry; apply N.ltb_ge; lia). rewrite IH by auto. now rewrite N.add_assoc.
    + assert (M : (len + lenN a) mod 2 ^ 64 = len + lenN a - 2 ^ 64).
      { replace (len + lenN a) with (len + lenN a - 2 ^ 64 + 1 * 2 ^ 64) at 1 by lia. rewrite N.mod_add by discriminate. apply N.mod_small. lia. }
      rewrite M. replace (len + lenN a - 2 ^ 64 <? len) with true by (symmetry; apply N.ltb_lt; lia).
      destruct (N.ltb_spec (len + (lenN a + lenN (concat args))) (2 ^ 64)); [lia|reflexivity].
Qed.
Lemma strjoin_exact args : Forall (fun a => lenN a < W64) args -> lenN (concat args) + 1 <> W64 ->
  strjoin args = Ok (if lenN (concat args) + 1 <? W64 then Some (concat args ++ [0]) else None).
Proof.
  intros F NE. unfold strjoin. rewrite join_sum by (auto; reflexivity). rewrite N.add_0_l. destruct (N.ltb_spec (lenN (concat args)) W64) as [L|L].
  - assert (lenN (concat args) + 1 < W64) by lia. rewrite N.mod_small by assumption. unfold put. rewrite N.leb_refl. cbn [bind]. apply N.ltb_lt in H. now rewrite H.
  - destruct (N.ltb_spec (lenN (concat args) + 1) W64); [lia|reflexivity].
Qed.
Lemma lenN_repeat {A} (x : A) n : lenN (repeat x (N.to_nat n)) = n.
Proof. unfold lenN. rewrite repeat_length. apply N2Nat.id. Qed.
Lemma strjoin_full (a b : list byte) : lenN a < W64 -> lenN b < W64 -> lenN a + lenN b + 1 = W64 -> strjoin [a; b] = UB.
Proof.
  intros A B E. unfold strjoin. rewrite join_sum by (auto; reflexivity). cbn [concat]. rewrite app_nil_r, lenN_app, N.add_0_l.
  destruct (N.ltb_spec (lenN a + lenN b) W64); [|lia]. rewrite E. rewrite N.mod_same by discriminate. unfold put. rewrite lenN_app. destruct (N.leb_spec (lenN a + lenN b + 1) 0); [lia|reflexivity].
Qed.
Lemma strjoin_wraps : exists args, Forall (fun a => lenN a < W64) args /\ strjoin args = UB.
Proof.
  assert (K : forall n m, n < W64 -> m < W64 -> n + m + 1 = W64 -> exists args, Forall (fun a => lenN a < W64) args /\ strjoin args = UB).
  { intros n m N1 M1 E. exists [repeat 97 (N.to_nat n); repeat 97 (N.to_nat m)]. split; [constructor; [|constructor; [|constructor]]; now rewrite lenN_repeat|]. apply strjoin_full; rewrite !lenN_repeat; assumption. }
  exact (K (2 ^ 63) (2 ^ 63 - 1) eq_refl eq_refl eq_refl).
Qed.
