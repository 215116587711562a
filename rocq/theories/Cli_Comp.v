(** Completion; what wifid says. *)
From Coq Require Import String ZArith.
From Verif Require Import Base Text Mirror_Model Mirror_Client Cli_Model Cli_Spec Cli_Search Cli_Proofs Cli_Means Cli_More.
Local Open Scope list_scope.

Lemma kept_filter {A} (P : A -> Prop) p (l : list A) : (forall x, p x = true <-> P x) -> kept P l (filter p l).
Proof. intros H. induction l as [|x l IH]; cbn [filter]; [constructor|]. destruct (p x) eqn:E; constructor; auto; [apply H; exact E|intros K; apply H in K; congruence]. Qed.
Definition fits (t name : list byte) : bool := same_first (lenN t) name t.
Lemma fits_spec t name : fits t name = true <-> begins t name.
Proof. unfold fits, same_first. rewrite (takeN_all (lenN t) t) by lia. apply take_prefix. reflexivity. Qed.

(** ** One name after the other *)
Lemma from_index_spec t : forall names idx,
  match snd (from_index names t (lenN t) idx) with
  | None => filter (fits t) names = []
  | Some n => exists before after, names = before ++ n :: after /\ filter (fits t) names = n :: filter (fits t) after /\ fst (from_index names t (lenN t) idx) = idx + lenN before + 1
  end.
Proof.
  induction names as [|x names IH]; intros idx; cbn [from_index]; [reflexivity|]. fold (fits t x). cbn [filter]. destruct (fits t x) eqn:F; cbn [fst snd].
  - exists [], names. rewrite lenN_nil, N.add_0_r. auto.
  - specialize (IH (idx + 1)). destruct (snd (from_index names t (lenN t) (idx + 1))) as [n|]; [|exact IH]. destruct IH as [b [a [E1 [E2 E3]]]]. exists (x :: b), a. rewrite E1 at 1. split; [reflexivity|]. split; [exact E2|].
    rewrite E3, lenN_cons. lia.
Qed.
Lemma nth_cons {A} (x : A) l k : k <> 0 -> nth_N (x :: l) k = nth_N l (k - 1).
Proof. intros H. cbn [nth_N]. destruct (N.eqb_spec k 0); [contradiction|reflexivity]. Qed.
Lemma nth_drop {A} (l : list A) : forall k, match nth_N l k with Some x => dropN k l = x :: dropN (k + 1) l | None => dropN k l = [] /\ lenN l <= k end.
Proof.
  induction l as [|x l IH]; intros k; [split; [apply dropN_all; rewrite lenN_nil; lia|rewrite lenN_nil; lia]|]. destruct (N.eq_dec k 0) as [->|Hk]; [reflexivity|]. rewrite nth_cons by exact Hk. specialize (IH (k - 1)).
  assert (D : forall j, j <> 0 -> dropN j (x :: l) = dropN (j - 1) l). { intros j Hj. replace j with (1 + (j - 1)) at 1 by lia. rewrite <- dropN_dropN. reflexivity. }
  rewrite !D by lia. replace (k + 1 - 1) with (k - 1 + 1) by lia. destruct (nth_N l (k - 1)); [exact IH|]. destruct IH as [A1 A2]. rewrite lenN_cons. split; [exact A1|lia].
Qed.
Lemma counting_spec t names : forall idx cnt, cnt <= idx ->
  counting names t (lenN t) idx cnt = match nth_N (filter (fits t) names) (idx - cnt) with Some n => inl n | None => inr (cnt + lenN (filter (fits t) names)) end.
Proof.
  induction names as [|x names IH]; intros idx cnt H; cbn [counting filter nth_N]; [rewrite lenN_nil, N.add_0_r; reflexivity|]. fold (fits t x). destruct (fits t x); [|apply IH; exact H].
  destruct (N.eqb_spec cnt idx) as [->|Hne]; [rewrite N.sub_diag; reflexivity|]. rewrite IH by lia. rewrite nth_cons by lia. replace (idx - cnt - 1) with (idx - (cnt + 1)) by lia.
  rewrite lenN_cons. destruct (nth_N _ _); [reflexivity|]. f_equal. lia.
Qed.
Lemma nth_app {A} (a b : list A) : forall k, nth_N (a ++ b) k = match nth_N a k with Some x => Some x | None => nth_N b (k - lenN a) end.
Proof.
  induction a as [|x a IH]; intros k; cbn [app]; [rewrite lenN_nil, N.sub_0_r; reflexivity|]. destruct (N.eq_dec k 0) as [->|Hk]; [reflexivity|]. rewrite !nth_cons by exact Hk. rewrite IH, lenN_cons.
  destruct (nth_N a (k - 1)); [reflexivity|]. f_equal. lia.
Qed.
Lemma nth_len {A} (l : list A) k : nth_N l k = None <-> lenN l <= k.
Proof.
  revert k. induction l as [|x l IH]; intros k; [rewrite lenN_nil; cbn; split; [lia|reflexivity]|]. rewrite lenN_cons. destruct (N.eq_dec k 0) as [->|Hk]; [cbn; split; [discriminate|lia]|]. rewrite nth_cons by exact Hk. rewrite IH. lia.
Qed.

Lemma given_eq o : match o with Some (x :: t) => [x :: t] | _ => [] end = given o. Proof. destruct o as [[|]|]; reflexivity. Qed.
Lemma link_names_eq c : link_names c = flat_map link_words c. Proof. apply flat_map_ext. intros l. unfold link_words. rewrite <- given_eq. reflexivity. Qed.
Lemma peer_names_eq c : peer_names c = flat_map peer_words (all_peers c).
Proof.
  unfold peer_names, all_peers. induction c as [|l c IH]; cbn [flat_map]; [reflexivity|]. rewrite flat_map_app, IH. f_equal. clear. induction (cl_peers l) as [|p ps IH]; cbn [flat_map map]; [reflexivity|]. rewrite IH, <- !given_eq || (rewrite IH; unfold peer_words; cbn [snd]; rewrite given_eq); reflexivity.
Qed.
Lemma commands_eq pr : map e_name (table pr) = map (fun u => fst (fst (fst u))) (usage pr).
Proof. destruct pr; reflexivity. Qed.
(** Generators with the state of the counting kind. *)
Definition counts (g : gen) : bool := match g with YesNo | Commands => false | _ => true end.
Lemma generate_counts pr c g t fresh v idx : counts g = true -> (fresh = true /\ idx = 0 \/ fresh = false /\ v = (idx, lenN t)) ->
  generate pr c g t fresh v = match nth_N (filter (fits t) (offered pr c g)) idx with Some n => ((idx + 1, lenN t), Some n) | None => ((idx, lenN t), None) end.
Proof.
  intros G H. unfold generate. assert (E : (if fresh then (0, lenN t) else v) = (idx, lenN t)) by (destruct H as [[-> ->]|[-> ->]]; reflexivity). rewrite E. clear E H.
  destruct g; try discriminate; cbn [offered]; rewrite ?link_names_eq, ?peer_names_eq; rewrite ?counting_spec by lia; rewrite ?N.sub_0_r.
  - destruct (nth_N _ idx); reflexivity.
  - destruct (nth_N _ idx); reflexivity.
  - rewrite filter_app, nth_app. destruct (nth_N (filter (fits t) (flat_map link_words c)) idx) eqn:E; [reflexivity|]. apply nth_len in E. rewrite counting_spec by lia. rewrite N.add_0_l.
    destruct (nth_N _ (idx - _)); reflexivity.
Qed.
Lemma matches_counts pr c g t fuel : counts g = true -> forall fresh v idx, (fresh = true /\ idx = 0 \/ fresh = false /\ v = (idx, lenN t)) ->
  (List.length (dropN idx (filter (fits t) (offered pr c g))) < fuel)%nat -> matches fuel pr c g t fresh v = Ret (dropN idx (filter (fits t) (offered pr c g))).
Proof.
  intros G. induction fuel as [|fuel IH]; intros fresh v idx H L; [lia|]. cbn [matches]. rewrite (generate_counts pr c g t fresh v idx G H). pose proof (nth_drop (filter (fits t) (offered pr c g)) idx) as D.
  destruct (nth_N _ idx) as [n|].
  - rewrite (IH false (idx + 1, lenN t) (idx + 1)); [rewrite D; reflexivity|auto|]. rewrite D in L. cbn [List.length] in L. lia.
  - destruct D as [-> _]. reflexivity.
Qed.
Lemma generate_index pr c g t fresh v idx : counts g = false -> (fresh = true /\ idx = 0 \/ fresh = false /\ v = (idx, lenN t)) ->
  generate pr c g t fresh v = let '(i, r) := from_index (dropN idx (offered pr c g)) t (lenN t) idx in ((i, lenN t), r).
Proof.
  intros G H. unfold generate. assert (E : (if fresh then (0, lenN t) else v) = (idx, lenN t)) by (destruct H as [[-> ->]|[-> ->]]; reflexivity). rewrite E. clear E H.
  destruct g; try discriminate; cbn [offered]; rewrite ?commands_eq; reflexivity.
Qed.
Lemma matches_index pr c g t fuel : counts g = false -> forall fresh v idx, (fresh = true /\ idx = 0 \/ fresh = false /\ v = (idx, lenN t)) ->
  (List.length (filter (fits t) (dropN idx (offered pr c g))) < fuel)%nat -> matches fuel pr c g t fresh v = Ret (filter (fits t) (dropN idx (offered pr c g))).
Proof.
  intros G. induction fuel as [|fuel IH]; intros fresh v idx H L; [lia|]. cbn [matches]. rewrite (generate_index pr c g t fresh v idx G H). pose proof (from_index_spec t (dropN idx (offered pr c g)) idx) as D.
  destruct (from_index _ _ _ _) as [i [n|]]; cbn [fst snd] in D.
  - destruct D as [b [a [E1 [E2 E3]]]].
    assert (Ea : a = dropN i (offered pr c g)). { rewrite E3. replace (idx + lenN b + 1) with (idx + (lenN b + 1)) by lia. rewrite <- dropN_dropN, E1, dropN_app. rewrite (dropN_all _ b) by lia. replace (lenN b + 1 - lenN b) with 1 by lia. reflexivity. }
    rewrite (IH false (i, lenN t) i); [rewrite E2, Ea; reflexivity|auto|]. rewrite E2 in L. cbn [List.length] in L. rewrite <- Ea. lia.
  - rewrite D. reflexivity.
Qed.
Theorem completes pr c g t v : exists m, kept (begins t) (offered pr c g) m /\ forall fuel, (List.length (offered pr c g) < fuel)%nat -> matches fuel pr c g t true v = Ret m.
Proof.
  exists (filter (fits t) (offered pr c g)). split; [apply kept_filter; intros; apply fits_spec|]. intros fuel L.
  assert (F : (List.length (filter (fits t) (offered pr c g)) <= List.length (offered pr c g))%nat) by (clear; induction (offered pr c g) as [|x l IH]; cbn [filter List.length]; [lia|destruct (fits t x); cbn [List.length]; lia]).
  destruct (counts g) eqn:G; [rewrite (matches_counts pr c g t fuel G true v 0)|rewrite (matches_index pr c g t fuel G true v 0)]; rewrite ?dropN_0; auto; lia.
Qed.

(** ** Which argument *)
Lemma args_skip w : ~ In 32 w -> forall t pos last cnt, args_loop (w ++ t) pos last cnt = args_loop t (pos + lenN w) last cnt.
Proof.
  induction w as [|x w IH]; intros H t pos last cnt; cbn [app args_loop]; [rewrite lenN_nil, N.add_0_r; reflexivity|]. destruct (N.eqb_spec x 32) as [->|_]; [destruct H; left; reflexivity|].
  rewrite IH by (intros K; apply H; right; exact K). rewrite lenN_cons. f_equal. lia.
Qed.
Lemma args_count n t : typed n t -> forall pos last cnt, last + 1 = pos -> snd (args_loop t pos last cnt) = cnt + n.
Proof.
  induction 1 as [t H|n t H IH|n w t Hw Hn H IH]; intros pos last cnt E.
  - rewrite <- (app_nil_r t). rewrite args_skip by exact H. cbn [args_loop snd]. lia.
  - cbn [args_loop]. rewrite N.eqb_refl. destruct (N.ltb_spec (last + 1) pos); [lia|]. rewrite IH by lia. lia.
  - rewrite args_skip by exact Hn. cbn [args_loop]. rewrite N.eqb_refl. assert (lenN w <> 0) by (destruct w; [congruence|rewrite lenN_cons; lia]). destruct (N.ltb_spec (last + 1) (pos + lenN w)); [|lia].
    specialize (IH (pos + lenN w) (pos + lenN w - 1) (cnt + 1)). cbn [args_loop] in IH. rewrite N.eqb_refl in IH. destruct (N.ltb_spec (pos + lenN w - 1 + 1) (pos + lenN w)); [lia|]. rewrite IH by lia. lia.
Qed.
Lemma args_last t : forall pos last cnt, In 32 t -> exists k, fst (args_loop t pos last cnt) = pos + k /\ nth_N t k = Some 32.
Proof.
  induction t as [|x t IH]; intros pos last cnt H; [destruct H|]. cbn [args_loop]. destruct (N.eqb_spec x 32) as [->|Hx].
  - destruct (in_dec N.eq_dec 32 t) as [K|K].
    + destruct (IH (pos + 1) pos (if last + 1 <? pos then cnt + 1 else cnt) K) as [k [E1 E2]]. exists (k + 1). rewrite E1. split; [lia|]. rewrite nth_cons by lia. replace (k + 1 - 1) with k by lia. exact E2.
    + exists 0. rewrite <- (app_nil_r t), args_skip by exact K. cbn [args_loop fst]. split; [lia|reflexivity].
  - destruct H as [H|H]; [congruence|]. destruct (IH (pos + 1) last cnt H) as [k [E1 E2]]. exists (k + 1). rewrite E1. split; [lia|]. rewrite nth_cons by lia. replace (k + 1 - 1) with k by lia. exact E2.
Qed.
Lemma split_blank (a b s t : list byte) : ~ In 32 a -> ~ In 32 b -> a ++ 32 :: s = b ++ 32 :: t -> a = b /\ s = t.
Proof.
  revert b. induction a as [|x a IH]; intros [|y b] Ha Hb E; cbn [app] in E; injection E; intros; subst; auto.
  - destruct Hb. left. reflexivity.
  - destruct Ha. left. reflexivity.
  - destruct (IH b) as [-> ->]; auto; intros K; [apply Ha|apply Hb]; right; exact K.
Qed.
Theorem args_are n w t : 2 <= lenN w -> ~ In 32 w -> typed n (w ++ 32 :: t) -> get_args (w ++ 32 :: t) = n.
Proof.
  intros L Hw H. assert (I : In 32 (w ++ 32 :: t)) by (apply in_or_app; right; left; reflexivity).
  assert (M : exists m, n = m + 1 /\ typed m (32 :: t)).
  { remember (w ++ 32 :: t) as line eqn:E. destruct H as [t0 K|n0 t0 K|n0 w0 t0 K1 K2 K3].
    - contradiction.
    - destruct w as [|x w]; [rewrite lenN_nil in L; lia|]. cbn [app] in E. injection E as <- _. destruct Hw. left. reflexivity.
    - destruct (split_blank w0 w t0 t K2 Hw) as [-> ->]; [exact E|]. exists n0. auto. }
  destruct M as [m [-> Hm]]. unfold get_args. destruct (args_last (w ++ 32 :: t) 0 0 0 I) as [k [E1 E2]]. destruct (args_loop (w ++ 32 :: t) 0 0 0) as [last cnt] eqn:E. cbn [fst] in E1. rewrite N.add_0_l in E1. subst k. rewrite E2.
  change (32 =? 32) with true. cbn iota. change cnt with (snd (last, cnt)). rewrite <- E. rewrite args_skip by exact Hw. cbn [args_loop]. rewrite N.eqb_refl. destruct (N.ltb_spec (0 + 1) (0 + lenN w)); [|lia].
  pose proof (args_count m (32 :: t) Hm (0 + lenN w) (lenN w - 1) (0 + 1)) as C. cbn [args_loop] in C. rewrite N.eqb_refl in C. destruct (N.ltb_spec (lenN w - 1 + 1) (0 + lenN w)); [lia|]. rewrite C by lia. lia.
Qed.
(** Names of commands. *)
Definition apart (pr : program) : bool :=
  forallb (fun e => negb (existsb (N.eqb 32) (e_name e)) && (2 <=? lenN (e_name e))
                    && forallb (fun f => negb (fits (e_name e) (e_name f)) || str_eq (e_name e) (e_name f)) (table pr)) (table pr).
Lemma apart_holds pr : apart pr = true. Proof. destruct pr; vm_compute; reflexivity. Qed.
Lemma apart_in pr e : In e (table pr) -> ~ In 32 (e_name e) /\ 2 <= lenN (e_name e) /\ forall f, In f (table pr) -> begins (e_name e) (e_name f) -> e_name e = e_name f.
Proof.
  intros H. pose proof (apart_holds pr) as A. unfold apart in A. rewrite forallb_forall in A. specialize (A e H). rewrite !andb_true_iff in A. destruct A as [[A1 A2] A3]. split; [|split].
  - intros K. apply negb_true_iff in A1. assert (existsb (N.eqb 32) (e_name e) = true) by (apply existsb_exists; exists 32; auto). congruence.
  - apply N.leb_le. exact A2.
  - intros f Hf B. rewrite forallb_forall in A3. specialize (A3 f Hf). apply fits_spec in B. rewrite B in A3. cbn [negb orb] in A3. apply str_eq_spec. exact A3.
Qed.
Lemma begins_blank (a w t : list byte) : ~ In 32 a -> begins a (w ++ 32 :: t) -> begins a w.
Proof.
  intros Ha [r E]. revert a Ha E. induction w as [|x w IH]; intros a Ha E; cbn [app] in E.
  - destruct a as [|y a]; [exists []; reflexivity|]. injection E as <- _. destruct Ha. left. reflexivity.
  - destruct a as [|y a]; [exists (x :: w); reflexivity|]. cbn [app] in E. injection E as <- E. destruct (IH a) as [r' ->]; [intros K; apply Ha; right; exact K|exact E|]. exists r'. reflexivity.
Qed.
Lemma same_first_begins a line : same_first (lenN a) a line = true <-> begins a line.
Proof.
  unfold same_first. rewrite (takeN_all (lenN a) a) by lia. rewrite <- (take_prefix (lenN a) a line eq_refl), !str_eq_spec. split; intros H; symmetry; exact H.
Qed.
Definition agree (pr : program) : bool :=
  forallb (fun e => forallb (fun n => match comp_fn e n, wanted (e_name e) n with
    | Ok (Some a), Some b => match a, b with YesNo, YesNo | Commands, Commands | Links, Links | Peers, Peers | LinksPeers, LinksPeers => true | _, _ => false end
    | Ok None, None => true
    | _, _ => false
    end) [1; 2; 3]) (table pr).
Lemma agree_holds pr : agree pr = true. Proof. destruct pr; vm_compute; reflexivity. Qed.
Lemma agree_in pr e n : In e (table pr) -> 1 <= n <= 3 -> comp_fn e n = Ok (wanted (e_name e) n).
Proof.
  intros H Hn. pose proof (agree_holds pr) as A. unfold agree in A. rewrite forallb_forall in A. specialize (A e H). rewrite forallb_forall in A.
  assert (I : In n [1; 2; 3]) by (assert (n = 1 \/ n = 2 \/ n = 3) by lia; cbn; intuition). specialize (A n I). clear -A.
  destruct (comp_fn e n) as [[a|]|], (wanted (e_name e) n) as [b|]; try discriminate; try reflexivity; destruct a; destruct b; discriminate || reflexivity.
Qed.
Lemma comp_one es line acc e : In e es -> NoDup (map e_name es) -> (forall f, In f es -> same_first (lenN (e_name f)) (e_name f) line = true <-> e_name f = e_name e) ->
  comp_loop es line acc = do g <- comp_fn e (get_args line); Ok (match g with Some g => Some g | None => acc end).
Proof.
  revert acc. induction es as [|f es IH]; intros acc He Hd H; [destruct He|]. cbn [map] in Hd. inversion Hd; subst. cbn [comp_loop].
  assert (Q : forall acc, ~ In (e_name e) (map e_name es) -> comp_loop es line acc = Ok acc).
  { intros a Hn. clear IH He Hd H2 H3. revert a. induction es as [|x es IH]; intros a; cbn [comp_loop]; [reflexivity|]. destruct (same_first (lenN (e_name x)) (e_name x) line) eqn:S1.
    - apply H in S1; [|right; left; reflexivity]. destruct Hn. left. exact S1.
    - apply IH; [intros y Hy; apply H; destruct Hy as [<-|Hy]; [left; reflexivity|right; right; exact Hy]|intros K; apply Hn; right; exact K]. }
  destruct He as [->|He].
  - assert (same_first (lenN (e_name e)) (e_name e) line = true) as -> by (apply H; [left; reflexivity|reflexivity]). destruct (comp_fn e (get_args line)) as [g|]; cbn [bind]; [|reflexivity]. apply Q. exact H2.
  - destruct (same_first (lenN (e_name f)) (e_name f) line) eqn:S1.
    + apply H in S1; [|left; reflexivity]. destruct H2. rewrite S1. apply in_map. exact He.
    + apply IH; auto. intros x Hx. apply H. right. exact Hx.
Qed.
Theorem completion_is pr e n t start : In e (table pr) -> start <> 0 -> typed n (e_name e ++ 32 :: t) -> completion pr start (e_name e ++ 32 :: t) = comp_fn e n.
Proof.
  intros He Hs Ht. destruct (apart_in pr e He) as [B [L A]]. unfold completion. destruct (N.eqb_spec start 0); [contradiction|]. rewrite (comp_one (table pr) _ None e).
  - rewrite (args_are n) by assumption. destruct (comp_fn e n) as [[g|]|]; reflexivity.
  - exact He.
  - apply names_nodup.
  - intros f Hf. rewrite same_first_begins. destruct (apart_in pr f Hf) as [Bf [Lf Af]]. split.
    + intros H. apply Af; [exact He|]. apply begins_blank in H; assumption.
    + intros ->. exists (32 :: t). reflexivity.
Qed.
Theorem completion_right pr w only least most n t start : In (w, only, least, most) (usage pr) -> start <> 0 -> typed n (w ++ 32 :: t) -> n <= 3 -> completion pr start (w ++ 32 :: t) = Ok (wanted w n).
Proof.
  intros H Hs Ht Hn. rewrite usage_table in H. apply in_map_iff in H. destruct H as [e [E He]]. injection E as <- _ _ _. rewrite (completion_is pr e n t start He Hs Ht). apply (agree_in pr); [exact He|]. split; [|exact Hn].
  destruct (apart_in pr e He) as [B [L _]]. remember (e_name e ++ 32 :: t) as line eqn:E. destruct Ht as [t0 K|n0 t0 K|n0 w0 t0 K1 K2 K3]; [|destruct (e_name e); [rewrite lenN_nil in L; lia|cbn [app] in E; injection E as <- _; destruct B; left; reflexivity]|lia].
  destruct K. rewrite E. apply in_or_app. right. left. reflexivity.
Qed.
(** With four words or more there is no such argument. *)
Theorem completion_past pr w only least most n t start : In (w, only, least, most) (usage pr) -> start <> 0 -> typed n (w ++ 32 :: t) -> 3 < n -> completion pr start (w ++ 32 :: t) = UB.
Proof.
  intros H Hs Ht Hn. rewrite usage_table in H. apply in_map_iff in H. destruct H as [e [E He]]. injection E as <- _ _ _. rewrite (completion_is pr e n t start He Hs Ht). unfold comp_fn.
  destruct (N.eqb_spec n 0); [lia|]. assert (L : lenN (e_comp e) = 3) by (clear -He; destruct pr; cbn [table] in He; repeat destruct He as [<-|He]; try reflexivity; destruct He).
  assert (nth_N (e_comp e) (n - 1) = None) as -> by (apply nth_len; lia). reflexivity.
Qed.

(** ** What wifid says *)
Definition said_ok (g : signal) : Prop := event_ok (Heard g).
Lemma peer_said i p b : Forall said_ok (snd (connected_changed i p b)).
Proof. unfold connected_changed, tell_peer. destruct (Bool.eqb _ _); [constructor|]. cbn [snd dp_public]. destruct (dp_public p); repeat constructor. Qed.
Lemma drop_said i p : Forall said_ok (snd (drop_group i p)).
Proof. unfold drop_group. destruct (dp_group p); [apply peer_said|constructor]. Qed.
Lemma start_said i p : Forall said_ok (snd (start_peer i p)).
Proof. unfold start_peer. destruct (dp_public p); repeat constructor. Qed.
Lemma starts_said i ps : Forall said_ok (snd (start_peers i ps)).
Proof. induction ps as [|p ps IH]; cbn [start_peers]; [constructor|]. pose proof (start_said i p). destruct (start_peer i p), (start_peers i ps). cbn [snd] in *. apply Forall_app. auto. Qed.
Lemma free_said i p : Forall said_ok (free_peer i p).
Proof. unfold free_peer. pose proof (drop_said i p). destruct (drop_group i p) as [q s]. apply Forall_app. split; [assumption|]. destruct (dp_public q); repeat constructor. Qed.
Lemma stopped_said l : Forall said_ok (snd (stopped l)).
Proof. unfold stopped. cbn [snd]. induction (dl_peers l) as [|p ps IH]; cbn [flat_map]; [constructor|]. apply Forall_app. split; [apply free_said|exact IH]. Qed.
Lemma tell_said i p ps : Forall said_ok (tell_peer i p ps). Proof. unfold tell_peer. destruct (dp_public p); repeat constructor. Qed.
Lemma tell_link_said l ps : Forall said_ok (tell_link l ps). Proof. repeat constructor. Qed.
Lemma on_peer_said l mac f : (forall p, Forall said_ok (snd (f p))) -> Forall said_ok (snd (on_peer l mac f)).
Proof. intros H. unfold on_peer. destruct (find_p _ _) as [p|]; [|constructor]. specialize (H p). destruct (f p). exact H. Qed.
Lemma link_said l o : Forall said_ok (snd (do_link l o)).
Proof.
  destruct o; cbn [do_link]; try (cbn [snd]; constructor).
  - destruct (eq_text _ _); [constructor|apply tell_link_said].
  - destruct t; [constructor|]. destruct (_ && _); [constructor|apply tell_link_said].
  - destruct (_ || _); [constructor|apply tell_link_said].
  - pose proof (stopped_said l) as S1. destruct (Bool.eqb _ _); [|destruct b; [destruct ok|destruct (stopped l)]]; cbn [snd app] in *; try (destruct mine; cbn [andb]; repeat constructor); apply Forall_app; (split; [assumption|]); repeat constructor.
  - destruct (_ || _); constructor.
  - destruct (_ || _); [constructor|]. pose proof (starts_said (dl_index l) (dl_peers l)). destruct (start_peers _ _). exact H.
  - apply stopped_said.
  - destruct (_ || _); [constructor|apply tell_link_said].
  - destruct (negb _); [constructor|]. apply on_peer_said. intros p.
    match goal with |- context [if dl_run l then start_peer ?i ?q else _] => pose proof (start_said i q) as S1; destruct (dl_run l); [destruct (start_peer i q)|] end; cbn [snd] in *;
      repeat (apply Forall_app; split); try assumption; try (constructor; fail); destruct name; destruct wfd; first [constructor; fail|apply tell_said].
  - destruct (find_p _ _) as [p|]; [apply free_said|constructor].
  - apply on_peer_said. intros p. destruct (same_group _ _); [constructor|]. pose proof (drop_said (dl_index l) p). destruct (drop_group _ _). exact H.
  - apply on_peer_said. intros p. constructor.
  - apply on_peer_said. intros p. destruct (dp_group p); [apply peer_said|constructor].
  - apply on_peer_said. intros p. pose proof (peer_said (dl_index l) p false). destruct (connected_changed _ _ _) as [q s]. pose proof (drop_said (dl_index l) q). destruct (drop_group _ _). apply Forall_app. auto.
Qed.
Lemma step_said d o : Forall said_ok (snd (step d o)).
Proof.
  unfold step. destruct (find_l d (index_of o)) as [l|] eqn:F; [|destruct o; try constructor].
  - pose proof (link_said l o) as H. destruct o; try (destruct (do_link l _); exact H).
    cbn [snd]. apply Forall_app. split; [destruct (dl_managed l); [apply stopped_said|constructor]|repeat constructor].
  - cbn [index_of]. destruct (i =? 0); [constructor|]. cbn [snd]. constructor; [|constructor]. cbn [said_ok event_ok link_props dl_index dl_ifname dl_name dl_wfd dl_managed].
    split; [apply Text_Proofs.dec_nonnil|]. split; eexists; cbn [In]; [right; right; left; reflexivity|do 5 right; left; reflexivity].
Qed.
Theorem wifid_says d os : Forall said_ok (snd (run d os)).
Proof. revert d. induction os as [|o os IH]; intros d; cbn [run]; [constructor|]. pose proof (step_said d o). destruct (step d o) as [d1 s]. specialize (IH d1). destruct (run d1 os). apply Forall_app. auto. Qed.

(** A line without spaces is about the first argument. *)
Lemma no_space_args line : ~ In 32 line -> line <> [] -> get_args line = 1.
Proof.
  intros N L. unfold get_args.
  assert (A : forall l pos last count, ~ In 32 l -> args_loop l pos last count = (last, count)).
  { induction l as [|x l IH]; intros pos last count H; [reflexivity|]. cbn [args_loop]. destruct (N.eqb_spec x 32) as [->|_]; [exfalso; apply H; now left|]. apply IH. intros I. apply H. now right. }
  rewrite A by exact N. destruct line as [|x line]; [contradiction|]. change (nth_N (x :: line) 0) with (Some x). cbv iota beta. destruct (N.eqb_spec x 32) as [->|_]; [exfalso; apply N; now left|reflexivity].
Qed.
Theorem completion_no_space pr start line : start <> 0 -> ~ In 32 line -> line <> [] -> exists g, completion pr start line = Ok g.
Proof.
  intros S N L. unfold completion. replace (start =? 0) with false by (symmetry; now apply N.eqb_neq).
  assert (Q : forall es acc, (forall e, In e es -> exists g, comp_fn e 1 = Ok g) -> exists g, comp_loop es line acc = Ok g).
  { induction es as [|e es IH]; intros acc H; cbn [comp_loop]; [eauto|]. rewrite no_space_args by assumption. destruct (same_first _ _ _).
    - destruct (H e (or_introl eq_refl)) as [g ->]. cbn [bind]. apply IH. intros x I. apply H. now right.
    - apply IH. intros x I. apply H. now right. }
  apply Q. intros e He. destruct pr; cbn [table] in He; repeat (destruct He as [<- | He]; [vm_compute; eauto|]); destruct He.
Qed.
