(** Proofs about how wifid starts programs. *)
From Coq Require Import String FinFun.
From Verif Require Import Base Text Spawn_Model Spawn_Spec.
Local Open Scope list_scope.
Local Open Scope N_scope.

(** ** PATH *)
Lemma tokens_field : forall f cur l, ~ In colon f -> tokens cur (f ++ l) = tokens (rev f ++ cur) l.
Proof.
  induction f as [|x f IH]; intros cur l H; [reflexivity|].
  assert (D : x <> 58) by (intros ->; apply H; left; reflexivity).
  assert (E : tokens cur ((x :: f) ++ l) = tokens (x :: cur) (f ++ l)).
  { cbn [app tokens]. destruct x as [|p]; [reflexivity|].
    repeat (destruct p as [p|p|]; try reflexivity). exfalso. apply D. reflexivity. }
  rewrite E, IH by (intros I; apply H; right; exact I).
  cbn [rev]. rewrite <- app_assoc. reflexivity.
Qed.

Definition some_field (f : list byte) : bool := match f with [] => false | _ => true end.
Lemma rev_nil_inv : forall (f : list byte), rev f = [] -> f = [].
Proof. intros f H. rewrite <- (rev_involutive f), H. reflexivity. Qed.
Lemma tokens_join : forall fs, no_colons fs -> tokens [] (join fs) = filter some_field fs.
Proof.
  induction fs as [|f fs IH]; intros H; [reflexivity|].
  assert (Hf : ~ In colon f) by (apply H; left; reflexivity).
  assert (Hr : no_colons fs) by (intros g I; apply H; right; exact I).
  specialize (IH Hr).
  destruct fs as [|g fs].
  - cbn [join]. rewrite <- (app_nil_r f) at 1. rewrite tokens_field by exact Hf.
    rewrite app_nil_r. cbn [tokens filter]. destruct (rev f) as [|y u] eqn:E.
    + apply rev_nil_inv in E. subst f. reflexivity.
    + destruct f as [|x f]; [discriminate E|]. cbn [some_field]. rewrite <- E, rev_involutive. reflexivity.
  - change (join (f :: g :: fs)) with (f ++ colon :: join (g :: fs)).
    rewrite tokens_field by exact Hf. rewrite app_nil_r. unfold colon at 1. cbn [tokens].
    change (filter some_field (f :: g :: fs))
      with (if some_field f then f :: filter some_field (g :: fs) else filter some_field (g :: fs)).
    destruct (rev f) as [|y u] eqn:E.
    + apply rev_nil_inv in E. subst f. exact IH.
    + destruct f as [|x f]; [discriminate E|]. cbn [some_field]. rewrite <- E, rev_involutive, IH. reflexivity.
Qed.

Lemma join_exists : forall p, exists fs, no_colons fs /\ p = join fs.
Proof.
  assert (G : forall p, exists f fs, no_colons (f :: fs) /\ p = join (f :: fs)).
  { induction p as [|x p (f & fs & H & E)].
    - exists [], []. split; [|reflexivity]. intros g [<-|[]] [].
    - destruct (N.eq_dec x colon) as [->|D].
      + exists [], (f :: fs). split.
        * intros g [<-|I]; [intros []|]. apply H, I.
        * cbn [join app]. rewrite E. reflexivity.
      + exists (x :: f), fs. split.
        * intros g [<-|I].
          -- intros [X|X]; [exact (D X)|]. apply (H f); [left; reflexivity|exact X].
          -- apply H. right. exact I.
        * rewrite E. destruct fs; reflexivity. }
  intros p. destruct (G p) as (f & fs & G'). exists (f :: fs). exact G'.
Qed.

Definition find_fs (f : files) (fs : list (list byte)) : found := find_in (stat_of f) (access_of f) (filter some_field fs).
Lemma find_fs_cons : forall f d fs, find_fs f (d :: fs)
  = match d with
    | [] => find_fs f fs
    | _ => match f (in_dir d) with
           | Missing | NoDirectory => find_fs f fs
           | Blocked e => if ((Zpos e =? 2) || (Zpos e =? 20))%Z then find_fs f fs else Error (- Zpos e)
           | File x | Directory x => if x then Found (in_dir d) else find_fs f fs
           end
    end.
Proof.
  intros f d fs. unfold find_fs. destruct d as [|x d]; [reflexivity|]. cbn [filter some_field].
  set (D := x :: d). cbn [find_in]. change (D ++ text "/wpa_supplicant") with (in_dir D).
  unfold stat_of, access_of. destruct (f (in_dir D)); reflexivity.
Qed.

Definition passed (f : files) (d : list byte) : Prop := ~ is_program f d /\ ~ is_directory f d /\ ~ is_blocked f d.
Lemma passed_next : forall f d fs, passed f d -> find_fs f (d :: fs) = find_fs f fs.
Proof.
  intros f d fs (P & Q & R). rewrite find_fs_cons. destruct d as [|x d]; [reflexivity|].
  unfold is_program, is_directory, is_blocked in *. set (D := x :: d) in *.
  assert (NE : D <> []) by discriminate.
  destruct (f (in_dir D)) as [| |e|[]|[]] eqn:E; try reflexivity.
  - destruct ((Zpos e =? 2) || (Zpos e =? 20))%Z eqn:B; [reflexivity|]. exfalso. apply R. split; [exact NE|].
    exists e. split; [reflexivity|]. split; intros ->; discriminate B.
  - exfalso. apply P. split; [exact NE|reflexivity].
  - exfalso. apply Q. split; [exact NE|reflexivity].
Qed.
Lemma find_cases : forall f d fs, passed f d
  \/ ((is_program f d \/ is_directory f d) /\ find_fs f (d :: fs) = Found (in_dir d))
  \/ (is_blocked f d /\ exists e, find_fs f (d :: fs) = Error (Zneg e)).
Proof.
  intros f d fs. rewrite find_fs_cons. destruct d as [|x d].
  - left. repeat split; intros [A _]; apply A; reflexivity.
  - set (D := x :: d) in *. assert (NE : D <> []) by discriminate.
    unfold passed, is_program, is_directory, is_blocked.
    destruct (f (in_dir D)) as [| |e|[]|[]] eqn:E.
    + left. repeat split; [intros [_ X]|intros [_ X]|intros [_ (e & X & _)]]; congruence.
    + left. repeat split; [intros [_ X]|intros [_ X]|intros [_ (e & X & _)]]; congruence.
    + destruct ((Zpos e =? 2) || (Zpos e =? 20))%Z eqn:B.
      * left. repeat split; [intros [_ X]; congruence|intros [_ X]; congruence|].
        intros [_ (e' & X & Y & Z)]. assert (e' = e) by congruence. subst e'.
        apply orb_true_iff in B. destruct B as [B|B]; apply Z.eqb_eq in B; congruence.
      * right. right. split; [|exists e; reflexivity]. split; [exact NE|]. exists e. split; [reflexivity|].
        split; intros ->; discriminate B.
    + right. left. split; [|reflexivity]. left. split; [exact NE|reflexivity].
    + left. repeat split; [intros [_ X]|intros [_ X]|intros [_ (e & X & _)]]; congruence.
    + right. left. split; [|reflexivity]. right. split; [exact NE|reflexivity].
    + left. repeat split; [intros [_ X]|intros [_ X]|intros [_ (e & X & _)]]; congruence.
Qed.

Lemma find_join : forall f fs, no_colons fs -> supplicant_find (stat_of f) (access_of f) (Some (join fs)) = find_fs f fs.
Proof. intros f fs H. unfold supplicant_find. rewrite tokens_join by exact H. reflexivity. Qed.
Lemma passed_not : forall f d, passed f d -> is_program f d \/ is_directory f d -> False.
Proof. intros f d (P & Q & _) [X|X]; auto. Qed.

Lemma find_fs_found : forall f fs b, find_fs f fs = Found b <->
  exists l d r, fs = l ++ d :: r /\ b = in_dir d /\ (is_program f d \/ is_directory f d)
                /\ forall d', In d' l -> passed f d'.
Proof.
  intros f. induction fs as [|d fs IH]; intros b; split.
  - intros H. discriminate H.
  - intros (l & d & r & E & _). destruct l; discriminate E.
  - intros H. destruct (find_cases f d fs) as [P|[[P E]|[P [e E]]]].
    + rewrite passed_next in H by exact P. apply IH in H. destruct H as (l & d' & r & -> & B & I & A).
      exists (d :: l), d', r. split; [reflexivity|]. split; [exact B|]. split; [exact I|].
      intros d'' [<-|J]; [exact P|]. apply A, J.
    + exists [], d, fs. split; [reflexivity|]. split; [rewrite E in H; congruence|]. split; [exact P|]. intros d' [].
    + rewrite E in H. discriminate H.
  - intros (l & d' & r & E & B & I & A). destruct l as [|e l].
    + cbn [app] in E. injection E as <- <-.
      destruct (find_cases f d fs) as [P|[[P X]|[P [e X]]]].
      * destruct (passed_not f d P I).
      * rewrite X, B. reflexivity.
      * exfalso. destruct P as [_ (e' & P & _)]. destruct I as [[_ I]|[_ I]]; congruence.
    + cbn [app] in E. injection E as <- ->.
      rewrite passed_next by (apply A; left; reflexivity). apply IH.
      exists l, d', r. repeat split; try assumption; try reflexivity; apply (A _ (or_intror H)).
Qed.

Lemma find_found : forall f fs b, no_colons fs ->
  (supplicant_find (stat_of f) (access_of f) (Some (join fs)) = Found b <->
   exists l d r, fs = l ++ d :: r /\ b = in_dir d /\ (is_program f d \/ is_directory f d)
                 /\ forall d', In d' l -> ~ is_program f d' /\ ~ is_directory f d' /\ ~ is_blocked f d').
Proof. intros f fs b H. rewrite find_join by exact H. apply find_fs_found. Qed.

Lemma find_total : forall f fs, no_colons fs ->
  (forall d, In d fs -> ~ is_blocked f d /\ ~ is_directory f d) ->
  (exists d, In d fs /\ is_program f d) ->
  exists d, In d fs /\ is_program f d /\ supplicant_find (stat_of f) (access_of f) (Some (join fs)) = Found (in_dir d).
Proof.
  intros f fs H C (d & I & P). rewrite find_join by exact H. clear H.
  induction fs as [|e fs IH]; [destruct I|].
  destruct (find_cases f e fs) as [Q|[[Q E]|[Q [x E]]]].
  - rewrite passed_next by exact Q. destruct I as [->|I]; [destruct Q as [Q _]; destruct (Q P)|].
    destruct IH as (d' & I' & P' & E'); [|exact I|].
    + intros g J. apply C. right. exact J.
    + exists d'. split; [right; exact I'|]. split; assumption.
  - exists e. split; [left; reflexivity|]. split; [|exact E].
    destruct Q as [Q|Q]; [exact Q|]. destruct (C e) as [_ X]; [left; reflexivity|]. destruct (X Q).
  - destruct (C e) as [X _]; [left; reflexivity|]. destruct (X Q).
Qed.

(** ** Descriptors *)
Lemma used_in : forall t n, used t n = true <-> In n (map fst t).
Proof.
  intros t n. unfold used. rewrite existsb_exists, in_map_iff. split.
  - intros (e & I & E). exists e. split; [lia|exact I].
  - intros (e & E & I). exists e. split; [exact I|lia].
Qed.
Lemma lowest_spec : forall fuel t n, exists j, lowest fuel t n = n + N.of_nat j /\ (j <= fuel)%nat
  /\ (forall i, (i < j)%nat -> In (n + N.of_nat i) (map fst t))
  /\ (In (lowest fuel t n) (map fst t) -> j = fuel).
Proof.
  induction fuel as [|fuel IH]; intros t n; cbn [lowest].
  - exists 0%nat. repeat split; lia.
  - destruct (used t n) eqn:U.
    + destruct (IH t (n + 1)) as (j & E & L & A & F). exists (S j). split; [lia|]. split; [lia|]. split.
      * intros [|i] I; [rewrite N.add_0_r; apply used_in, U|].
        replace (n + N.of_nat (S i)) with (n + 1 + N.of_nat i) by lia. apply A. lia.
      * intros I. rewrite (F I). reflexivity.
    + exists 0%nat. split; [lia|]. split; [lia|]. split; [lia|].
      intros I. apply used_in in I. congruence.
Qed.
Lemma free_fd_free : forall t, ~ In (free_fd t) (map fst t).
Proof.
  intros t I. unfold free_fd in I. destruct (lowest_spec (length t) t 0) as (j & E & L & A & F).
  specialize (F I). subst j. rewrite E in I.
  assert (X : (length (map N.of_nat (seq 0 (S (length t)))) <= length (map fst t))%nat).
  { apply NoDup_incl_length.
    - apply Injective_map_NoDup; [intros x y; lia|apply seq_NoDup].
    - intros x J. apply in_map_iff in J. destruct J as (i & <- & J). apply in_seq in J.
      destruct (Nat.eq_dec i (length t)) as [->|D]; [exact I|]. apply (A i). lia. }
  rewrite !map_length, seq_length in X. lia.
Qed.
(** The numbers below it are in use. *)
Lemma free_fd_least : forall t n, n < free_fd t -> In n (map fst t).
Proof.
  intros t n H. unfold free_fd in H. destruct (lowest_spec (length t) t 0) as (j & E & L & A & F).
  rewrite E in H. specialize (A (N.to_nat n)). rewrite N2Nat.id in A. apply A. lia.
Qed.

Lemma in_keys : forall (t : table) n v, In (n, v) t -> In n (map fst t).
Proof. intros t n v I. apply in_map_iff. exists (n, v). split; [reflexivity|exact I]. Qed.
Lemma close_in : forall t m n v, In (n, v) (close_fd t m) <-> In (n, v) t /\ n <> m.
Proof. intros. unfold close_fd. rewrite filter_In. cbn [fst]. intuition lia. Qed.
Lemma exec_in : forall t n o c, In (n, (o, c)) (exec t) <-> In (n, (o, c)) t /\ c = false.
Proof. intros. unfold exec. rewrite filter_In. cbn [snd]. destruct c; cbn; intuition congruence. Qed.
Lemma filter_nodup : forall (f : N * (obj * bool) -> bool) t, NoDup (map fst t) -> NoDup (map fst (filter f t)).
Proof.
  induction t as [|e t IH]; intros H; [exact H|]. inversion H; subst. cbn [filter].
  destruct (f e); [|auto]. cbn [map]. constructor; [|auto].
  intros I. apply in_map_iff in I. destruct I as (x & E & I). apply filter_In in I.
  apply H2. rewrite <- E. apply in_map, I.
Qed.
Lemma close_nodup : forall t n, NoDup (map fst t) -> NoDup (map fst (close_fd t n)).
Proof. intros. apply filter_nodup. assumption. Qed.
Lemma key_unique : forall (t : table) n v v', NoDup (map fst t) -> In (n, v) t -> In (n, v') t -> v = v'.
Proof.
  induction t as [|[m u] t IH]; intros n v v' H I J; [destruct I|]. cbn [map fst] in H. inversion H; subst.
  destruct I as [I|I], J as [J|J].
  - congruence.
  - injection I as -> ->. destruct H2. eapply in_keys, J.
  - injection J as -> ->. destruct H2. eapply in_keys, I.
  - eapply IH; eassumption.
Qed.
Lemma look_in : forall t n v, look t n = Some v -> In (n, v) t.
Proof.
  intros t n v H. unfold look in H. destruct (find _ t) as [[m u]|] eqn:F; [|discriminate H].
  cbn in H. injection H as ->. apply find_some in F. destruct F as [I E]. cbn in E.
  apply N.eqb_eq in E. subst m. exact I.
Qed.

Lemma dup2_chan : forall t old new n o c, (forall o c, In (old, (o, c)) t -> ~ channel o) ->
  In (n, (o, c)) (dup2 t old new) -> channel o -> In (n, (o, c)) t.
Proof.
  intros t old new n o c H I C. unfold dup2 in I. destruct (look t old) as [[o' c']|] eqn:L; [|exact I].
  destruct (old =? new); [exact I|]. destruct I as [I|I].
  - injection I as _ -> _. apply look_in in L. destruct (H _ _ L C).
  - apply close_in in I. apply I.
Qed.
Lemma dup2_keep : forall t old new n v, In (n, v) t -> n <> new -> In (n, v) (dup2 t old new).
Proof.
  intros t old new n v I D. unfold dup2. destruct (look t old) as [[o' c']|]; [|exact I].
  destruct (old =? new); [exact I|]. right. apply close_in. split; assumption.
Qed.
Lemma redirect_chan : forall t j n o c, (forall o c, In (2, (o, c)) t -> ~ channel o) ->
  In (n, (o, c)) (redirect t j) -> channel o -> In (n, (o, c)) t.
Proof.
  intros t j n o c H I C. destruct j as [x|]; cbn [redirect open_fd] in I.
  - set (f := free_fd t) in *. set (t1 := (f, (Thing x, true)) :: t) in *.
    assert (A : forall o c, In (f, (o, c)) t1 -> ~ channel o).
    { intros o' c' [J|J]; [injection J as <- <-; intros []|]. apply in_keys in J.
      destruct (free_fd_free t J). }
    assert (B : forall o c, In (f, (o, c)) (dup2 t1 f 1) -> ~ channel o).
    { intros o' c' J K. apply (A o' c'); [|exact K]. eapply dup2_chan; eassumption. }
    apply dup2_chan in I; [|exact B|exact C]. apply dup2_chan in I; [|exact A|exact C].
    destruct I as [I|I]; [|exact I]. injection I as _ <- _. destruct C.
  - eapply dup2_chan; eassumption.
Qed.
Lemma redirect_keep : forall t j n v, In (n, v) t -> 3 <= n -> In (n, v) (redirect t j).
Proof.
  intros t j n v I D. destruct j as [x|]; cbn [redirect open_fd].
  - apply dup2_keep; [|lia]. apply dup2_keep; [|lia]. right. exact I.
  - apply dup2_keep; [exact I|lia].
Qed.

Definition kid_ok (chans pids : N) (c : kid) : Prop :=
  k_pid c < pids
  /\ match k_chan c with
     | None => forall k, ~ holds (k_tab c) (EndB k)
     | Some (k, b) => k < chans /\ In (b, (EndB k, false)) (k_tab c) /\ 3 <= b
                      /\ ~ holds (k_tab c) (EndA k) /\ forall k', holds (k_tab c) (EndB k') -> k' = k
     end.
Definition inv (w : wifid) : Prop :=
  NoDup (map fst (f_tab w))
  /\ (forall n, n < 3 -> exists x, In (n, (Thing x, false)) (f_tab w))
  /\ (forall n o c, In (n, (o, c)) (f_tab w) -> channel o ->
        exists g, In g (f_groups w) /\ o = EndA (g_chan g) /\ n = g_comm g)
  /\ (forall g, In g (f_groups w) -> g_chan g < f_chans w /\ In (g_comm g, (EndA (g_chan g), false)) (f_tab w))
  /\ NoDup (map g_chan (f_groups w))
  /\ (forall c, In c (f_kids w) -> kid_ok (f_chans w) (f_pids w) c)
  /\ (forall c c' k b b', In c (f_kids w) -> In c' (f_kids w) -> k_chan c = Some (k, b) -> k_chan c' = Some (k, b') ->
        k_pid c = k_pid c').

Lemma kid_ok_mono : forall a b a' b' c, kid_ok a b c -> a <= a' -> b <= b' -> kid_ok a' b' c.
Proof.
  intros a b a' b' c [P Q] A B. split; [lia|]. destruct (k_chan c) as [[k n]|]; [|exact Q].
  destruct Q as [Q R]. split; [lia|exact R].
Qed.
Lemma inv_start : forall t, std_open t -> inv (start t).
Proof.
  intros t (A & B & C). unfold inv, start. cbn [f_tab f_groups f_chans f_kids f_pids map].
  split; [exact A|]. split; [exact B|]. split.
  { intros n o c I Ch. destruct (C n o c I) as [x ->]. destruct Ch. }
  split; [intros g []|]. split; [constructor|]. split; [intros c []|]. intros c c' k b b' [].
Qed.
(** The number 2 is not that of a channel. *)
Lemma inv_two : forall w, inv w -> forall o c, In (2, (o, c)) (f_tab w) -> ~ channel o.
Proof.
  intros w (A & B & _) o c I. destruct (B 2) as [x J]; [lia|].
  assert (E := key_unique _ _ _ _ A I J). injection E as -> ->. intros [].
Qed.
Lemma inv_no_b : forall w k, inv w -> ~ holds (f_tab w) (EndB k).
Proof.
  intros w k (_ & _ & C & _) (n & c & I). destruct (C _ _ _ I) as (g & _ & E & _); [exact Logic.I|]. discriminate E.
Qed.
Lemma inv_a : forall w k, inv w -> holds (f_tab w) (EndA k) -> k < f_chans w.
Proof.
  intros w k (_ & _ & C & D & _) (n & c & I). destruct (C _ _ _ I) as (g & J & E & _); [exact Logic.I|].
  injection E as ->. apply D in J. apply J.
Qed.

(** What a program gets from the descriptors of wifid and possibly a channel. *)
Section child.
Context (w : wifid) (H : inv w).
Let k := f_chans w.
Let a := free_fd (f_tab w).
Let t1 : table := (a, (EndA k, false)) :: f_tab w.
Let b := free_fd t1.
Let t2 : table := (b, (EndB k, false)) :: t1.
Lemma low_used : forall n, n < 3 -> In n (map fst (f_tab w)).
Proof. intros n L. destruct H as (_ & B & _). destruct (B n L) as [x I]. eapply in_keys, I. Qed.
Lemma a_high : 3 <= a.
Proof. destruct (N.lt_ge_cases a 3) as [L|L]; [|exact L]. destruct (free_fd_free (f_tab w)). apply low_used, L. Qed.
Lemma b_high : 3 <= b.
Proof.
  destruct (N.lt_ge_cases b 3) as [L|L]; [|exact L]. destruct (free_fd_free t1). right. apply low_used, L.
Qed.
Lemma b_not_a : b <> a.
Proof. intros E. destruct (free_fd_free t1). left. symmetry. exact E. Qed.
Lemma t2_nodup : NoDup (map fst t2).
Proof.
  constructor; [apply free_fd_free|]. constructor; [apply free_fd_free|]. apply H.
Qed.
Lemma closed_two : forall n o c, In (2, (o, c)) (close_fd t2 n) -> ~ channel o.
Proof.
  intros n o c I. apply close_in in I. destruct I as [[I|[I|I]] _].
  - exfalso. assert (X := b_high). injection I as E _ _. lia.
  - exfalso. assert (X := a_high). injection I as E _ _. lia.
  - eapply inv_two; eassumption.
Qed.
Lemma helper_ok : forall j, kid_ok (k + 1) (f_pids w + 1) (mkKid (f_pids w) (exec (redirect (close_fd t2 a) j)) (Some (k, b))).
Proof.
  intros j. split; cbn [k_pid k_tab k_chan]; [lia|].
  split; [lia|]. split.
  { apply exec_in. split; [|reflexivity]. apply redirect_keep; [|apply b_high].
    apply close_in. split; [left; reflexivity|apply b_not_a]. }
  split; [apply b_high|]. split.
  - intros (n & c & I). apply exec_in in I. destruct I as [I _].
    apply redirect_chan in I; [|apply closed_two|exact Logic.I]. apply close_in in I. destruct I as [[I|[I|I]] D].
    + discriminate I.
    + injection I as E _. congruence.
    + assert (X := inv_a w k H (ex_intro _ n (ex_intro _ c I))). unfold k in X. lia.
  - intros k' (n & c & I). apply exec_in in I. destruct I as [I _].
    apply redirect_chan in I; [|apply closed_two|exact Logic.I]. apply close_in in I. destruct I as [[I|[I|I]] D].
    + injection I as _ E _. congruence.
    + discriminate I.
    + exfalso. apply (inv_no_b w k' H). exists n, c. exact I.
Qed.
Lemma wpas_ok : forall j, kid_ok k (f_pids w + 1) (mkKid (f_pids w) (exec (redirect (f_tab w) j)) None).
Proof.
  intros j. split; cbn [k_pid k_tab k_chan]; [lia|].
  intros k' (n & c & I). apply exec_in in I. destruct I as [I _].
  apply redirect_chan in I; [|apply inv_two, H|exact Logic.I]. apply (inv_no_b w k' H). exists n, c. exact I.
Qed.

Lemma inv_fork : forall j, inv (spawn_dhcp w true j).
Proof.
  intros j. assert (HK := helper_ok j). assert (Ha := a_high). assert (Hb := b_high). assert (Hab := b_not_a).
  assert (HN := t2_nodup). pose proof H as (A & B & C & D & E & F & G).
  unfold inv, spawn_dhcp, open_fd. cbn [negb f_tab f_groups f_chans f_kids f_pids].
  fold k. fold a. fold t1. fold b. fold t2.
  split; [apply close_nodup, HN|]. split.
  { intros n L. destruct (B n L) as [x I]. exists x. apply close_in. split; [|lia]. right. right. exact I. }
  split.
  { intros n o c I Ch. apply close_in in I. destruct I as [[I|[I|I]] X].
    - injection I as I _ _. congruence.
    - injection I as <- <- <-. eexists. split; [left; reflexivity|]. split; reflexivity.
    - destruct (C n o c I Ch) as (g & J & K). exists g. split; [right; exact J|exact K]. }
  split.
  { intros g [<-|I]; cbn [g_chan g_comm].
    - split; [lia|]. apply close_in. split; [right; left; reflexivity|congruence].
    - destruct (D g I) as [X Y]. split; [unfold k; lia|]. apply close_in. split; [right; right; exact Y|].
      intros Z. apply (free_fd_free t1). change (free_fd t1) with b. rewrite <- Z. right. eapply in_keys, Y. }
  split.
  { cbn [map g_chan]. constructor; [|exact E]. intros I. apply in_map_iff in I. destruct I as (g & X & I).
    apply D in I. unfold k in X. lia. }
  split.
  { intros c [<-|I]; [exact HK|]. eapply kid_ok_mono; [apply F, I|unfold k; lia|lia]. }
  intros c c' k' n n' [<-|I] [<-|J] X Y; cbn [k_chan k_pid] in *.
  - reflexivity.
  - injection X as <- <-. destruct (F c' J) as [_ Z]. rewrite Y in Z. unfold k in Z. lia.
  - injection Y as <- <-. destruct (F c I) as [_ Z]. rewrite X in Z. unfold k in Z. lia.
  - eapply G; eassumption.
Qed.
Lemma inv_nofork : forall j, inv (spawn_dhcp w false j).
Proof.
  intros j. assert (Ha := a_high). assert (Hb := b_high). assert (Hab := b_not_a).
  assert (HN := t2_nodup). pose proof H as (A & B & C & D & E & F & G).
  unfold inv, spawn_dhcp, open_fd. cbn [negb f_tab f_groups f_chans f_kids f_pids].
  fold k. fold a. fold t1. fold b. fold t2.
  split; [apply close_nodup, close_nodup, HN|]. split.
  { intros n L. destruct (B n L) as [x I]. exists x. apply close_in. split; [|lia]. apply close_in. split; [|lia].
    right. right. exact I. }
  split.
  { intros n o c I Ch. apply close_in in I. destruct I as [I X]. apply close_in in I. destruct I as [[I|[I|I]] Y].
    - injection I as I _ _. congruence.
    - injection I as I _ _. congruence.
    - exact (C n o c I Ch). }
  split.
  { intros g I. destruct (D g I) as [X Y]. split; [unfold k; lia|]. apply close_in. split; [apply close_in; split|].
    - right. right. exact Y.
    - intros Z. apply (free_fd_free (f_tab w)). change (free_fd (f_tab w)) with a. rewrite <- Z. eapply in_keys, Y.
    - intros Z. apply (free_fd_free t1). change (free_fd t1) with b. rewrite <- Z. right. eapply in_keys, Y. }
  split; [exact E|]. split.
  { intros c I. eapply kid_ok_mono; [apply F, I|unfold k; lia|lia]. }
  exact G.
Qed.
Lemma inv_wpas : forall j, inv (spawn_wpas w j).
Proof.
  intros j. assert (HK := wpas_ok j). pose proof H as (A & B & C & D & E & F & G).
  unfold inv, spawn_wpas. cbn [f_tab f_groups f_chans f_kids f_pids].
  repeat (split; [assumption|]). split.
  { intros c [<-|I]; [exact HK|]. eapply kid_ok_mono; [apply F, I|lia|lia]. }
  intros c c' k' n n' [<-|I] [<-|J] X Y; cbn [k_chan k_pid] in *; try discriminate.
  eapply G; eassumption.
Qed.
Lemma inv_free : forall g l r, f_groups w = l ++ g :: r -> inv (free_group w g (l ++ r)).
Proof.
  intros g l r Eg. pose proof H as (A & B & C & D & E & F & G).
  assert (Ig : In g (f_groups w)) by (rewrite Eg; apply in_elt).
  unfold inv, free_group. cbn [f_tab f_groups f_chans f_kids f_pids].
  split; [apply close_nodup, A|]. destruct (D g Ig) as [Lg Tg]. split.
  { intros n L. destruct (B n L) as [x I]. exists x. apply close_in. split; [exact I|]. intros ->.
    assert (X := key_unique _ _ _ _ A I Tg). discriminate X. }
  rewrite Eg in E. rewrite map_app in E. cbn [map] in E.
  split.
  { intros n o c I Ch. apply close_in in I. destruct I as [I X].
    destruct (C n o c I Ch) as (g' & J & K & L). exists g'. split; [|split; assumption].
    rewrite Eg in J. apply in_app_iff in J. apply in_app_iff. destruct J as [J|[<-|J]]; [left; exact J| |right; exact J].
    congruence. }
  split.
  { intros g' I. assert (I' : In g' (f_groups w)).
    { rewrite Eg. apply in_app_iff in I. apply in_app_iff. destruct I as [I|I]; [left; exact I|right; right; exact I]. }
    destruct (D g' I') as [X Y]. split; [exact X|]. apply close_in. split; [exact Y|].
    intros Z. rewrite Z in Y. assert (U := key_unique _ _ _ _ A Y Tg). injection U as U.
    apply NoDup_remove_2 in E. apply E. rewrite <- U, <- map_app. apply in_map, I. }
  split; [rewrite map_app; eapply NoDup_remove_1, E|]. split; [exact F|exact G].
Qed.
Lemma inv_open : forall x, inv (open_other w x).
Proof.
  intros x. pose proof H as (A & B & C & D & E & F & G).
  unfold inv, open_other, open_fd. cbn [snd f_tab f_groups f_chans f_kids f_pids].
  split; [constructor; [apply free_fd_free|exact A]|]. split.
  { intros n L. destruct (B n L) as [y I]. exists y. right. exact I. }
  split.
  { intros n o c [I|I] Ch; [injection I as _ <- _; destruct Ch|]. exact (C n o c I Ch). }
  split.
  { intros g I. destruct (D g I) as [X Y]. split; [exact X|right; exact Y]. }
  split; [exact E|]. split; [exact F|exact G].
Qed.
Lemma inv_close : forall n x c, In (n, (Thing x, c)) (f_tab w) -> 3 <= n -> inv (close_other w n).
Proof.
  intros n x c In3 L3. pose proof H as (A & B & C & D & E & F & G).
  unfold inv, close_other. cbn [f_tab f_groups f_chans f_kids f_pids].
  split; [apply close_nodup, A|]. split.
  { intros m L. destruct (B m L) as [y I]. exists y. apply close_in. split; [exact I|lia]. }
  split.
  { intros m o c' I Ch. apply close_in in I. apply (C m o c'); [apply I|exact Ch]. }
  split.
  { intros g I. destruct (D g I) as [X Y]. split; [exact X|]. apply close_in. split; [exact Y|].
    intros Z. rewrite Z in Y. assert (U := key_unique _ _ _ _ A Y In3). discriminate U. }
  split; [exact E|]. split; [exact F|exact G].
Qed.
Lemma inv_end : forall c l r, f_kids w = l ++ c :: r -> inv (kid_ends w (l ++ r)).
Proof.
  intros c l r Ek. pose proof H as (A & B & C & D & E & F & G).
  assert (S : forall c', In c' (l ++ r) -> In c' (f_kids w)).
  { intros c' I. rewrite Ek. apply in_app_iff in I. apply in_app_iff. destruct I as [I|I]; [left; exact I|right; right; exact I]. }
  unfold inv, kid_ends. cbn [f_tab f_groups f_chans f_kids f_pids].
  repeat (split; [assumption|]). split; [intros c' I; apply F, S, I|].
  intros c1 c2 k' n n' I J. apply G; apply S; assumption.
Qed.
End child.

Lemma inv_step : forall w w', step w w' -> inv w -> inv w'.
Proof.
  intros w w' S H. destruct S.
  - destruct fork; [apply inv_fork, H|apply inv_nofork, H].
  - apply inv_wpas, H.
  - apply inv_free; assumption.
  - apply inv_open, H.
  - eapply inv_close; eassumption.
  - eapply inv_end; eassumption.
Qed.
Lemma inv_reach : forall t w, std_open t -> reach t w -> inv w.
Proof. intros t w S R. induction R; [apply inv_start, S|eapply inv_step; eassumption]. Qed.

Lemma own_ends : forall t w c, std_open t -> reach t w -> In c (f_kids w) -> own_end w c.
Proof.
  intros t w c S R I. assert (H := inv_reach t w S R). unfold own_end.
  destruct (k_chan c) as [[k b]|] eqn:E; [|exact Logic.I].
  pose proof H as (_ & _ & _ & _ & _ & F & G). destruct (F c I) as [_ X]. rewrite E in X.
  destruct X as (X1 & X2 & X3 & X4 & X5). repeat (split; [assumption|]).
  split; [apply inv_no_b, H|]. intros c' J K. destruct (F c' J) as [_ Y].
  destruct (k_chan c') as [[k' b']|] eqn:E'.
  - assert (k = k') by (apply Y, K). subst k'. eapply G; eassumption.
  - destruct (Y k K).
Qed.
(** The end of wifid is there as long as the group, and no longer. *)
Lemma group_ends : forall t w, std_open t -> reach t w ->
  (forall g, In g (f_groups w) -> look (f_tab w) (g_comm g) = Some (EndA (g_chan g), false))
  /\ (forall n o c, In (n, (o, c)) (f_tab w) -> channel o -> exists g, In g (f_groups w) /\ g_comm g = n /\ o = EndA (g_chan g)).
Proof.
  intros t w S R. assert (H := inv_reach t w S R). destruct H as (A & B & C & D & _). split.
  - intros g I. destruct (D g I) as [_ J]. unfold look.
    destruct (find (fun e => fst e =? g_comm g) (f_tab w)) as [[m v]|] eqn:F.
    + apply find_some in F. destruct F as [F1 F2]. cbn in F2. apply N.eqb_eq in F2. subst m.
      cbn. f_equal. eapply key_unique; eassumption.
    + assert (X := find_none _ _ F _ J). cbn in X. rewrite N.eqb_refl in X. discriminate X.
  - intros n o c I Ch. destruct (C n o c I Ch) as (g & X & Y & Z). exists g. auto.
Qed.
(** A program that is started while there is no group has no channel but its own. *)
Lemma alone : forall t w j, std_open t -> reach t w -> f_groups w = [] ->
  (forall c, In c (f_kids (spawn_dhcp w true j)) -> k_pid c = f_pids w -> only_own c)
  /\ (forall c, In c (f_kids (spawn_wpas w j)) -> k_pid c = f_pids w -> only_own c).
Proof.
  intros t w j S R E. assert (H := inv_reach t w S R). pose proof H as (A & B & C & D & _ & F & _).
  assert (Q : forall c, In c (f_kids w) -> k_pid c = f_pids w -> False).
  { intros c I X. destruct (F c I) as [Y _]. lia. }
  assert (W : forall n o c, In (n, (o, c)) (f_tab w) -> channel o -> False).
  { intros n o c I Ch. destruct (C n o c I Ch) as (g & X & _). rewrite E in X. destruct X. }
  split.
  - intros c I X. unfold spawn_dhcp, open_fd in I. cbn [negb f_kids] in I. destruct I as [<-|I]; [|destruct (Q c I X)].
    intros o (n & cl & I) Ch. cbn [k_tab k_chan] in *. apply exec_in in I. destruct I as [I _].
    apply redirect_chan in I; [|apply closed_two, H|exact Ch]. apply close_in in I.
    destruct I as [[I|[I|I]] N1].
    + injection I as _ <- _. eexists. eexists. split; reflexivity.
    + injection I as I _ _. congruence.
    + destruct (W n o cl I Ch).
  - intros c I X. unfold spawn_wpas in I. cbn [f_kids] in I. destruct I as [<-|I]; [|destruct (Q c I X)].
    intros o (n & cl & I) Ch. cbn [k_tab k_chan] in *. apply exec_in in I. destruct I as [I _].
    apply redirect_chan in I; [|apply inv_two, H|exact Ch]. destruct (W n o cl I Ch).
Qed.
(** What else a program can have is wifid's end of the channel of a group that was there when it
    started. *)
Lemma inherited : forall t w j o, std_open t -> reach t w -> channel o ->
  (forall c, In c (f_kids (spawn_wpas w j)) -> k_pid c = f_pids w ->
     (holds (k_tab c) o <-> exists g, In g (f_groups w) /\ o = EndA (g_chan g)))
  /\ (forall c, In c (f_kids (spawn_dhcp w true j)) -> k_pid c = f_pids w ->
     (holds (k_tab c) o <-> (exists g, In g (f_groups w) /\ o = EndA (g_chan g)) \/ o = EndB (f_chans w))).
Proof.
  intros t w j o S R Ch. assert (H := inv_reach t w S R). pose proof H as (A & B & C & D & _ & F & _).
  assert (Q : forall c, In c (f_kids w) -> k_pid c = f_pids w -> False).
  { intros c I X. destruct (F c I) as [Y _]. lia. }
  assert (Hi : forall g, In g (f_groups w) -> 3 <= g_comm g).
  { intros g I. destruct (D g I) as [_ J]. destruct (N.lt_ge_cases (g_comm g) 3) as [L|L]; [|exact L].
    destruct (B _ L) as [x K]. assert (U := key_unique _ _ _ _ A J K). discriminate U. }
  split; intros c I X.
  - unfold spawn_wpas in I. cbn [f_kids] in I. destruct I as [<-|I]; [|destruct (Q c I X)].
    cbn [k_tab]. split.
    + intros (n & cl & I). apply exec_in in I. destruct I as [I _].
      apply redirect_chan in I; [|apply inv_two, H|exact Ch]. destruct (C n o cl I Ch) as (g & J & K & _).
      exists g. split; assumption.
    + intros (g & I & ->). exists (g_comm g), false. apply exec_in. split; [|reflexivity].
      apply redirect_keep; [apply D, I|apply Hi, I].
  - unfold spawn_dhcp, open_fd in I. cbn [negb f_kids] in I. destruct I as [<-|I]; [|destruct (Q c I X)].
    cbn [k_tab]. split.
    + intros (n & cl & I). apply exec_in in I. destruct I as [I _].
      apply redirect_chan in I; [|apply closed_two, H|exact Ch]. apply close_in in I.
      destruct I as [[I|[I|I]] N1].
      * injection I as _ <- _. right. reflexivity.
      * injection I as I _ _. congruence.
      * destruct (C n o cl I Ch) as (g & J & K & _). left. exists g. split; assumption.
    + intros [(g & I & ->)| ->].
      * exists (g_comm g), false. apply exec_in. split; [|reflexivity].
        apply redirect_keep; [|apply Hi, I]. apply close_in. split; [right; right; apply D, I|].
        intros Z. apply (free_fd_free (f_tab w)). rewrite <- Z. eapply in_keys, D, I.
      * destruct (helper_ok w H j) as [_ (_ & Y & _)]. eexists. eexists. exact Y.
Qed.
