From Verif Require Import Base Reap_Model Reap_Spec.
Local Open Scope list_scope.

Lemma run_app k a b : run k (a ++ b) = run (run k a) b.
Proof. apply fold_left_app. Qed.
Lemma unwatch_pids p l : map c_pid (unwatch p l) = map c_pid l.
Proof. unfold unwatch. rewrite map_map. apply map_ext. intros c. destruct (N.eqb_spec (c_pid c) p) as [E|E]; [symmetry; exact E|reflexivity]. Qed.
Lemma without_in p q l : In q (map c_pid (without p l)) <-> In q (map c_pid l) /\ q <> p.
Proof.
  unfold without. rewrite !in_map_iff. split.
  - intros (c & <- & H). apply filter_In in H. destruct H as [H E]. split; [eauto|]. intros X. rewrite X, N.eqb_refl in E. discriminate.
  - intros [(c & <- & H) E]. exists c. split; [reflexivity|]. apply filter_In. split; [exact H|]. destruct (N.eqb_spec (c_pid c) p); [congruence|reflexivity].
Qed.
Lemma find_pid p l c : find (fun c => c_pid c =? p) l = Some c -> In c l /\ c_pid c = p.
Proof. intros H. apply find_some in H. destruct H as [H E]. apply N.eqb_eq in E. auto. Qed.
Lemma find_none_pid p l : find (fun c => c_pid c =? p) l = None -> ~ In p (map c_pid l).
Proof. intros H I. apply in_map_iff in I. destruct I as (c & E & I). pose proof (find_none _ _ H c I) as X. cbv beta in X. rewrite E, N.eqb_refl in X. discriminate. Qed.

(** ** One at a time *)
Definition tidy (quiet : bool) (k : kids) : Prop :=
  (k_dead k = [] /\ k_sig k = None) \/ (quiet = false /\ exists c, k_dead k = [c] /\ k_sig k = Some (c_pid c)).
Lemma tidy_handle quiet k b : tidy quiet k -> tidy true (step k (Handle b)).
Proof.
  intros [(D & S)|(_ & c & D & S)]; cbn [step]; rewrite S; [left; auto|]. left. cbn [k_dead k_sig]. rewrite D. split; [|reflexivity]. cbn [filter existsb].
  destruct (c_watched c); cbn [negb orb filter]; unfold reap, without; cbn [filter]; rewrite ?N.eqb_refl; destruct b; reflexivity.
Qed.
Lemma tidy_run es : forall quiet k, tidy quiet k -> apart quiet es -> exists q, tidy q (run k es).
Proof.
  induction es as [|e es IH]; intros quiet k T A; cbn [run fold_left]; [eauto|]. change (exists q, tidy q (run (step k e) es)). destruct e as [p|p|p|b]; cbn [apart] in A.
  - apply (IH quiet); [exact T|exact A].
  - apply (IH quiet); [|exact A]. destruct T as [(D & S)|(Q & c & D & S)]; cbn [step]; [left; cbn [k_dead k_sig]; rewrite D; auto|]. right. split; [exact Q|]. cbn [k_dead k_sig]. rewrite D.
    exists (if c_pid c =? p then mkChild p false else c). split; [reflexivity|]. rewrite S. destruct (N.eqb_spec (c_pid c) p) as [E|E]; [cbn [c_pid]; congruence|reflexivity].
  - destruct A as [-> A]. apply (IH false); [|exact A]. destruct T as [(D & S)|(Q & _)]; [|discriminate]. cbn [step]. destruct (find _ (k_run k)) as [c|] eqn:F.
    + right. split; [reflexivity|]. cbn [k_dead k_sig]. rewrite D, S. exists c. apply find_pid in F. destruct F as [_ <-]. auto.
    + left. auto.
  - apply (IH true); [|exact A]. apply (tidy_handle quiet). exact T.
Qed.
Theorem reaped_apart es b : apart true es -> k_dead (run none (es ++ [Handle b])) = [].
Proof.
  intros A. rewrite run_app. destruct (tidy_run es true none (or_introl (conj eq_refl eq_refl)) A) as [q T].
  apply (tidy_handle q _ b) in T. change (k_dead (step (run none es) (Handle b)) = []). destruct T as [(D & _)|(X & _)]; [exact D|discriminate].
Qed.

(** ** With a child source *)
Definition noticed (k : kids) : Prop := existsb c_watched (k_dead k) = true -> k_sig k <> None.
Lemma existsb_unwatch p l : existsb c_watched (unwatch p l) = true -> existsb c_watched l = true.
Proof.
  rewrite !existsb_exists. intros (c & H & W). unfold unwatch in H. apply in_map_iff in H. destruct H as (d & E & H). destruct (c_pid d =? p); [subst c; discriminate|]. subst d. eauto.
Qed.
Lemma unwatched_filter l : existsb c_watched (filter (fun c => negb (c_watched c)) l) = false.
Proof. induction l as [|c l IH]; [reflexivity|]. cbn [filter]. destruct (c_watched c) eqn:W; cbn [negb]; [exact IH|]. cbn [existsb]. rewrite W. exact IH. Qed.
Lemma unwatched_without p l : existsb c_watched l = false -> existsb c_watched (without p l) = false.
Proof. induction l as [|c l IH]; [reflexivity|]. cbn [existsb without filter]. intros H. apply orb_false_iff in H. destruct H as [W H]. destruct (c_pid c =? p); cbn [negb existsb]; [exact (IH H)|]. rewrite W. exact (IH H). Qed.
Lemma handled k b : k_sig k <> None -> existsb c_watched (k_dead (step k (Handle b))) = false /\ k_sig (step k (Handle b)) = None.
Proof.
  intros S. cbn [step]. destruct (k_sig k) as [p|]; [|congruence]. cbn [k_dead k_sig]. split; [|reflexivity]. destruct (_ || _); [apply unwatched_without|]; apply unwatched_filter.
Qed.
Lemma noticed_step k e : noticed k -> noticed (step k e).
Proof.
  intros N. destruct e as [p|p|p|b].
  - exact N.
  - unfold noticed. cbn [step k_dead k_sig]. intros H. apply N. now apply existsb_unwatch in H.
  - cbn [step]. destruct (find _ (k_run k)); [|exact N]. unfold noticed. cbn [k_dead k_sig]. intros _. destruct (k_sig k); discriminate.
  - destruct (k_sig k) eqn:S; [|cbn [step]; rewrite S; exact N]. unfold noticed. rewrite (proj1 (handled k b ltac:(congruence))). discriminate.
Qed.
Lemma noticed_run es : forall k, noticed k -> noticed (run k es).
Proof. induction es as [|e es IH]; intros k N; [exact N|]. apply IH. now apply noticed_step. Qed.
Theorem watched_reaped es b p : ~ In (mkChild p true) (k_dead (run none (es ++ [Handle b]))).
Proof.
  rewrite run_app. change (~ In (mkChild p true) (k_dead (step (run none es) (Handle b)))). intros H.
  assert (N : noticed (run none es)) by (apply noticed_run; intros X; discriminate X).
  assert (X : existsb c_watched (k_dead (step (run none es) (Handle b))) = true) by (apply existsb_exists; eauto).
  destruct (k_sig (run none es)) eqn:S.
  - rewrite (proj1 (handled (run none es) b ltac:(congruence))) in X. discriminate.
  - cbn [step] in X. rewrite S in X. exact (N X S).
Qed.

(** ** For ever *)
Lemma stays k e p : In (mkChild p false) (k_dead k) -> k_sig k <> Some p -> ~ runs p k -> In (mkChild p false) (k_dead (step k e)) /\ k_sig (step k e) <> Some p.
Proof.
  intros D S R. destruct e as [q|q|q|b]; cbn [step].
  - auto.
  - split; [|exact S]. cbn [k_dead]. unfold unwatch. apply in_map_iff. exists (mkChild p false). split; [|exact D]. cbn [c_pid]. destruct (N.eqb_spec p q) as [->|]; reflexivity.
  - destruct (find _ (k_run k)) as [c|] eqn:F; [|auto]. cbn [k_dead k_sig]. split; [apply in_app_iff; auto|]. destruct (k_sig k) as [x|] eqn:X; [congruence|]. intros E. injection E as ->.
    apply find_pid in F. destruct F as [F E]. apply R. unfold runs. rewrite <- E. now apply in_map.
  - destruct (k_sig k) as [x|] eqn:X; [|rewrite X; split; [exact D|discriminate]]. cbn [k_dead k_sig]. split; [|discriminate].
    assert (Df : In (mkChild p false) (filter (fun c => negb (c_watched c)) (k_dead k))) by (apply filter_In; auto).
    destruct (_ || _); [|exact Df]. unfold reap, without. apply filter_In. split; [exact Df|]. cbn [c_pid]. destruct (N.eqb_spec p x); [congruence|reflexivity].
Qed.
Lemma runs_step k e p : runs p (step k e) -> runs p k \/ e = Start p.
Proof.
  unfold runs. destruct e as [q|q|q|b]; cbn [step].
  - cbn [k_run]. rewrite map_app, in_app_iff. cbn [map In c_pid]. intros [H|[H|[]]]; [auto|right; congruence].
  - cbn [k_run]. rewrite unwatch_pids. auto.
  - destruct (find _ (k_run k)); [|auto]. cbn [k_run]. rewrite without_in. tauto.
  - destruct (k_sig k); auto.
Qed.
Theorem left_forever es : forall k p, In (mkChild p false) (k_dead k) -> k_sig k <> Some p -> ~ runs p k -> ~ In p (starts es) -> zombie p (run k es).
Proof.
  induction es as [|e es IH]; intros k p D S R N.
  - unfold zombie. change p with (c_pid (mkChild p false)). now apply in_map.
  - change (zombie p (run (step k e) es)). destruct (stays k e p D S R) as [D' S']. apply IH; [exact D'|exact S'| |].
    + intros H. apply runs_step in H. destruct H as [H| ->]; [exact (R H)|]. apply N. cbn [starts flat_map app]. now left.
    + intros H. apply N. cbn [starts flat_map]. apply in_app_iff. now right.
Qed.

(** ** Never too early *)
Theorem runs_until es e p : runs p (run none es) -> e <> End p -> runs p (run none (es ++ [e])).
Proof.
  intros H E. rewrite run_app. change (runs p (step (run none es) e)). revert H. generalize (run none es) as k. intros k H. unfold runs in *. destruct e as [q|q|q|b]; cbn [step].
  - cbn [k_run]. rewrite map_app, in_app_iff. auto.
  - cbn [k_run]. rewrite unwatch_pids. exact H.
  - destruct (find _ (k_run k)); [|exact H]. cbn [k_run]. rewrite without_in. split; [exact H|congruence].
  - destruct (k_sig k); exact H.
Qed.
