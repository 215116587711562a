From Coq Require Import String.
From Verif Require Import Base Text Setup_Model Link_Model Link_Spec Link_Proofs Wifid_Model Wifid_Spec.
Local Open Scope list_scope.

(** ** The name *)
Theorem read_name_ok level h old : h <> HText [] \/ old <> None \/ level < 4 ->
  read_name level h old = Ok (match h with HText (c :: t) => Some (c :: t) | HUnread => Some (text "undefined") | _ => old end).
Proof.
  intros H. destruct h as [|[|c t]|]; try reflexivity. cbn [read_name]. unfold WARNING. destruct (N.leb_spec 4 level) as [L|L]; [|reflexivity].
  destruct old; [reflexivity|]. destruct H as [H|[H|H]]; [congruence|congruence|lia].
Qed.

(** ** Links *)
Definition event_of (d : dev) : event := EUdev Other (d_ix d) (d_name d) (d_tag d) (d_ok d).
Lemma find_has ls i : Link_Model.find ls i <> None <-> has_link i ls.
Proof.
  unfold has_link. induction ls as [|l ls IH]; cbn [Link_Model.find]; [split; [congruence|intros (l & [] & _)]|].
  destruct (N.eqb_spec (l_ix l) i) as [E|E].
  - split; [intros _; exists l; split; [now left|exact E]|discriminate].
  - rewrite IH. split; [intros (x & H & Hx); exists x; split; [now right|exact Hx]|intros (x & [->|H] & Hx); [congruence|exists x; auto]].
Qed.
Lemma chosen_ok c n : exists b, chosen c (Some n) = Ok b.
Proof. unfold chosen. destruct (m_iface c); eauto. Qed.
Lemma add_dev_total c d ls : exists ls', add_dev c d ls = Ok ls'.
Proof.
  unfold add_dev. destruct (d_ix d =? 0); [eauto|]. destruct (Link_Model.find ls (d_ix d)).
  - destruct (d_name d) as [n|]; [|eauto]. destruct (chosen_ok c n) as [b ->]. cbn [bind]. eauto.
  - unfold add_link. destruct (d_name d) as [n|]; [|eauto]. destruct (chosen_ok c n) as [b ->]. cbn [bind]. destruct b; cbn [negb]; [|eauto]. destruct (p2p_name n); [eauto|].
    destruct (m_rely c); cbn [bind]; eauto.
Qed.
Lemma add_dev_has c d ls ls' i : i <> 0 -> add_dev c d ls = Ok ls' -> has_link i ls' <-> has_link i ls \/ (d_ix d = i /\ exists n, d_name d = Some n /\ acceptable c n).
Proof.
  intros Hi H. unfold add_dev in H. destruct (N.eqb_spec (d_ix d) 0) as [Z|Z].
  - injection H as <-. split; [auto|]. intros [H|[E _]]; [exact H|congruence].
  - destruct (Link_Model.find ls (d_ix d)) as [l|] eqn:F.
    + assert (ls' = ls) as ->. { destruct (d_name d) as [n|]; [|congruence]. destruct (chosen_ok c n) as [b B]. rewrite B in H. cbn [bind] in H. congruence. }
      split; [auto|]. intros [H'|[E _]]; [exact H'|]. apply find_has. congruence.
    + assert (S : step_link c (event_of d) ls = Ok ls') by (cbn [event_of step_link]; unfold udev; destruct (N.eqb_spec (d_ix d) 0); [congruence|]; rewrite F; exact H).
      rewrite (has_step c i (event_of d) ls ls' Hi S). unfold offers, event_of. split.
      * intros [O|[O _]]; [right|left; exact O]. destruct O as (a & n & tag & ok & E & _ & A). injection E as _ -> E _ _. eauto.
      * intros [O|[E (n & En & A)]]; [right; split; [exact O|]; intros (x & y & z & X); discriminate|]. left. exists Other, n, (d_tag d), (d_ok d). rewrite En, E. repeat split; [discriminate|apply A|apply A].
Qed.
Theorem read_links_total c ds : forall ls, exists ls', read_links c ds ls = Ok ls'.
Proof. induction ds as [|d ds IH]; intros ls; cbn [read_links]; [eauto|]. destruct (d_there d); [|eauto]. destruct (add_dev_total c d ls) as [l ->]. cbn [bind]. apply IH. Qed.
Lemma read_links_has c ds : forall ls ls' i, i <> 0 -> Forall (fun d => d_there d = true) ds -> read_links c ds ls = Ok ls' -> has_link i ls' <-> has_link i ls \/ wanted c ds i.
Proof.
  induction ds as [|d ds IH]; intros ls ls' i Hi A H; cbn [read_links] in H.
  - injection H as <-. split; [auto|]. intros [H|(d & n & [] & _)]. exact H.
  - inversion A as [|? ? A1 A2]; subst. rewrite A1 in H. destruct (add_dev c d ls) as [l|] eqn:E; [|discriminate]. cbn [bind] in H.
    rewrite (IH l ls' i Hi A2 H), (add_dev_has c d ls l i Hi E). unfold wanted. split.
    + intros [[X|(X & n & En & Ha)]|(d' & n & Hd & X)]; [auto|right; exists d, n; repeat split; [now left|assumption..|apply Ha|apply Ha]|right; exists d', n; split; [now right|exact X]].
    + intros [X|(d' & n & [<-|Hd] & E1 & _ & E2 & Ha)]; [auto|left; right; eauto|right; exists d', n; auto].
Qed.
Theorem links_at_start c ds ls i : i <> 0 -> Forall (fun d => d_there d = true) ds -> read_links c ds [] = Ok ls -> has_link i ls <-> wanted c ds i.
Proof. intros Hi A H. rewrite (read_links_has c ds [] ls i Hi A H). split; [intros [(l & [] & _)|X]; exact X|auto]. Qed.
Theorem links_before c a d b ls i : i <> 0 -> Forall (fun d => d_there d = true) a -> d_there d = false -> read_links c (a ++ d :: b) [] = Ok ls -> has_link i ls <-> wanted c a i.
Proof.
  intros Hi A D H. apply links_at_start; [exact Hi|exact A|]. clear - A D H. revert H. generalize (@nil lnk) as l0. induction a as [|x a IH]; intros l0 H; cbn [app read_links] in *.
  - rewrite D in H. exact H.
  - inversion A as [|? ? A1 A2]; subst. rewrite A1 in *. destruct (add_dev c x l0); [|discriminate]. cbn [bind] in *. exact (IH A2 _ H).
Qed.

(** ** The end *)
Lemma loop_spec ss : loop ss = if existsb signal_fn ss then Some 0%Z else None.
Proof. induction ss as [|s ss IH]; [reflexivity|]. cbn [loop existsb]. destruct (signal_fn s); [reflexivity|exact IH]. Qed.
Lemma signal_spec s : signal_fn s = true <-> asks_to_end s.
Proof. unfold asks_to_end. destruct s; cbn [signal_fn]; intuition congruence. Qed.
Lemma set_up_fine (f : call -> Z) cs : Forall (fun x => (0 <= f x)%Z) cs -> set_up f cs = (0%Z, cs).
Proof. induction 1 as [|c cs H _ IH]; [reflexivity|]. cbn [set_up]. replace (f c <? 0)%Z with false by lia. now rewrite IH. Qed.
Lemma set_up_fails (f : call -> Z) a c b : Forall (fun x => (0 <= f x)%Z) a -> (f c < 0)%Z -> set_up f (a ++ c :: b) = (f c, a ++ [c]).
Proof.
  intros A H. induction A as [|x a Hx _ IH]; cbn [app set_up]; [replace (f c <? 0)%Z with true by lia; reflexivity|]. replace (f x <? 0)%Z with false by lia. now rewrite IH.
Qed.
Lemma some_failure (f : call -> Z) : forall cs, Forall (fun x => (0 <= f x)%Z) cs \/ exists a c b, cs = a ++ c :: b /\ (f c < 0)%Z /\ Forall (fun x => (0 <= f x)%Z) a.
Proof.
  induction cs as [|c cs IH]; [left; constructor|]. destruct (Z.lt_ge_cases (f c) 0) as [H|H]; [right; exists [], c, cs; repeat split; auto|].
  destruct IH as [IH|(a & x & b & -> & H1 & H2)]; [left; constructor; auto|right; exists (c :: a), x, b; repeat split; auto].
Qed.
Theorem ends_failing f ss c a b : calls = a ++ c :: b -> Forall (fun x => (0 <= f x)%Z) a -> (-255 <= f c < 0)%Z ->
  wifid 1 true f ss = (a ++ [c], Some (Z.to_N (- f c))) /\ Z.to_N (- f c) <> 0.
Proof.
  intros E A H. unfold wifid. cbn [Z.ltb Z.compare Z.eqb]. rewrite E, (set_up_fails f a c b A) by lia. replace (f c <? 0)%Z with true by lia. unfold status.
  replace (Z.abs (f c) mod 256)%Z with (- f c)%Z by (rewrite Z.abs_neq by lia; rewrite Z.mod_small by lia; reflexivity). split; [reflexivity|lia].
Qed.
Theorem serves f ss : Forall (fun x => (0 <= f x)%Z) calls -> wifid 1 true f ss = (calls, if existsb signal_fn ss then Some 0 else None).
Proof. intros A. unfold wifid. cbn [Z.ltb Z.compare Z.eqb]. rewrite (set_up_fine f calls A), loop_spec. cbn [Z.ltb Z.compare]. destruct (existsb signal_fn ss); reflexivity. Qed.
Theorem ends_well parse root f ss : usual f -> snd (wifid parse root f ss) = Some 0 <->
  parse = 0%Z \/ (0 < parse)%Z /\ root = true /\ Forall (fun x => (0 <= f x)%Z) calls /\ exists s, In s ss /\ asks_to_end s.
Proof.
  intros U. unfold wifid. destruct (Z.ltb_spec parse 0) as [P|P]; [cbn [snd]; split; [discriminate|intros [H|[H _]]; lia]|].
  destruct (Z.eqb_spec parse 0) as [P0|P0]; [cbn [snd]; split; auto|]. destruct root; [|cbn [snd]; split; [vm_compute; discriminate|intros [H|(_ & H & _)]; [congruence|discriminate]]].
  destruct (some_failure f calls) as [A|(a & c & b & E & H1 & H2)].
  - rewrite (set_up_fine f calls A), loop_spec. cbn [Z.ltb Z.compare snd]. destruct (existsb signal_fn ss) eqn:X.
    + apply existsb_exists in X. destruct X as (s & Hs & X). apply signal_spec in X. split; [|reflexivity]. intros _. right. repeat split; [lia|exact A|eauto].
    + split; [discriminate|]. intros [H|(_ & _ & _ & s & Hs & H)]; [congruence|]. exfalso. apply signal_spec in H. assert (existsb signal_fn ss = true) by (apply existsb_exists; eauto). congruence.
  - rewrite E, (set_up_fails f a c b H2 H1). replace (f c <? 0)%Z with true by lia. cbn [snd]. specialize (U c). split.
    + intros H. exfalso. injection H as H. unfold status in H. rewrite Z.abs_neq, Z.mod_small in H by lia. lia.
    + intros [H|(_ & _ & H & _)]; [congruence|]. exfalso. rewrite Forall_forall in H. specialize (H c (in_elt c a b)). cbv beta in H. lia.
Qed.
