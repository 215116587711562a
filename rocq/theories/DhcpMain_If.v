(** Proofs about the addresses of the interface and the exit status of miracle-dhcp. *)
From Coq Require Import String.
From Verif Require Import Base Text Settings_Model DhcpMain_Model DhcpMain_Spec DhcpMain_Proofs.
From Verif Require Comm_Model.
Local Open Scope list_scope.

Lemma holds_app p : forall old q, holds old (p ++ q) = holds (holds old p) q.
Proof. induction p as [|x p IH]; intros old q; [reflexivity|]. cbn [app holds]. destruct x as [[]|a []|m|a b c| |]; apply IH. Qed.
Lemma holds_cons x o old : holds old (x :: o) = holds (holds old [x]) o.
Proof. apply (holds_app [x] old o). Qed.
Definition few (old h : list (list byte)) : Prop := h = old \/ h = [] \/ exists a, h = [a].
Definition right (h : list (list byte)) (x : out) : Prop :=
  match x with
  | Tell m => exists a s, h = [a ++ 47 :: s] /\ forall y, m = text "L:" ++ y -> y = a
  | Add _ _ => h = []
  | _ => True
  end.
Fixpoint walk (old h : list (list byte)) (o : list out) : Prop :=
  match o with [] => few old h | x :: o => few old h /\ right h x /\ walk old (holds h [x]) o end.
Lemma walk_few old o h : walk old h o -> few old h.
Proof. destruct o; [auto|]. now intros [H _]. Qed.
Lemma walk_app old p : forall h q, walk old h p -> walk old (holds h p) q -> walk old h (p ++ q).
Proof.
  induction p as [|x p IH]; intros h q H G; [exact G|]. destruct H as (H1 & H2 & H3). cbn [app walk]. split; [exact H1|]. split; [exact H2|].
  apply IH; [exact H3|]. now rewrite <- holds_cons.
Qed.
Lemma walk_at old o : forall h, walk old h o -> forall p q, o = p ++ q -> few old (holds h p) /\ forall x q', q = x :: q' -> right (holds h p) x.
Proof.
  induction o as [|y o IH]; intros h W p q E.
  - destruct p; [|discriminate]. cbn [app] in E. subst q. split; [exact W|discriminate].
  - destruct W as (W1 & W2 & W3). destruct p as [|z p].
    + cbn [app] in E. subst q. split; [exact W1|]. intros x q' [= <- <-]. exact W2.
    + inversion E; subst. rewrite holds_cons. apply (IH _ W3 p q eq_refl).
Qed.
(** The client: what it holds is what it believes to have set. *)
Definition in_step (old h : list (list byte)) (c : Comm_Model.client) : Prop :=
  match Comm_Model.c_addr c with None => h = old | Some a => h = [a] end.
Lemma same_some c a : Comm_Model.same c a = true -> c = Some a.
Proof. unfold Comm_Model.same. destruct c as [b|]; [|discriminate]. destruct (list_eq_dec N.eq_dec b a); [congruence|discriminate]. Qed.
Lemma lease_walk old h c x f a c' o : Comm_Model.c_runs c = true -> in_step old h c -> lease_fn c x f a = (c', o) ->
  walk old h o /\ (Comm_Model.c_runs c' = true -> in_step old (holds h o) c').
Proof.
  intros Rn V E. assert (Fw : few old h) by (unfold in_step in V; destruct (Comm_Model.c_addr c) as [b|]; [right; right; now exists b|now left]).
  unfold lease_fn, Comm_Model.lease_fn in E. destruct (Comm_Model.l_addr x) as [addr|].
  2: { inversion E; subst. cbn [app map walk holds Comm_Model.c_runs]. split; [exact Fw|discriminate]. }
  set (sub := match Comm_Model.l_subnet x with s :: _ => s | [] => text "24" end) in *.
  destruct (Comm_Model.same (Comm_Model.c_addr c) (addr ++ 47 :: sub)) eqn:S.
  { inversion E; subst. cbn [app map walk holds]. split; [exact Fw|intros _; exact V]. }
  destruct f; cbn [negb] in E.
  2: { inversion E; subst. cbn [app map walk right holds Comm_Model.c_runs]. split; [auto|discriminate]. }
  destruct a; cbn [negb] in E.
  2: { inversion E; subst. cbn [app map walk right holds Comm_Model.c_runs]. unfold few. split; [intuition|discriminate]. }
  inversion E; subst. clear E. cbn [map app walk right holds Comm_Model.c_runs].
  assert (F1 : few old [addr ++ 47 :: sub]) by (right; right; eauto). assert (F0 : few old []) by (right; now left).
  assert (TL : exists b s, [addr ++ 47 :: sub] = [b ++ 47 :: s] /\ forall y, text "L:" ++ addr = text "L:" ++ y -> y = b).
  { exists addr, sub. split; [reflexivity|]. intros y Ey. inversion Ey. reflexivity. }
  assert (TO : forall k v, k <> 76 -> exists b s, [addr ++ 47 :: sub] = [b ++ 47 :: s] /\ forall y, (k :: 58 :: v) = text "L:" ++ y -> y = b).
  { intros k v K. exists addr, sub. split; [reflexivity|]. intros y Ey. inversion Ey. contradiction. }
  destruct (Comm_Model.l_dns x) as [|d ds]; destruct (Comm_Model.l_router x) as [|g gs]; cbn [map app walk right holds];
    (split; [repeat (split; [assumption||exact Logic.I||reflexivity||exact TL|]); repeat split; try assumption; try exact TL; try (apply TO; discriminate)
            |intros _; reflexivity]).
Qed.
Lemma client_walk old l : forall h c c' o e, Comm_Model.c_runs c = true -> in_step old h c -> client_loop c l = (c', o, e) -> walk old h o.
Proof.
  induction l as [|[x f y| |m ip|] l IH]; intros h c c' o e Rn V; cbn [client_loop].
  1, 3, 5: intros [= <- <- <-]; cbn [walk]; unfold in_step in V; destruct (Comm_Model.c_addr c) as [b|]; [right; right; now exists b|now left].
  - destruct (lease_fn c x f y) as [c1 o1] eqn:E. destruct (lease_walk old h c x f y c1 o1 Rn V E) as [W K].
    destruct (Comm_Model.c_runs c1) eqn:R1.
    + destruct (client_loop c1 l) as [[c2 o2] e2] eqn:E2. intros [= <- <- <-]. apply walk_app; [exact W|]. exact (IH _ _ _ _ _ R1 (K eq_refl) E2).
    + intros [= <- <- <-]. exact W.
  - now apply IH.
Qed.
(** The server. *)
Lemma server_walk old a s l : walk old [a ++ 47 :: s] (fst (server_loop l)) /\ holds [a ++ 47 :: s] (fst (server_loop l)) = [a ++ 47 :: s].
Proof.
  assert (F : few old [a ++ 47 :: s]) by (right; right; eauto).
  induction l as [|[x f y| |m ip|] l [IH1 IH2]]; cbn [server_loop]; auto; try (split; [exact F|reflexivity]).
  destruct (server_loop l) as [o e]. cbn [fst walk right holds] in *. repeat split; auto. exists a, s. split; [reflexivity|].
  intros z Ez. unfold Comm_Model.server_event in Ez. inversion Ez.
Qed.
Lemma few_old old : few old old. Proof. now left. Qed.
Lemma few_nil old : few old []. Proof. right. now left. Qed.
Lemma few_one old a : few old [a]. Proof. right. right. now exists a. Qed.
Lemma end_walk old h b : few old h -> walk old h [Halt; Flush b].
Proof. intros F. cbn [walk right holds]. repeat split; auto. destruct b; [apply few_nil|exact F]. Qed.
Lemma flush_walk old h b : few old h -> walk old h [Flush b].
Proof. intros F. cbn [walk right holds]. repeat split; auto. destruct b; [apply few_nil|exact F]. Qed.
Lemma set_up_serve a s : set_up a = Some s -> exists x y z, s = Serve x y z.
Proof.
  unfold set_up. destruct (inet_pton (a_subnet a)); [|discriminate]. destruct (inet_pton (a_gateway a)); [|discriminate]. destruct (inet_pton (a_dns a)); [|discriminate].
  destruct (inet_pton (a_from a)); [|discriminate]. destruct (inet_pton (a_to a)); [|discriminate]. intros [= <-]. eauto.
Qed.
Lemma run_walk old e f l : walk old old (fst (run e f l)).
Proof.
  unfold run. destruct (e_index e); cbn [negb]; [|apply few_old]. destruct (e_signals e =? 0); cbn [negb]; [|apply few_old].
  destruct (f_serve f) as [a|].
  - unfold run_server. destruct (e_flush e =? 0); cbn [negb].
    2: { cbn [fst walk right holds]. repeat split; try apply few_old. destruct (e_last e); [apply few_nil|apply few_old]. }
    destruct (e_add e =? 0); cbn [negb].
    2: { cbn [fst app walk right holds]. repeat split; try apply few_old; try apply few_nil. destruct (e_last e); apply few_nil. }
    set (addr := a_local a ++ 47 :: a_subnet a).
    assert (U : forall o, walk old [addr] o -> walk old old ([Flush true; Add addr true] ++ o)).
    { intros o W. cbn [app walk right holds]. repeat split; auto; [apply few_old|apply few_nil]. }
    destruct (e_new e =? 0); cbn [negb fst]; [|apply U, flush_walk, few_one].
    destruct (set_up a) as [s|] eqn:S; [|apply U, end_walk, few_one].
    destruct (set_up_serve a s S) as (x & y & z & ->).
    destruct (e_start e); cbn [negb fst].
    2: { apply U. cbn [walk right holds]. split; [apply few_one|]. split; [exact Logic.I|]. apply (end_walk old [addr]), few_one. }
    pose proof (server_walk old (a_local a) (a_subnet a) l) as [W1 W2]. fold addr in W1, W2. destruct (server_loop l) as [o d]. cbn [fst] in *.
    assert (W : walk old [addr] (Serve x y z :: Tell (Comm_Model.server_up (a_local a)) :: o)).
    { cbn [walk right holds]. repeat split; try apply few_one; [|exact W1]. exists (a_local a), (a_subnet a). split; [reflexivity|].
      intros w Ew. unfold Comm_Model.server_up in Ew. inversion Ew. reflexivity. }
    destruct d; cbn [fst]; [|now apply U]. rewrite <- app_assoc. apply U. apply walk_app; [exact W|].
    apply end_walk. cbn [holds]. rewrite W2. apply few_one.
  - unfold run_client. destruct (e_new e =? 0); cbn [negb fst]; [|apply few_old].
    destruct (e_start e); cbn [negb fst]; [|cbn [walk right holds]; repeat split; apply few_old].
    destruct (client_loop Comm_Model.new_client l) as [[c o] d] eqn:E.
    assert (W : walk old old (Seek :: o)).
    { cbn [walk right holds]. split; [apply few_old|]. split; [exact Logic.I|]. apply (client_walk old l old Comm_Model.new_client c o d); [reflexivity|reflexivity|exact E]. }
    destruct d; cbn [fst]; [|exact W]. apply (walk_app old (Seek :: o)); [exact W|].
    assert (F : few old (holds old (Seek :: o))).
    { apply (proj1 (walk_at old (Seek :: o) old W (Seek :: o) [] (eq_sym (app_nil_r _)))). }
    destruct (is_none (Comm_Model.c_addr c)); [|now apply end_walk]. cbn [walk right holds] in *. auto.
Qed.
Lemma run_few old e f l p q : fst (run e f l) = p ++ q -> few old (holds old p).
Proof. intros E. exact (proj1 (walk_at old _ old (run_walk old e f l) p q E)). Qed.
Lemma run_tells old e f l p m q : fst (run e f l) = p ++ Tell m :: q ->
  exists a s, holds old p = [a ++ text "/" ++ s] /\ forall y, m = text "L:" ++ y -> y = a.
Proof. intros E. exact (proj2 (walk_at old _ old (run_walk old e f l) p (Tell m :: q) E) _ _ eq_refl). Qed.
Lemma run_adds old e f l p a b q : fst (run e f l) = p ++ Add a b :: q -> holds old p = [].
Proof. intros E. exact (proj2 (walk_at old _ old (run_walk old e f l) p (Add a b :: q) E) _ _ eq_refl). Qed.

(** ** At the end *)
Lemma lease_touch c x f a c' o : lease_fn c x f a = (c', o) -> Comm_Model.c_addr c' = None -> Comm_Model.c_addr c = None /\ forall z, In z o -> ~ touches z.
Proof.
  unfold lease_fn, Comm_Model.lease_fn. destruct (Comm_Model.l_addr x) as [addr|].
  2: { intros [= <- <-] H. cbn [Comm_Model.c_addr] in H. split; [exact H|intros z []]. }
  destruct (Comm_Model.same _ _) eqn:S.
  { intros [= <- <-] H. apply same_some in S. congruence. }
  destruct f; cbn [negb]; [|intros [= <- <-]; discriminate]. destruct a; cbn [negb]; intros [= <- <-]; discriminate.
Qed.
Lemma client_touch l : forall c c' o e, client_loop c l = (c', o, e) -> Comm_Model.c_addr c' = None -> Comm_Model.c_addr c = None /\ forall z, In z o -> ~ touches z.
Proof.
  induction l as [|[x f y| |m ip|] l IH]; intros c c' o e; cbn [client_loop].
  1, 3, 5: intros [= <- <- <-] H; split; [exact H|intros z []].
  - destruct (lease_fn c x f y) as [c1 o1] eqn:E. destruct (Comm_Model.c_runs c1).
    + destruct (client_loop c1 l) as [[c2 o2] e2] eqn:E2. intros [= <- <- <-] H. destruct (IH _ _ _ _ E2 H) as [H1 T2].
      destruct (lease_touch _ _ _ _ _ _ E H1) as [H0 T1]. split; [exact H0|]. intros z I. apply in_app_or in I as [I|I]; auto.
    + intros [= <- <- <-] H. exact (lease_touch _ _ _ _ _ _ E H).
  - apply IH.
Qed.
Lemma run_end e f l o n : run e f l = (o, Some n) -> (exists x, In x o /\ touches x) -> exists p, o = p ++ [Flush (e_last e)].
Proof.
  unfold run. intros R (x & I & T). destruct (e_index e); cbn [negb] in R; [|inversion R; subst; destruct I].
  destruct (e_signals e =? 0); cbn [negb] in R; [|inversion R; subst; destruct I].
  destruct (f_serve f) as [a|].
  - unfold run_server in R. set (addr := a_local a ++ 47 :: a_subnet a) in *.
    destruct (e_flush e =? 0); cbn [negb] in R; [|inversion R; now exists [Flush false]].
    destruct (e_add e =? 0); cbn [negb] in R; [|inversion R; now exists [Flush true; Add addr false]].
    destruct (e_new e =? 0); cbn [negb] in R; [|inversion R; now exists [Flush true; Add addr true]].
    destruct (set_up a) as [s|]; [|inversion R; now exists [Flush true; Add addr true; Halt]].
    destruct (e_start e); cbn [negb] in R; [|inversion R; now exists [Flush true; Add addr true; s; Halt]].
    destruct (server_loop l) as [o' d]. destruct d; inversion R. exists (([Flush true; Add addr true] ++ s :: Tell (Comm_Model.server_up (a_local a)) :: o') ++ [Halt]).
    rewrite <- app_assoc. reflexivity.
  - unfold run_client in R. destruct (e_new e =? 0); cbn [negb] in R; [|inversion R; subst; destruct I].
    destruct (e_start e); cbn [negb] in R; [|inversion R; subst; destruct I as [<-|[]]; destruct T].
    destruct (client_loop Comm_Model.new_client l) as [[c o'] d] eqn:E. destruct d; inversion R; subst; clear R.
    destruct (Comm_Model.c_addr c) as [b|] eqn:A; cbn [is_none].
    + exists (Seek :: o' ++ [Halt]). cbn [app]. now rewrite <- app_assoc.
    + exfalso. destruct (client_touch _ _ _ _ _ E A) as [_ K]. cbn [is_none] in I.
      destruct I as [<-|I]; [destruct T|]. apply in_app_or in I as [I|[<-|[]]]; [now elim (K x I)|destruct T].
Qed.
Lemma run_clean old e f l o n : run e f l = (o, Some n) -> e_last e = true -> (exists x, In x o /\ touches x) -> holds old o = [].
Proof. intros R L T. destruct (run_end e f l o n R T) as (p & ->). rewrite holds_app, L. reflexivity. Qed.
Lemma client_still l : forall c c' o e, client_loop c l = (c', o, e) -> (forall x f a, In (Lease x f a) l -> Comm_Model.l_addr x = None) -> o = [].
Proof.
  induction l as [|[x f y| |m ip|] l IH]; intros c c' o e E H; cbn [client_loop] in E.
  1, 3, 5: inversion E; reflexivity.
  - unfold lease_fn, Comm_Model.lease_fn in E. rewrite (H x f y (or_introl eq_refl)) in E. cbn [Comm_Model.c_runs app map] in E. inversion E. reflexivity.
  - apply (IH _ _ _ _ E). intros x f y I. apply (H x f y). now right.
Qed.
Lemma run_still e f l o r : run e f l = (o, r) -> f_serve f = None -> (forall x a b, In (Lease x a b) l -> Comm_Model.l_addr x = None) ->
  forall z, In z o -> z = Seek \/ z = Halt.
Proof.
  unfold run. intros R F H z I. destruct (e_index e); cbn [negb] in R; [|inversion R; subst; destruct I].
  destruct (e_signals e =? 0); cbn [negb] in R; [|inversion R; subst; destruct I]. rewrite F in R. unfold run_client in R.
  destruct (e_new e =? 0); cbn [negb] in R; [|inversion R; subst; destruct I].
  destruct (e_start e); cbn [negb] in R; [|inversion R; subst; destruct I as [<-|[]]; auto].
  destruct (client_loop Comm_Model.new_client l) as [[c o'] d] eqn:E. pose proof (client_still _ _ _ _ _ E H) as ->.
  assert (A : Comm_Model.c_addr c = None).
  { clear -E H. revert c d E. generalize Comm_Model.new_client (eq_refl : Comm_Model.c_addr Comm_Model.new_client = None).
    induction l as [|[x f y| |m ip|] l IH]; intros c0 C0 c d E; cbn [client_loop] in E.
    1, 3, 5: inversion E; subst; exact C0.
    - unfold lease_fn, Comm_Model.lease_fn in E. rewrite (H x f y (or_introl eq_refl)) in E. cbn [Comm_Model.c_runs app map] in E. inversion E. exact C0.
    - apply (IH ltac:(intros x f y I; apply (H x f y); now right) c0 C0 c d E). }
  rewrite A in R. cbn [is_none] in R. destruct d; inversion R; subst; cbn [app In] in I; intuition congruence.
Qed.

(** ** The exit status *)
Lemma proper_set_up a : is_address (a_gateway a) -> is_address (a_dns a) -> is_address (a_subnet a) -> is_address (a_from a) -> is_address (a_to a) ->
  exists s, set_up a = Some s.
Proof.
  intros (? & ? & ? & ? & H1) (? & ? & ? & ? & H2) (? & ? & ? & ? & H3) (? & ? & ? & ? & H4) (? & ? & ? & ? & H5). unfold set_up.
  rewrite (pton_dotted _ _ _ _ _ H1), (pton_dotted _ _ _ _ _ H2), (pton_dotted _ _ _ _ _ H3), (pton_dotted _ _ _ _ _ H4), (pton_dotted _ _ _ _ _ H5). eauto.
Qed.
Lemma run_status e f l o n : proper f -> run e f l = (o, Some n) -> (n <> 0 <-> fails e f).
Proof.
  intros P R. unfold run in R. unfold fails. destruct (e_index e) eqn:E1; cbn [negb] in R.
  2: { inversion R; subst. split; [auto|discriminate]. }
  destruct (N.eqb_spec (e_signals e) 0) as [E2|E2]; cbn [negb] in R.
  2: { inversion R; subst. tauto. }
  destruct (f_serve f) as [a|] eqn:F.
  - unfold run_server in R. destruct (N.eqb_spec (e_flush e) 0) as [E3|E3]; cbn [negb] in R.
    2: { inversion R; subst. split; [intros _; right; right; left; split; [discriminate|auto]|auto]. }
    destruct (N.eqb_spec (e_add e) 0) as [E4|E4]; cbn [negb] in R.
    2: { inversion R; subst. split; [intros _; right; right; left; split; [discriminate|auto]|auto]. }
    destruct (N.eqb_spec (e_new e) 0) as [E5|E5]; cbn [negb] in R.
    2: { inversion R; subst. tauto. }
    destruct (P a F) as (_ & P2 & P3 & P4 & P5 & P6). destruct (proper_set_up a P2 P3 P4 P5 P6) as (s & S). rewrite S in R.
    destruct (e_start e) eqn:E6; cbn [negb] in R.
    2: { inversion R; subst. split; [tauto|discriminate]. }
    destruct (server_loop l) as [o' d]. destruct d; inversion R. split; [congruence|]. intros [?|[?|[[_ [?|?]]|[?|?]]]]; congruence.
  - unfold run_client in R. destruct (N.eqb_spec (e_new e) 0) as [E5|E5]; cbn [negb] in R.
    2: { inversion R; subst. tauto. }
    destruct (e_start e) eqn:E6; cbn [negb] in R.
    2: { inversion R; subst. split; [tauto|discriminate]. }
    destruct (client_loop Comm_Model.new_client l) as [[c o'] d]. destruct d; inversion R.
    split; [congruence|]. intros [?|[?|[[? _]|[?|?]]]]; congruence.
Qed.
Lemma parse_proper access argv f : parse_argv access argv = Ok (Go f) -> proper f.
Proof.
  unfold parse_argv. destruct (getopt dhcp_shorts dhcp_longs argv []) as [es ops]. destruct (rounds dhcp_opt es d_start) as [[s| |]|]; cbn [bind]; try discriminate.
  intros H. assert (G : settle access ops s = Go f) by congruence. apply settle_iff in G as (_ & _ & _ & _ & _ & _ & K). intros a A. rewrite A in K.
  unfold part in K. intuition.
Qed.
