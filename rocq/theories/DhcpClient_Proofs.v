From Verif Require Import Base DhcpClient_Model DhcpClient_Spec.

(** ** Histories *)
Definition nf (t : N) (n : nat) : history := repeat (t, NotFound) n.
Lemma fold_nf {A} (f : A -> N * event -> A) t n a : (forall a, f a (t, NotFound) = a) -> fold_left f (nf t n) a = a.
Proof. intros H. unfold nf. induction n; [reflexivity|]. cbn [repeat fold_left]. rewrite H. exact IHn. Qed.
Lemma running_nf h t n : running (h ++ nf t n) = running h.
Proof. unfold running. rewrite fold_left_app. apply fold_nf. reflexivity. Qed.
Lemma running_snoc h x : running (h ++ [x]) = running_step (running h) x.
Proof. unfold running. rewrite fold_left_app. reflexivity. Qed.
Lemma deadline_nf h t n : deadline (h ++ nf t n) = deadline h.
Proof. unfold deadline. rewrite fold_left_app. apply fold_nf. reflexivity. Qed.
Lemma deadline_snoc h x : deadline (h ++ [x]) = deadline_step (deadline h) x.
Proof. unfold deadline. rewrite fold_left_app. reflexivity. Qed.
Lemma gave_up_nf h t n : gave_up (h ++ nf t n) = gave_up h.
Proof. unfold gave_up. rewrite fold_left_app. apply fold_nf. reflexivity. Qed.
Lemma gave_up_snoc h x : gave_up (h ++ [x]) = gave_up_step (gave_up h) x.
Proof. unfold gave_up. rewrite fold_left_app. reflexivity. Qed.
Lemma discovers_app a b : discovers (a ++ b) = discovers a + discovers b.
Proof. unfold discovers. rewrite filter_app. len. reflexivity. Qed.
Lemma discovers_nf t n : discovers (nf t n) = 0.
Proof. unfold nf. induction n; [reflexivity|]. exact IHn. Qed.
Ltac logs := repeat (rewrite ?running_nf, ?running_snoc, ?deadline_nf, ?deadline_snoc, ?gave_up_nf, ?gave_up_snoc, ?discovers_app, ?discovers_nf); cbn [running_step deadline_step gave_up_step snd fst].

(** ** Timers *)
Lemma without_absent id l : pending id l = false -> without id l = l.
Proof.
  unfold pending, without, other. induction l as [|s l IH]; [reflexivity|]. cbn [existsb filter]. intros H. apply orb_false_iff in H. destruct H as [H1 H2].
  rewrite H1. cbn [negb]. rewrite IH by exact H2. reflexivity.
Qed.
Lemma set_srcs_same c : set_srcs (srcs c) (next_id c) c = c.
Proof. destruct c. reflexivity. Qed.
Lemma set_log_same c : set_log (log c) c = c.
Proof. destruct c. reflexivity. Qed.
Definition cut (id : N) (l : list source) : list source := if id =? 0 then l else without id l.
Lemma remove_eq id c : exists n, remove id c = set_log (log c ++ nf (now c) n) (set_srcs (cut id (srcs c)) (next_id c) c).
Proof.
  unfold remove, cut. destruct (id =? 0).
  - exists O. cbn [nf repeat]. rewrite app_nil_r, set_srcs_same, set_log_same. reflexivity.
  - destruct (pending id (srcs c)) eqn:P.
    + exists O. cbn [nf repeat]. rewrite app_nil_r. destruct c. reflexivity.
    + exists 1%nat. rewrite without_absent, set_srcs_same by exact P. reflexivity.
Qed.
Lemma nf_app t a b : nf t a ++ nf t b = nf t (a + b).
Proof. unfold nf. rewrite repeat_app. reflexivity. Qed.
Lemma remove_timeouts_cut c : exists n, remove_timeouts c =
  set_log (log c ++ nf (now c) n) (set_srcs (cut (lease_timeout c) (cut (t2_timeout c) (cut (t1_timeout c) (cut (timeout c) (srcs c))))) (next_id c) (set_timers 0 0 0 0 c)).
Proof.
  unfold remove_timeouts.
  destruct (remove_eq (timeout c) c) as [n1 E1]. rewrite E1.
  match goal with |- context [remove (t1_timeout c) ?x] => destruct (remove_eq (t1_timeout c) x) as [n2 E2]; rewrite E2 end.
  match goal with |- context [remove (t2_timeout c) ?x] => destruct (remove_eq (t2_timeout c) x) as [n3 E3]; rewrite E3 end.
  match goal with |- context [remove (lease_timeout c) ?x] => destruct (remove_eq (lease_timeout c) x) as [n4 E4]; rewrite E4 end.
  exists (n1 + n2 + n3 + n4)%nat. rewrite <- !nf_app, !app_assoc. destruct c. reflexivity.
Qed.
Lemma in_cut s id l : In s (cut id l) <-> In s l /\ (id = 0 \/ s_id s <> id).
Proof.
  unfold cut, without, other. destruct (N.eqb_spec id 0) as [->|H]; [tauto|]. rewrite filter_In, negb_true_iff, N.eqb_neq. intuition.
Qed.
(** Every source is in a member: all are removed. *)
Definition known (c : client) : Prop :=
  forall s, In s (srcs c) -> s_id s <> 0 /\ (s_id s = timeout c \/ s_id s = t1_timeout c \/ s_id s = t2_timeout c \/ s_id s = lease_timeout c).
Lemma nil_in {A} (l : list A) : (forall x, ~ In x l) -> l = [].
Proof. destruct l; [reflexivity|]. intros H. destruct (H a). left. reflexivity. Qed.
Lemma remove_timeouts_eq c : known c -> exists n, remove_timeouts c = set_log (log c ++ nf (now c) n) (set_srcs [] (next_id c) (set_timers 0 0 0 0 c)).
Proof.
  intros K. destruct (remove_timeouts_cut c) as [n E]. exists n. rewrite E. f_equal. f_equal. apply nil_in. intros s H. rewrite !in_cut in H.
  destruct (K s) as [H0 H1]; [tauto|]. intuition congruence.
Qed.
Lemma without_in s id l : In s (without id l) <-> In s l /\ s_id s <> id.
Proof. unfold without, other. rewrite filter_In, negb_true_iff, N.eqb_neq. tauto. Qed.
Lemma nodup_without id l : NoDup (map s_id l) -> NoDup (map s_id (without id l)).
Proof.
  induction l as [|s l IH]; [trivial|]. cbn [map]. intros H. inversion H; subst. unfold without in *. cbn [filter]. destruct (other id s); [|auto]. cbn [map]. constructor; [|auto].
  intros I. apply H2. apply in_map_iff in I. destruct I as (x & E & I). apply filter_In in I. apply in_map_iff. exists x. tauto.
Qed.
Lemma nodup_cut id l : NoDup (map s_id l) -> NoDup (map s_id (cut id l)).
Proof. unfold cut. destruct (id =? 0); [trivial|apply nodup_without]. Qed.
Lemma find_src id l s : find (fun s => s_id s =? id) l = Some s -> In s l /\ s_id s = id.
Proof. intros H. apply find_some in H. destruct H as [H1 H2]. split; [exact H1|]. apply N.eqb_eq, H2. Qed.

(** ** The invariant *)
Definition timeout_kind (k : kind) : bool := match k with KReboot | KDiscover | KRequest | KRestart => true | _ => false end.
Definition allowed (s : state) (k : kind) : bool :=
  match s, k with
  | (BOUND | RENEWING | REBINDING), KExpire => true
  | BOUND, (KRenew | KRebind) | RENEWING, (KRenew2 | KRebind) | REBINDING, KRebind2 => true
  | _, _ => false
  end.
Definition slot (k : kind) (c : client) : N :=
  match k with
  | KReboot | KDiscover | KRequest | KRestart => timeout c
  | KRenew | KRenew2 => t1_timeout c | KRebind | KRebind2 => t2_timeout c | KExpire => lease_timeout c
  end.
(** With a lease: the timer of its end is pending. *)
Record bound (n : Prop) (c : client) : Prop := Bound {
  b_nodup : NoDup (map s_id (srcs c));
  b_own : forall s, In s (srcs c) -> s_id s = slot (s_kind s) c /\ allowed (st c) (s_kind s) = true;
  b_ids : 0 < t1_timeout c < next_id c /\ 0 < t2_timeout c < next_id c /\ 0 < lease_timeout c < next_id c
    /\ t1_timeout c <> t2_timeout c /\ t1_timeout c <> lease_timeout c /\ t2_timeout c <> lease_timeout c;
  b_exp : exists d, In (Src (lease_timeout c) KExpire d) (srcs c) /\ (n \/ deadline (log c) = Some d);
  b_run : running (log c) = true;
  b_time : timeout c = 0;
  b_listen : st c = RENEWING -> lmode c = L3 \/ watch c = false }.
(** [b]: sockets may fail; [n]: a NAK may end a lease. *)
Inductive shape (b n : Prop) (c : client) : Prop :=
| ShIdle : srcs c = [] -> (running (log c) = true -> b \/ gave_up (log c) = true) -> (running (log c) = false -> watch c = false) -> st c <> BOUND /\ st c <> RENEWING -> (n \/ deadline (log c) = None) -> shape b n c
| ShOne k d : timeout_kind k = true -> srcs c = [Src (timeout c) k d] -> 0 < timeout c < next_id c -> running (log c) = true ->
    st c <> BOUND /\ st c <> RENEWING -> (n \/ deadline (log c) = None) -> shape b n c
| ShBound : bound n c -> shape b n c.
(** The counters; [m] NAKs were received. *)
Definition restarts (l : list source) : N := lenN (filter (fun s => match s_kind s with KRestart => true | _ => false end) l).
Record counts (m : N) (c : client) : Prop := Counts {
  k_ack : ack_retry c + restarts (srcs c) <= m;
  k_retry : retry c <= 5 }.
Definition pot (c : client) : N :=
  match srcs c with
  | [] => 0
  | [s] => match s_kind s with KDiscover => 5 - retry c | KRequest => 0 | _ => 6 end
  | _ => 6
  end.
Record inv (b n : Prop) (m : N) (c : client) : Prop := Inv {
  i_next : 0 < next_id c;
  i_shape : shape b n c;
  i_counts : m <= 6 -> counts m c;
  i_six : retry c <> 6;
  i_request : forall s, In s (srcs c) -> s_kind s = KRequest -> retry c <= 2 }.
(** What a step does: the events [l], and a bound for the DISCOVERs still to come. *)
Definition effect (b n : Prop) (m : N) (lonely : Prop) (c c' : client) : Prop :=
  exists l, log c' = log c ++ l /\ inv b n m c' /\ (lonely -> m <= 6 -> discovers l + pot c' <= pot c).

Lemma shape_known b n c : shape b n c -> known c.
Proof.
  intros [E _ _ _ _|k d K E T _ _ _|B] s I.
  - rewrite E in I. destruct I.
  - rewrite E in I. destruct I as [<-|[]]. cbn [s_id]. split; [lia|tauto].
  - destruct (b_own n c B s I) as [E A]. destruct (b_ids n c B) as (I1 & I2 & I3 & _). destruct (st c), (s_kind s); cbn [slot allowed] in *; try discriminate; rewrite E; (split; [lia|tauto]).
Qed.

(** ** start *)
Inductive started (sock : bool) (la : option N) (c : client) : client -> bool -> Prop :=
| S_no : retry c = 6 -> started sock la c (set_retry 0 (emit NoLease c)) true
| S_fail x : retry c = 0 -> sock = false -> srcs x = srcs c -> log x = log c -> next_id x = next_id c -> st x = INIT_SELECTING ->
    retry x = retry c -> ack_retry x = ack_retry c -> lmode x = L_NONE -> started sock la c x false
| S_ok k ev x : retry c <> 6 -> srcs x = srcs c ++ [Src (next_id c) k (now c + 5000)] -> timeout x = next_id c -> next_id x = next_id c + 1 ->
    log x = log c ++ [(now c, ev)] -> retry x = retry c -> ack_retry x = ack_retry c ->
    (k = KDiscover /\ ev = Discover 0 /\ (st x = INIT_SELECTING \/ st x = st c) \/ k = KReboot /\ la <> None /\ (exists a, ev = Request (Some a) None None false) /\ st x = REBOOTING) ->
    started sock la c x true.
Lemma switch_other sock m c : let x := fst (switch sock m c) in
  st x = st c /\ srcs x = srcs c /\ log x = log c /\ next_id x = next_id c /\ retry x = retry c /\ ack_retry x = ack_retry c /\ now x = now c
  /\ timeout x = timeout c /\ t1_timeout x = t1_timeout c /\ t2_timeout x = t2_timeout c /\ lease_timeout x = lease_timeout c
  /\ T1 x = T1 c /\ T2 x = T2 c /\ expire x = expire c /\ lease x = lease c /\ req_ip x = req_ip c /\ server_ip x = server_ip c /\ last x = last c.
Proof. unfold switch. destruct (mode_eqb (lmode c) m); [cbn; tauto|]. destruct (mode_eqb (lmode c) L_NONE), (mode_eqb m L_NONE), sock; cbn; tauto. Qed.
Lemma switch_ok m c : snd (switch true m c) = true.
Proof. unfold switch. destruct (mode_eqb (lmode c) m); [reflexivity|]. destruct (mode_eqb m L_NONE); reflexivity. Qed.
Lemma start_started fuel sock la c x : start fuel sock Nothing la c = Ret x -> started sock la c (fst x) (snd x).
Proof.
  destruct fuel as [|fuel]; [discriminate|]. cbn [start].
  destruct (N.eqb_spec (retry c) 6) as [E6|E6]; [cbn [obind]; intros H; inversion H; subst; cbn [fst snd]; apply S_no, E6|].
  set (c1 := set_st INIT_SELECTING (set_assigned None c)).
  assert (X : exists c2 ok, (if retry c =? 0 then switch sock L2 c1 else (c, true)) = (c2, ok)
    /\ srcs c2 = srcs c /\ log c2 = log c /\ next_id c2 = next_id c /\ retry c2 = retry c /\ ack_retry c2 = ack_retry c /\ now c2 = now c
    /\ (ok = false -> retry c = 0 /\ sock = false) /\ (ok = false -> st c2 = INIT_SELECTING) /\ (ok = false -> lmode c2 = L_NONE) /\ (st c2 = INIT_SELECTING \/ st c2 = st c)).
  { destruct (N.eqb_spec (retry c) 0) as [E0|E0].
    - destruct (switch sock L2 c1) as [c2 ok] eqn:Es. exists c2, ok. split; [reflexivity|]. assert (Y := switch_other sock L2 c1). rewrite Es in Y. cbn in Y. destruct Y as (Y1 & Y2 & Y3 & Y4 & Y5 & Y6 & Y7 & _).
      repeat split; try assumption; try (left; assumption); try (intros; assumption).
      + destruct sock; [|reflexivity]. assert (Z := switch_ok L2 c1). rewrite Es in Z. cbn in Z. congruence.
      + intros ->. revert Es. unfold switch. destruct (lmode c1) eqn:Em, sock; cbn; intros Es; inversion Es; subst; try reflexivity. exact Em.
    - exists c, true. repeat split; try discriminate; try (right; reflexivity). }
  destruct X as (c2 & ok & E & Y2 & Y3 & Y4 & Y5 & Y6 & Y7 & Yok & Yst & Yl & Ys). rewrite E.
  destruct ok; cbn [negb].
  2:{ intros H; inversion H; subst; cbn [fst snd]. destruct (Yok eq_refl). apply S_fail; auto. }
  destruct la as [a|].
  2:{ cbn [N.eqb negb]. intros H; inversion H; subst; cbn [fst snd]. eapply (S_ok _ _ _ KDiscover (Discover 0)); cbn -[N.add]; try congruence. left. auto. }
  destruct (N.eqb_spec a 0xffffffff) as [Ea|Ea].
  { cbn [N.eqb negb]. intros H; inversion H; subst; cbn [fst snd]. eapply (S_ok _ _ _ KDiscover (Discover 0)); cbn -[N.add]; try congruence. left. auto. }
  destruct (N.eqb_spec a 0) as [Ea0|Ea0]; cbn [negb]; intros H; inversion H; subst; cbn [fst snd].
  - eapply (S_ok _ _ _ KDiscover (Discover 0)); cbn -[N.add]; try congruence. left. auto.
  - eapply (S_ok _ _ _ KReboot (Request (Some a) None None false)); cbn -[N.add]; try congruence. right. repeat split; try discriminate. eauto.
Qed.

Lemma without_app id a b : without id (a ++ b) = without id a ++ without id b.
Proof. unfold without. apply filter_app. Qed.
Lemma without_new id k t c : id < next_id c -> without id [Src (next_id c) k t] = [Src (next_id c) k t].
Proof. intros H. unfold without, other. cbn [filter s_id]. replace (next_id c =? id) with false by lia. reflexivity. Qed.
Definition closed (id : N) (c : client) : client := set_srcs (without id (srcs c)) (next_id c) c.

Lemma closed_same id c : without id (srcs c) = srcs c -> closed id c = c.
Proof. intros H. unfold closed. rewrite H. apply set_srcs_same. Qed.
Lemma start_then b n m fuel sock la c x id :
  start fuel sock Nothing la c = Ret x -> id < next_id c -> without id (srcs c) = [] -> running (log c) = true ->
  st c <> BOUND /\ st c <> RENEWING -> (n \/ deadline (log c) = None) -> (sock = true \/ b) -> (m <= 6 -> ack_retry c <= m /\ retry c <= 6) ->
  exists l, log (fst x) = log c ++ l /\ inv b n m (closed id (fst x))
    /\ (m <= 6 -> discovers l + pot (closed id (fst x)) <= match la with None => 6 - retry c | _ => 6 end)
    /\ (forall s, In s (srcs (closed id (fst x))) -> timeout_kind (s_kind s) = true).
Proof.
  intros H Hid Hw Hr Hst Hn Hs Hm. apply start_started in H. destruct H as [E6|x' E0 Es Esr El En Est Er Ea Eli|k ev x' E6 Esr Et En El Er Ea Hk].
  - exists [(now c, NoLease)]. split; [reflexivity|]. split.
    + split; [cbn; lia| | | |]; cbn [closed set_srcs set_retry emit set_log srcs log st ack_retry retry]; rewrite ?Hw.
      * apply ShIdle; cbn [closed set_srcs set_retry emit set_log srcs log st]; [exact Hw| | | exact Hst|]; logs; [tauto|congruence|exact Hn].
      * intros M. split; cbn [closed set_srcs set_retry emit set_log srcs ack_retry retry]; [rewrite Hw; destruct (Hm M); change (restarts []) with 0; lia|lia].
      * lia.
      * intros s [].
    + split; [|cbn [closed set_srcs set_retry emit set_log srcs]; rewrite Hw; intros s []].
      intros _. unfold pot. cbn [closed set_srcs set_retry emit set_log srcs]. rewrite Hw. change (discovers [(now c, NoLease)]) with 0. destruct la; lia.
  - exists []. rewrite app_nil_r. split; [exact El|]. split.
    + split; [cbn; lia| | | |].
      * apply ShIdle; cbn [closed set_srcs srcs log st]; [rewrite Esr; exact Hw| | | |]; rewrite ?El, ?Est; [destruct Hs; [congruence|tauto]|congruence|split; discriminate|exact Hn].
      * intros M. split; cbn [closed set_srcs srcs ack_retry retry]; rewrite ?Esr, ?Hw, ?Ea, ?Er; [destruct (Hm M); change (restarts []) with 0; lia|lia].
      * cbn [closed set_srcs retry]. lia.
      * cbn [closed set_srcs srcs]. rewrite Esr, Hw. intros s [].
    + split; [|cbn [closed set_srcs srcs]; rewrite Esr, Hw; intros s []].
      intros _. unfold pot. cbn [closed set_srcs srcs]. rewrite Esr, Hw. change (discovers []) with 0. destruct la; lia.
  - exists [(now c, ev)]. split; [exact El|].
    assert (Ew : without id (srcs x') = [Src (next_id c) k (now c + 5000)]) by (rewrite Esr, without_app, Hw, without_new by exact Hid; reflexivity).
    assert (Hev : match ev with Discover _ | Request _ _ _ _ => True | _ => False end) by (destruct Hk as [(_ & -> & _)|(_ & _ & [a ->] & _)]; exact I).
    split.
    + split; [cbn; lia| | | |].
      * apply (ShOne _ _ _ k (now c + 5000)); cbn [closed set_srcs srcs log st timeout next_id]; rewrite ?El, ?Et.
        -- destruct Hk as [(-> & _)|(-> & _)]; reflexivity.
        -- exact Ew.
        -- lia.
        -- logs. destruct ev; try destruct Hev; exact Hr.
        -- destruct Hk as [(_ & _ & [->| ->])|(_ & _ & _ & ->)]; try exact Hst; split; discriminate.
        -- logs. destruct ev; try destruct Hev; exact Hn.
      * intros M. destruct (Hm M). split; cbn [closed set_srcs srcs ack_retry retry]; rewrite ?Ew, ?Ea, ?Er.
        -- destruct Hk as [(-> & _)|(-> & _)]; match goal with |- context [restarts ?l] => change (restarts l) with 0 end; lia.
        -- lia.
      * cbn [closed set_srcs retry]. congruence.
      * cbn [closed set_srcs srcs]. rewrite Ew. intros s [<-|[]]. destruct Hk as [(-> & _)|(-> & _)]; discriminate.
    + split; [|cbn [closed set_srcs srcs]; rewrite Ew; intros s [<-|[]]; destruct Hk as [(-> & _)|(-> & _)]; reflexivity].
      intros M. destruct (Hm M). unfold pot. cbn [closed set_srcs srcs retry]. rewrite Ew. cbn [s_kind].
      destruct Hk as [(-> & -> & _)|(-> & Hla & [a ->] & _)].
      * change (discovers [(now c, Discover 0)]) with 1. cbv iota. rewrite Er. destruct la; lia.
      * destruct la; [|contradiction Hla; reflexivity]. match goal with |- context [discovers ?l] => change (discovers l) with 0 end. lia.
Qed.
Lemma api_start b n m fuel sock la c x :
  start fuel sock Nothing la c = Ret x -> inv b n m c -> (lmode (fst x) = L_NONE -> watch (fst x) = false) -> running (log c) = false -> (sock = true \/ b) ->
  effect b n m False c (emit (Start (snd x)) (fst x)).
Proof.
  intros H I Li R Hs. destruct (i_shape _ _ _ _ I) as [E _ _ Hst Hn|k d _ _ _ R' _ _|B]; [|congruence|rewrite (b_run _ _ B) in R; discriminate].
  assert (N0 := i_next _ _ _ _ I). assert (C := i_counts _ _ _ _ I). apply start_started in H.
  destruct H as [E6|x' E0 Es Esr El En Est Er Ea Eli|k ev x' E6 Esr Et En El Er Ea Hk].
  - contradiction (i_six _ _ _ _ I).
  - exists [(now x', Start false)]. cbn [fst snd]. split; [cbn; rewrite El; reflexivity|]. split; [|tauto]. split; cbn [emit set_log srcs log st next_id retry ack_retry].
    + lia.
    + apply ShIdle; cbn [emit set_log srcs log st watch]; [congruence| | | |]; rewrite ?El, ?Est; logs; [discriminate|intros _; apply Li, Eli|split; discriminate|exact Hn].
    + intros M. destruct (C M). split; cbn [emit set_log srcs ack_retry retry]; rewrite ?Esr, ?Ea, ?Er; assumption.
    + lia.
    + rewrite Esr, E. intros s [].
  - exists [(now c, ev); (now x', Start true)]. split; [cbn; rewrite El, <- app_assoc; reflexivity|]. split; [|tauto].
    assert (Hev : match ev with Discover _ | Request _ _ _ _ => True | _ => False end) by (destruct Hk as [(_ & -> & _)|(_ & _ & [a ->] & _)]; exact Logic.I).
    rewrite E in Esr. cbn [app] in Esr. split; cbn [fst snd emit set_log srcs log st next_id retry ack_retry].
    + lia.
    + apply (ShOne _ _ _ k (now c + 5000)); cbn [fst snd emit set_log srcs log st timeout next_id]; rewrite ?El, ?Et.
      * destruct Hk as [(-> & _)|(-> & _)]; reflexivity.
      * exact Esr.
      * lia.
      * logs. reflexivity.
      * destruct Hk as [(_ & _ & [->| ->])|(_ & _ & _ & ->)]; try exact Hst; split; discriminate.
      * logs. destruct ev; try destruct Hev; exact Hn.
    + intros M. destruct (C M). split; cbn [emit set_log srcs ack_retry retry]; rewrite ?Esr, ?Ea, ?Er; [|assumption]. rewrite E in k_ack0. change (restarts []) with 0 in k_ack0. destruct Hk as [(-> & _)|(-> & _)]; match goal with |- context [restarts ?l] => change (restarts l) with 0 end; lia.
    + congruence.
    + rewrite Esr. intros s [<-|[]]. destruct Hk as [(-> & _)|(-> & _)]; discriminate.
Qed.

(** ** stop *)
Lemma stop_eq c : known c -> exists l, log (stop c) = log c ++ l /\ Forall (fun e => match snd e with Release _ _ | NotFound => True | _ => False end) l
  /\ srcs (stop c) = [] /\ next_id (stop c) = next_id c /\ st (stop c) = RELEASED /\ retry (stop c) = 0 /\ ack_retry (stop c) = 0
  /\ lmode (stop c) = L_NONE /\ watch (stop c) = false /\ now (stop c) = now c /\ last (stop c) = last c.
Proof.
  intros K. unfold stop. assert (X := switch_other true L_NONE c). cbv zeta in X. set (c1 := fst (switch true L_NONE c)) in *.
  destruct X as (X1 & X2 & X3 & X4 & X5 & X6 & X7 & X8 & X9 & X10 & X11 & _ & _ & _ & _ & _ & _ & X18).
  assert (Xm : lmode c1 = L_NONE). { unfold c1, switch. destruct (lmode c) eqn:Em; cbn; try reflexivity. exact Em. }
  set (c2 := match st c1 with BOUND | RENEWING | REBINDING => emit (Release (server_ip c1) (req_ip c1)) c1 | _ => c1 end).
  assert (Y : exists l, log c2 = log c ++ l /\ Forall (fun e => match snd e with Release _ _ | NotFound => True | _ => False end) l
     /\ srcs c2 = srcs c /\ next_id c2 = next_id c /\ timeout c2 = timeout c /\ t1_timeout c2 = t1_timeout c /\ t2_timeout c2 = t2_timeout c /\ lease_timeout c2 = lease_timeout c /\ lmode c2 = L_NONE /\ now c2 = now c /\ last c2 = last c).
  { unfold c2. destruct (st c1); [exists []|exists []|exists []|eexists [_]|eexists [_]|eexists [_]|exists []]; cbn; rewrite ?app_nil_r, ?X3; repeat split; try assumption; try apply Forall_nil; repeat constructor. }
  destruct Y as (l & Y1 & Y2 & Y3 & Y4 & Y5 & Y6 & Y7 & Y8 & Y9 & Y10 & Y11).
  assert (K2 : known c2) by (intros s; rewrite Y3, Y5, Y6, Y7, Y8; apply K).
  destruct (remove_timeouts_eq c2 K2) as [n En]. rewrite En. exists (l ++ nf (now c2) n). cbn. rewrite Y1, <- app_assoc, Y4, Y9, Y10, Y11. repeat split.
  apply Forall_app. split; [exact Y2|]. unfold nf. apply Forall_forall. intros x I. apply repeat_spec in I. subst x. exact Logic.I.
Qed.
Lemma api_stop b n m c : inv b n m c -> forall m', effect b n m' False c (emit Stop (stop c)).
Proof.
  intros I m'. destruct (stop_eq c (shape_known b n c (i_shape _ _ _ _ I))) as (l & E1 & E2 & E3 & E4 & E5 & E6 & E7 & _ & E8 & _). assert (N0 := i_next _ _ _ _ I).
  clear E2. generalize dependent (stop c). intros sc E1 E3 E4 E5 E6 E7 E8.
  exists (l ++ [(now sc, Stop)]). split; [cbn [emit set_log log]; rewrite E1, <- app_assoc; reflexivity|]. split; [|tauto]. split; cbn [emit set_log srcs next_id retry].
  - lia.
  - apply ShIdle; cbn [emit set_log srcs log st watch]; [exact E3| | | |]; logs; [discriminate|intros _; exact E8|rewrite E5; split; discriminate|right; reflexivity].
  - intros _. split; cbn [emit set_log srcs retry ack_retry]; rewrite ?E3, ?E6, ?E7; change (restarts []) with 0; lia.
  - lia.
  - rewrite E3. intros s [].
Qed.

(** ** Requests and restarts *)
Lemma start_request_then b n m fuel sock c c' id :
  start_request fuel sock Nothing c = Ret c' -> id < next_id c -> without id (srcs c) = [] -> running (log c) = true ->
  st c <> BOUND /\ st c <> RENEWING -> (n \/ deadline (log c) = None) -> retry c <= 3 -> (m <= 6 -> ack_retry c <= m) ->
  exists l, log c' = log c ++ l /\ inv b n m (closed id c') /\ discovers l + pot (closed id c') = 0 /\ (srcs c = [] -> closed id c' = c').
Proof.
  intros H Hid Hw Hr Hst Hn Hre Hm. unfold start_request in H. destruct (N.eqb_spec (retry c) 3) as [E3|E3].
  - cbn [react] in H. inversion H; subst c'; clear H. exists [(now c, NoLease)]. split; [reflexivity|]. split.
    + split; [cbn; lia| | | |]; cbn [closed set_srcs emit set_log srcs log st ack_retry retry].
      * apply ShIdle; cbn [closed set_srcs emit set_log srcs log st]; [exact Hw| | | exact Hst|]; logs; [tauto|congruence|exact Hn].
      * intros M. split; cbn [closed set_srcs emit set_log srcs ack_retry retry]; [rewrite Hw; change (restarts []) with 0; specialize (Hm M); lia|lia].
      * lia.
      * rewrite Hw. intros s [].
    + split; [unfold pot; cbn [closed set_srcs emit set_log srcs]; rewrite Hw; reflexivity|]. intros E0. apply closed_same. cbn [emit set_log srcs]. rewrite E0. reflexivity.
  - set (c1 := if retry c =? 0 then fst (switch sock L2 (set_st REQUESTING c)) else c) in H.
    assert (X : srcs c1 = srcs c /\ log c1 = log c /\ next_id c1 = next_id c /\ retry c1 = retry c /\ ack_retry c1 = ack_retry c /\ now c1 = now c /\ (st c1 = REQUESTING \/ st c1 = st c)).
    { unfold c1. destruct (retry c =? 0); [|tauto]. assert (Y := switch_other sock L2 (set_st REQUESTING c)). cbn in Y. cbv zeta in Y. tauto. }
    destruct X as (X1 & X2 & X3 & X4 & X5 & X6 & X7). unfold send_request in H. inversion H; subst c'; clear H.
    eexists [_]. split; [cbn -[N.add]; rewrite X2, X6; reflexivity|].
    assert (Ew : forall t, without id (srcs c ++ [Src (next_id c) KRequest t]) = [Src (next_id c) KRequest t]) by (intros t; rewrite without_app, Hw, without_new by exact Hid; reflexivity).
    split.
    + split; cbn [closed set_srcs set_timeout set_timers add emit set_log srcs log st ack_retry retry next_id timeout].
      * lia.
      * eapply (ShOne _ _ _ KRequest); cbn [closed set_srcs set_timeout set_timers add emit set_log srcs log st ack_retry retry next_id timeout]; rewrite ?X1, ?X2, ?X3, ?Ew.
        -- reflexivity.
        -- reflexivity.
        -- lia.
        -- logs. exact Hr.
        -- destruct X7 as [->| ->]; [split; discriminate|exact Hst].
        -- logs. exact Hn.
      * intros M. specialize (Hm M). split; cbn [closed set_srcs set_timeout set_timers add emit set_log srcs log st ack_retry retry next_id timeout]; rewrite ?X1, ?X3, ?Ew, ?X5; [|lia]. match goal with |- context [restarts ?l] => change (restarts l) with 0 end. lia.
      * lia.
      * intros s _ _. lia.
    + split; [unfold pot; cbn [closed set_srcs set_timeout set_timers add emit set_log srcs next_id now]; rewrite X1, X3, Ew; reflexivity|]. intros E0. apply closed_same. cbn [set_srcs set_timeout set_timers add emit set_log srcs next_id now]. rewrite X1, X3, Ew, E0. reflexivity.
Qed.
Lemma restart_then b n m fuel sock c c' k id :
  restart_dhcp fuel sock Nothing k c = Ret c' -> known c -> id < next_id c -> running (log c) = true ->
  (n \/ deadline (log c) = None) -> (sock = true \/ b) -> (m <= 6 -> ack_retry c <= m /\ k <= 6) ->
  exists l, log c' = log c ++ l /\ inv b n m (closed id c') /\ (m <= 6 -> discovers l + pot (closed id c') <= 6)
    /\ (forall s, In s (srcs (closed id c')) -> timeout_kind (s_kind s) = true).
Proof.
  intros H K Hid Hr Hn Hs Hm. unfold restart_dhcp in H. destruct (remove_timeouts_eq c K) as [z E]. rewrite E in H.
  match type of H with context [switch sock L2 ?x] => set (c1 := x) in H end.
  assert (Y := switch_other sock L2 c1). cbv zeta in Y. set (c2 := fst (switch sock L2 c1)) in *. destruct Y as (Y1 & Y2 & Y3 & Y4 & Y5 & Y6 & Y7 & _).
  destruct (start fuel sock Nothing (last c2) c2) as [x| |] eqn:Es; cbn [obind] in H; try discriminate. inversion H; subst c'; clear H.
  cbn in Y1, Y2, Y3, Y4, Y5, Y6.
  destruct (start_then b n m fuel sock (last c2) c2 x id Es) as (l & L1 & L2 & L3 & L4).
  - rewrite Y4. exact Hid.
  - rewrite Y2. reflexivity.
  - rewrite Y3. logs. exact Hr.
  - rewrite Y1. split; discriminate.
  - rewrite Y3. logs. exact Hn.
  - exact Hs.
  - intros M. rewrite Y5, Y6. apply Hm, M.
  - exists (nf (now c) z ++ l). rewrite L1, Y3, <- app_assoc. split; [reflexivity|]. split; [exact L2|]. split; [|exact L4]. intros M. specialize (L3 M). logs. destruct (last c2); lia.
Qed.

(** ** With a lease *)
Lemma start_bound_ok n c : known c -> 0 < next_id c -> running (log c) = true -> (n \/ deadline (log c) = Some (now c + lease c * 1000)) ->
  exists z, log (start_bound c) = log c ++ nf (now c) z /\ bound n (start_bound c) /\ next_id (start_bound c) = next_id c + 3 /\ retry (start_bound c) = retry c /\ ack_retry (start_bound c) = ack_retry c
    /\ restarts (srcs (start_bound c)) = 0 /\ (forall s, In s (srcs (start_bound c)) -> s_kind s <> KRequest).
Proof.
  intros K N0 Hr Hn. unfold start_bound.
  assert (K2 : known (set_st BOUND c)) by exact K. destruct (remove_timeouts_eq _ K2) as [z E]. rewrite E. exists z.
  cbn [set_t1 set_t2 set_lease_t set_timers add set_srcs set_times set_log set_st srcs app next_id now T1 T2 expire lease st log timeout t1_timeout t2_timeout lease_timeout retry ack_retry].
  split; [reflexivity|]. split; [|split; [lia|split; [reflexivity|split; [reflexivity|split; [reflexivity|]]]]].
  - split; cbn [set_t1 set_t2 set_lease_t set_timers add set_srcs set_times set_log set_st srcs app next_id now T1 T2 expire lease st log timeout t1_timeout t2_timeout lease_timeout map s_id watch lmode].
    + repeat (constructor; [cbn [In]; lia|]). constructor.
    + intros s [<-|[<-|[<-|[]]]]; split; reflexivity.
    + lia.
    + exists (now c + lease c * 1000). split; [cbn [In]; tauto|]. rewrite deadline_nf. exact Hn.
    + rewrite running_nf. exact Hr.
    + reflexivity.
    + discriminate.
  - intros s [<-|[<-|[<-|[]]]]; discriminate.
Qed.

(** Renewing and rebinding keep the timer of the end of the lease. *)
Lemma nodup_snoc (l : list source) s : NoDup (map s_id l) -> (forall x, In x l -> s_id x <> s_id s) -> NoDup (map s_id (l ++ [s])).
Proof.
  intros H1 H2. rewrite map_app. cbn [map]. induction l as [|x l IH]; cbn [map app] in *; [repeat constructor; intros []|]. inversion H1; subst. constructor.
  - rewrite in_app_iff. intros [H|[H|[]]]; [tauto|]. apply (H2 x); [left; reflexivity|]. congruence.
  - apply IH; [assumption|]. intros y I. apply H2. right. exact I.
Qed.
Definition quiet (e : N * event) : Prop := match snd e with NotFound | Request _ _ _ _ => True | _ => False end.
Lemma quiet_running h l : Forall quiet l -> running (h ++ l) = running h.
Proof. intros H. unfold running. rewrite fold_left_app. generalize (fold_left running_step h false). induction H as [|e l He _ IH]; [reflexivity|]. intros a. cbn [fold_left]. rewrite IH. unfold quiet in He. destruct e as [t e]. destruct e; try destruct He; reflexivity. Qed.
Lemma quiet_deadline h l : Forall quiet l -> deadline (h ++ l) = deadline h.
Proof. intros H. unfold deadline. rewrite fold_left_app. generalize (fold_left deadline_step h None). induction H as [|e l He _ IH]; [reflexivity|]. intros a. cbn [fold_left]. rewrite IH. unfold quiet in He. destruct e as [t e]. destruct e; try destruct He; reflexivity. Qed.
Lemma quiet_discovers l : Forall quiet l -> discovers l = 0.
Proof. unfold discovers. induction 1 as [|e l He _ IH]; [reflexivity|]. cbn [filter]. unfold quiet in He. destruct e as [t e]. destruct e; try destruct He; exact IH. Qed.
Lemma quiet_nf t n : Forall quiet (nf t n).
Proof. unfold nf. apply Forall_forall. intros x I. apply repeat_spec in I. subst x. exact Logic.I. Qed.
Lemma quiet_request c : exists e, send_request c = emit e c /\ quiet (now c, e).
Proof. unfold send_request. eexists. split; [reflexivity|exact Logic.I]. Qed.

(** [c'] is [c] with the sources [l] and perhaps a new one of kind [k]. *)
Inductive renewed (c : client) (k : kind) (l : list source) (c' : client) : Prop :=
| R_none : srcs c' = l -> next_id c' = next_id c -> slot k c' = slot k c -> renewed c k l c'
| R_new d : srcs c' = l ++ [Src (next_id c) k d] -> next_id c' = next_id c + 1 -> slot k c' = next_id c -> renewed c k l c'.
Lemma switch_listen sock m c : m <> L_NONE -> lmode (fst (switch sock m c)) = m \/ watch (fst (switch sock m c)) = false \/ (lmode c = L_NONE /\ fst (switch sock m c) = c).
Proof. intros H. unfold switch. destruct (lmode c) eqn:E, m, sock; cbn; rewrite ?E; try contradiction; tauto. Qed.
Lemma continue_renew_ok sock rnd c : (lmode c = L_NONE -> watch c = false) -> let c' := continue_renew sock rnd c in
  exists l, log c' = log c ++ l /\ Forall quiet l /\ st c' = st c /\ timeout c' = timeout c /\ t2_timeout c' = t2_timeout c /\ lease_timeout c' = lease_timeout c
    /\ retry c' = retry c /\ ack_retry c' = ack_retry c /\ (lmode c' = L3 \/ watch c' = false) /\ (lmode c' = L_NONE -> watch c' = false) /\ renewed c KRenew2 (cut (t1_timeout c) (srcs c)) c'.
Proof.
  intros Hl. unfold continue_renew. assert (X := switch_other sock L3 c). cbv zeta in X. assert (Y := switch_listen sock L3 c ltac:(discriminate)).
  assert (Y2 : lmode (fst (switch sock L3 c)) = L_NONE -> watch (fst (switch sock L3 c)) = false).
  { unfold switch. destruct (lmode c) eqn:E, sock; cbn; rewrite ?E; auto; discriminate. }
  set (c1 := fst (switch sock L3 c)) in *. destruct X as (X1 & X2 & X3 & X4 & X5 & X6 & X7 & X8 & X9 & X10 & X11 & X12 & X13 & X14 & X15 & _).
  assert (Y3 : lmode c1 = L3 \/ watch c1 = false) by (destruct Y as [Y|[Y|[Y Ey]]]; [tauto|tauto|rewrite Ey; right; auto]). clear Y.
  destruct (quiet_request c1) as (e & Ee & Qe). rewrite Ee. cbv zeta.
  destruct (remove_eq (t1_timeout (emit e c1)) (emit e c1)) as [z Ez]. rewrite Ez.
  exists ([(now c1, e)] ++ nf (now c1) z).
  match goal with |- context [60 <? ?t] => destruct (60 <? t) end;
    cbn [set_t1 set_timers add set_srcs set_times set_log emit log srcs st timeout t1_timeout t2_timeout lease_timeout retry ack_retry lmode watch next_id now];
    rewrite X1, X3, X5, X6, X8, X10, X11, <- app_assoc; repeat split; try assumption; try (apply Forall_cons; [exact Qe|apply quiet_nf]).
  - eapply R_new; cbn [set_t1 set_timers add set_srcs set_times set_log emit log srcs st timeout t1_timeout t2_timeout lease_timeout retry ack_retry lmode watch next_id now slot]; rewrite ?X2, ?X4, ?X9; reflexivity.
  - eapply R_none; cbn [set_t1 set_timers add set_srcs set_times set_log emit log srcs st timeout t1_timeout t2_timeout lease_timeout retry ack_retry lmode watch next_id now slot]; rewrite ?X2, ?X4, ?X9; reflexivity.
Qed.
Lemma continue_rebound_ok sock rnd c : (lmode c = L_NONE -> watch c = false) -> let c' := continue_rebound sock rnd c in
  exists l, log c' = log c ++ l /\ Forall quiet l /\ st c' = st c /\ timeout c' = timeout c /\ t1_timeout c' = t1_timeout c /\ lease_timeout c' = lease_timeout c
    /\ retry c' = retry c /\ ack_retry c' = ack_retry c /\ (lmode c' = L_NONE -> watch c' = false) /\ renewed c KRebind2 (cut (t2_timeout c) (srcs c)) c'.
Proof.
  intros Hl. unfold continue_rebound. assert (X := switch_other sock L2 c). cbv zeta in X.
  assert (Y2 : lmode (fst (switch sock L2 c)) = L_NONE -> watch (fst (switch sock L2 c)) = false).
  { unfold switch. destruct (lmode c) eqn:E, sock; cbn; rewrite ?E; auto; discriminate. }
  set (c1 := fst (switch sock L2 c)) in *. destruct X as (X1 & X2 & X3 & X4 & X5 & X6 & X7 & X8 & X9 & X10 & X11 & X12 & X13 & X14 & X15 & _).
  destruct (quiet_request c1) as (e & Ee & Qe). rewrite Ee. cbv zeta.
  destruct (remove_eq (t2_timeout (emit e c1)) (emit e c1)) as [z Ez]. rewrite Ez.
  exists ([(now c1, e)] ++ nf (now c1) z).
  match goal with |- context [60 <? ?t] => destruct (60 <? t) end;
    cbn [set_t2 set_timers add set_srcs set_times set_log emit log srcs st timeout t1_timeout t2_timeout lease_timeout retry ack_retry lmode watch next_id now];
    rewrite X1, X3, X5, X6, X8, X9, X11, <- app_assoc; repeat split; try assumption; try (apply Forall_cons; [exact Qe|apply quiet_nf]).
  - eapply R_new; cbn [set_t2 set_timers add set_srcs set_times set_log emit log srcs st timeout t1_timeout t2_timeout lease_timeout retry ack_retry lmode watch next_id now slot]; rewrite ?X2, ?X4, ?X10; reflexivity.
  - eapply R_none; cbn [set_t2 set_timers add set_srcs set_times set_log emit log srcs st timeout t1_timeout t2_timeout lease_timeout retry ack_retry lmode watch next_id now slot]; rewrite ?X2, ?X4, ?X10; reflexivity.
Qed.

(** The lease stays bound if the remaining sources are fine. *)
Lemma bound_next n c c' k rest (l : history) id :
  bound n c -> renewed c k rest c' -> log c' = log c ++ l -> Forall quiet l -> id < next_id c -> id <> lease_timeout c ->
  NoDup (map s_id rest) -> (forall s, In s rest -> In s (srcs c)) -> (forall d, In (Src (lease_timeout c) KExpire d) (srcs c) -> In (Src (lease_timeout c) KExpire d) rest) ->
  (forall s, In s rest -> allowed (st c') (s_kind s) = true /\ slot (s_kind s) c' = slot (s_kind s) c /\ s_kind s <> k) -> allowed (st c') k = true -> (k = KRenew2 \/ k = KRebind2) ->
  timeout c' = 0 -> lease_timeout c' = lease_timeout c -> (k = KRenew2 -> t2_timeout c' = t2_timeout c) -> (k = KRebind2 -> t1_timeout c' = t1_timeout c) ->
  (st c' = RENEWING -> lmode c' = L3 \/ watch c' = false) ->
  bound n (closed id c').
Proof.
  intros B R El Hl Hid Hne Hnd Hin Hex Hal Hk Hkk Ht Hle Ht2 Ht1 Hli.
  destruct (b_ids _ _ B) as (I1 & I2 & I3 & I4 & I5 & I6).
  assert (Hlt : forall s, In s rest -> s_id s < next_id c).
  { intros s I. destruct (b_own _ _ B s (Hin s I)) as [E A]. rewrite E. destruct (st c), (s_kind s); cbn [slot allowed] in *; try discriminate; lia. }
  destruct (b_exp _ _ B) as (d & Id & Nd).
  split; cbn [closed set_srcs srcs st log timeout t1_timeout t2_timeout lease_timeout next_id lmode watch].
  - apply nodup_without. destruct R as [E1 E2 E3|d' E1 E2 E3]; rewrite E1; [exact Hnd|]. apply nodup_snoc; [exact Hnd|]. intros x Ix. specialize (Hlt x Ix). cbn [s_id]. lia.
  - intros s I. apply without_in in I. destruct I as [I Hi].
    assert (C : In s rest \/ (s_kind s = k /\ s_id s = slot k c')).
    { destruct R as [E1 E2 E3|d' E1 E2 E3]; rewrite E1 in I; [tauto|]. apply in_app_iff in I. destruct I as [I|[<-|[]]]; [tauto|]. right. cbn [s_kind s_id]. auto. }
    replace (slot (s_kind s) (closed id c')) with (slot (s_kind s) c') by (destruct (s_kind s); reflexivity).
    destruct C as [C|[C1 C2]].
    + destruct (Hal s C) as (A1 & A2 & _). split; [|exact A1]. rewrite A2. apply (b_own _ _ B s (Hin s C)).
    + rewrite C1. split; [exact C2|exact Hk].
  - rewrite Hle. destruct Hkk as [-> | ->].
    + rewrite (Ht2 eq_refl). destruct R as [E1 E2 E3|d' E1 E2 E3]; cbn [slot] in E3; rewrite E2, E3; lia.
    + rewrite (Ht1 eq_refl). destruct R as [E1 E2 E3|d' E1 E2 E3]; cbn [slot] in E3; rewrite E2, E3; lia.
  - exists d. rewrite Hle. split.
    + apply without_in. cbn [s_id]. split; [|lia]. destruct R as [E1 E2 E3|d' E1 E2 E3]; rewrite E1; [|apply in_or_app; left]; apply Hex, Id.
    + rewrite El, quiet_deadline by exact Hl. exact Nd.
  - rewrite El, quiet_running by exact Hl. apply (b_run _ _ B).
  - exact Ht.
  - exact Hli.
Qed.

(** ** Listening *)
Definition listens (c : client) : Prop := lmode c = L_NONE -> watch c = false.
Lemma listens_switch sock m c : listens c -> listens (fst (switch sock m c)).
Proof. unfold listens, switch. destruct (lmode c) eqn:E, m, sock; cbn; rewrite ?E; intros H; auto; discriminate. Qed.
Lemma listens_same c c' : lmode c' = lmode c -> watch c' = watch c -> listens c -> listens c'.
Proof. unfold listens. intros -> ->. trivial. Qed.
Lemma remove_listen id c : lmode (remove id c) = lmode c /\ watch (remove id c) = watch c.
Proof. unfold remove. destruct (id =? 0); [tauto|]. destruct (pending id (srcs c)); split; reflexivity. Qed.
Lemma remove_timeouts_listen c : lmode (remove_timeouts c) = lmode c /\ watch (remove_timeouts c) = watch c.
Proof.
  unfold remove_timeouts. cbn [set_timers lmode watch]. repeat match goal with |- context [lmode (remove ?i ?x)] => let H := fresh in assert (H := remove_listen i x); destruct H as [H1 H2]; rewrite H1, H2; clear H1 H2 end. tauto.
Qed.
Lemma listens_remove c : listens c -> listens (remove_timeouts c).
Proof. destruct (remove_timeouts_listen c). apply listens_same; assumption. Qed.
Lemma listens_stop c : listens (stop c).
Proof. unfold listens, stop. reflexivity. Qed.
Lemma listens_emit e c : listens c -> listens (emit e c).
Proof. trivial. Qed.
Lemma listens_retry x c : listens c -> listens (set_retry x c).
Proof. trivial. Qed.
Lemma listens_start sock r : forall fuel la c x, start fuel sock r la c = Ret x -> listens c -> listens (fst x).
Proof.
  induction fuel as [|fuel IH]; intros la c x; [discriminate|]. cbn [start]. intros H L.
  destruct (retry c =? 6).
  - destruct r as [| |la'].
    + inversion H; subst. exact L.
    + cbn [obind] in H. inversion H; subst. cbn [fst]. apply listens_retry, listens_emit, listens_stop.
    + destruct (start fuel sock (DoStart la') la' (emit NoLease c)) as [y| |] eqn:E; cbn [obind] in H; try discriminate. inversion H; subst. cbn [fst].
      apply listens_retry, listens_emit. eapply IH; [exact E|exact L].
  - destruct (if retry c =? 0 then switch sock L2 (set_st INIT_SELECTING (set_assigned None c)) else (c, true)) as [c2 ok] eqn:E.
    assert (L2 : listens c2).
    { destruct (retry c =? 0); [|inversion E; subst; exact L]. change c2 with (fst (c2, ok)). rewrite <- E. apply listens_switch. exact L. }
    destruct ok; cbn [negb] in H; [|inversion H; subst; exact L2].
    assert (Z : listens (match la with None => c2 | Some a => if a =? 0xffffffff then c2 else set_last la c2 end)) by (destruct la as [a|]; [destruct (a =? 0xffffffff)|]; exact L2).
    match type of H with (if ?t then _ else _) = _ => destruct t end; inversion H; subst; exact Z.
Qed.
Lemma listens_react fuel sock r c c' : react fuel sock r c = Ret c' -> listens c -> listens c'.
Proof.
  intros H L. destruct r as [| |la]; cbn [react] in H.
  - inversion H; subst. exact L.
  - inversion H; subst. apply listens_emit, listens_stop.
  - destruct (start fuel sock (DoStart la) la c) as [y| |] eqn:E; cbn [obind] in H; try discriminate. inversion H; subst.
    apply listens_emit. eapply listens_start; eassumption.
Qed.
Lemma listens_start_request fuel sock r c c' : start_request fuel sock r c = Ret c' -> listens c -> listens c'.
Proof.
  unfold start_request. intros H L. destruct (retry c =? 3); [eapply listens_react; [exact H|exact L]|]. inversion H; subst.
  destruct (retry c =? 0); [|exact L]. apply (listens_same (fst (switch sock L2 (set_st REQUESTING c)))); [reflexivity|reflexivity|]. apply listens_switch. exact L.
Qed.
Lemma listens_restart fuel sock r k c c' : restart_dhcp fuel sock r k c = Ret c' -> listens c -> listens c'.
Proof.
  unfold restart_dhcp. intros H L. match type of H with context [start _ _ _ _ ?y] => set (c2 := y) in H; assert (L2 : listens c2) end.
  { apply listens_switch. apply (listens_same (remove_timeouts c)); [reflexivity|reflexivity|]. apply listens_remove, L. }
  destruct (start fuel sock r (last c2) c2) as [y| |] eqn:E; cbn [obind] in H; try discriminate. inversion H; subst. eapply listens_start; eassumption.
Qed.
Lemma listens_bound c : listens c -> listens (start_bound c).
Proof. intros L. unfold start_bound. apply (listens_same (remove_timeouts (set_st BOUND c))); [reflexivity|reflexivity|]. apply listens_remove, L. Qed.
Lemma listens_renew sock rnd c : listens c -> listens (continue_renew sock rnd c).
Proof. intros L. destruct (continue_renew_ok sock rnd c L) as (l & _ & _ & _ & _ & _ & _ & _ & _ & _ & H & _). exact H. Qed.
Lemma listens_rebound sock rnd c : listens c -> listens (continue_rebound sock rnd c).
Proof. intros L. destruct (continue_rebound_ok sock rnd c L) as (l & _ & _ & _ & _ & _ & _ & _ & _ & H & _). exact H. Qed.
Lemma listens_nak c : listens c -> listens (on_nak c).
Proof. intros L. unfold on_nak. assert (X : listens (remove_timeouts (set_retry 0 c))) by (apply listens_remove, L). exact X. Qed.
Lemma ack_address_same sock p c : let x := ack_address sock p c in
  st x = st c /\ srcs x = srcs c /\ log x = log c /\ next_id x = next_id c /\ retry x = retry c /\ ack_retry x = ack_retry c /\ now x = now c /\ (listens c -> listens x).
Proof.
  cbv zeta. unfold ack_address. set (c2 := set_times _ _ _ _ c).
  assert (Y := switch_other sock L_NONE c2). cbv zeta in Y. assert (L := listens_switch sock L_NONE c2). generalize dependent (fst (switch sock L_NONE c2)). intros x Y L.
  destruct Y as (Y1 & Y2 & Y3 & Y4 & Y5 & Y6 & Y7 & _). repeat split; assumption.
Qed.
Lemma ack_server_same p c x : ack_server p c = Ret x ->
  srcs x = srcs c /\ log x = log c /\ next_id x = next_id c /\ retry x = retry c /\ ack_retry x = ack_retry c /\ now x = now c /\ (listens c -> listens x).
Proof.
  unfold ack_server. intros H.
  assert (X : x = c \/ exists s, x = set_server s c) by (destruct (st c); try (left; congruence); destruct (p_server p) as [s|]; [right; exists s; congruence|discriminate]).
  destruct X as [->|[s ->]]; repeat split; tauto.
Qed.
Lemma ack_then fuel sock r p c c' : on_ack fuel sock r p c = Ret c' ->
  exists c2 c3, react fuel sock r (emit (Available (p_yiaddr p) (lease c2)) c2) = Ret c3 /\ c' = start_bound c3 /\
  srcs c2 = srcs (remove_timeouts (set_retry 0 c)) /\ log c2 = log (remove_timeouts (set_retry 0 c)) /\ next_id c2 = next_id (remove_timeouts (set_retry 0 c))
  /\ retry c2 = retry (remove_timeouts (set_retry 0 c)) /\ ack_retry c2 = ack_retry (remove_timeouts (set_retry 0 c)) /\ now c2 = now (remove_timeouts (set_retry 0 c))
  /\ (listens (remove_timeouts (set_retry 0 c)) -> listens c2).
Proof.
  unfold on_ack. generalize (remove_timeouts (set_retry 0 c)). clear c. intros c H.
  assert (Y := ack_address_same sock p c). cbv zeta in Y. generalize dependent (ack_address sock p c). intros c1 H Y.
  destruct (ack_server p c1) as [c2| |] eqn:E; cbn [obind] in H; try discriminate. apply ack_server_same in E.
  destruct (react fuel sock r (emit (Available (p_yiaddr p) (lease c2)) c2)) as [c3| |] eqn:E3; cbn [obind] in H; try discriminate. injection H as <-.
  exists c2, c3. split; [exact E3|]. split; [reflexivity|]. destruct Y as (_ & Y2 & Y3 & Y4 & Y5 & Y6 & Y7 & Y8), E as (E1 & E2 & F3 & E4 & E5 & E6 & E7).
  repeat split; try congruence. auto.
Qed.
Lemma listens_ack fuel sock r p c c' : on_ack fuel sock r p c = Ret c' -> listens c -> listens c'.
Proof.
  intros H L. apply ack_then in H. destruct H as (c2 & c3 & E & -> & _ & _ & _ & _ & _ & _ & L2).
  apply listens_bound. eapply listens_react; [exact E|]. apply listens_emit, L2, listens_remove, listens_retry, L.
Qed.
Lemma listens_step fuel sock r o c c' : step fuel sock r o c = Ret c' -> listens c -> listens c'.
Proof.
  intros H L. destruct o as [la| |id rnd|p| |ms]; cbn [step] in H.
  - destruct (start fuel sock r la c) as [y| |] eqn:E; cbn [obind] in H; try discriminate. inversion H; subst. apply listens_emit. eapply listens_start; eassumption.
  - inversion H; subst. apply listens_emit, listens_stop.
  - destruct (find _ (srcs c)) as [s|]; [|inversion H; subst; exact L]. destruct (s_due s <=? now c); [|inversion H; subst; exact L].
    destruct (fire fuel sock rnd r (s_kind s) c) as [y| |] eqn:E; cbn [obind] in H; try discriminate. inversion H; subst. apply (listens_same y); [reflexivity|reflexivity|].
    destruct (s_kind s); cbn [fire] in E.
    + destruct (start _ _ _ _ _) as [z| |] eqn:Ez in E; cbn [obind] in E; try discriminate. inversion E; subst. eapply listens_start; [exact Ez|exact L].
    + destruct (start _ _ _ _ _) as [z| |] eqn:Ez in E; cbn [obind] in E; try discriminate. inversion E; subst. eapply listens_start; [exact Ez|exact L].
    + eapply listens_start_request; [exact E|exact L].
    + unfold restart_timeout in E. destruct (st c); (eapply listens_restart; [exact E|exact L]).
    + inversion E; subst. apply listens_renew. exact L.
    + inversion E; subst. apply listens_renew. exact L.
    + inversion E; subst. apply listens_rebound. apply (listens_same (remove (t1_timeout c) c)); [reflexivity|reflexivity|]. destruct (remove_listen (t1_timeout c) c). apply (listens_same c); assumption.
    + inversion E; subst. apply listens_rebound. exact L.
    + unfold start_expire in E. destruct (restart_dhcp fuel sock r 0 (remove_timeouts c)) as [z| |] eqn:Ez; cbn [obind] in E; try discriminate.
      eapply listens_react; [exact E|]. apply (listens_same z); [reflexivity|reflexivity|]. eapply listens_restart; [exact Ez|]. apply listens_remove, L.
  - destruct (watch c); [|inversion H; subst; exact L]. unfold listener in H.
    assert (M : lmode c = L_NONE \/ lmode c <> L_NONE) by (destruct (lmode c); [left; reflexivity|right; discriminate|right; discriminate]). destruct M as [M|M].
    + rewrite M in H. inversion H; subst. intros _. reflexivity.
    + assert (H' := H). clear H. assert (X : forall A B : oc client, match lmode c with L_NONE => A | _ => B end = B) by (intros; destruct (lmode c); tauto). rewrite X in H'. clear X.
      cbv zeta in H'. destruct (negb _); [inversion H'; subst; exact L|]. destruct (p_type _) as [t|]; [|inversion H'; subst; exact L].
      destruct (st c) eqn:Est; try (inversion H'; subst; exact L);
        try (destruct (t =? DHCPACK); [eapply listens_ack; eassumption|]; destruct (t =? DHCPNAK); [|inversion H'; subst; exact L]; inversion H'; subst; apply listens_nak, L).
      destruct (negb _); [inversion H'; subst; exact L|]. destruct (p_server _); [|discriminate]. eapply listens_start_request; [exact H'|].
      apply listens_retry with (x := 0). apply listens_remove, L.
  - inversion H; subst. destruct (watch c); [|exact L]. intros _. reflexivity.
  - inversion H; subst. exact L.
Qed.

(** ** A timer runs *)
Lemma closed_known b n m id c : inv b n m (closed id c) -> known (closed id c).
Proof. intros I. eapply shape_known, (i_shape _ _ _ _ I). Qed.
Lemma fire_one b n m fuel sock rnd k d c c' :
  inv b n m c -> timeout_kind k = true -> srcs c = [Src (timeout c) k d] -> 0 < timeout c < next_id c -> running (log c) = true ->
  st c <> BOUND /\ st c <> RENEWING -> (n \/ deadline (log c) = None) -> (sock = true \/ b) ->
  fire fuel sock rnd Nothing k c = Ret c' -> effect b n m True c (closed (timeout c) c').
Proof.
  intros I Hk E Ht Hr Hst Hn Hs H. assert (C := i_counts _ _ _ _ I). assert (S6 := i_six _ _ _ _ I). assert (Rq := i_request _ _ _ _ I).
  assert (Ew : without (timeout c) (srcs c) = []) by (rewrite E; unfold without, other; cbn [filter s_id]; rewrite N.eqb_refl; reflexivity).
  assert (K : known c) by (eapply shape_known, (i_shape _ _ _ _ I)).
  destruct k; try discriminate; cbn [fire] in H.
  - set (c1 := set_st INIT_SELECTING (set_req 0 (set_retry 0 c))) in H.
    destruct (start fuel sock Nothing None c1) as [x| |] eqn:Es; cbn [obind] in H; try discriminate. inversion H; subst c'; clear H.
    destruct (start_then b n m fuel sock None c1 x (timeout c) Es) as (l & L1 & L2 & L3 & _); try assumption.
    + apply Ht.
    + split; discriminate.
    + intros M. destruct (C M). unfold c1. cbn [set_st set_req set_retry ack_retry retry]. split; lia.
    + exists l. split; [exact L1|]. split; [exact L2|]. intros _ M. specialize (L3 M). unfold c1 in L3. cbn [set_st set_req set_retry retry] in L3.
      replace (pot c) with 6 by (unfold pot; rewrite E; reflexivity). lia.
  - set (c1 := set_retry ((retry c + 1) mod 256) c) in H.
    destruct (start fuel sock Nothing None c1) as [x| |] eqn:Es; cbn [obind] in H; try discriminate. inversion H; subst c'; clear H.
    assert (A : m <= 6 -> retry c1 = retry c + 1). { intros M. destruct (C M). unfold c1. cbn [set_retry retry]. apply N.mod_small. lia. }
    destruct (start_then b n m fuel sock None c1 x (timeout c) Es) as (l & L1 & L2 & L3 & _); try assumption.
    + apply Ht.
    + intros M. destruct (C M). rewrite (A M). unfold c1. cbn [set_retry ack_retry]. split; lia.
    + exists l. split; [exact L1|]. split; [exact L2|]. intros _ M. specialize (L3 M). rewrite (A M) in L3. destruct (C M).
      replace (pot c) with (5 - retry c) by (unfold pot; rewrite E; reflexivity). lia.
  - set (c1 := set_retry ((retry c + 1) mod 256) c) in H.
    assert (R2 : retry c <= 2) by (eapply (Rq (Src (timeout c) KRequest d)); [rewrite E; left; reflexivity|reflexivity]).
    assert (A : retry c1 = retry c + 1) by (unfold c1; cbn [set_retry retry]; apply N.mod_small; lia).
    destruct (start_request_then b n m fuel sock c1 c' (timeout c) H) as (l & L1 & L2 & L3 & _); try assumption.
    + apply Ht.
    + lia.
    + intros M. destruct (C M). unfold c1. cbn [set_retry ack_retry]. lia.
    + exists l. split; [exact L1|]. split; [exact L2|]. intros _ M. rewrite L3. lia.
  - unfold restart_timeout in H.
    assert (Rs : m <= 6 -> ack_retry c + 1 <= m). { intros M. destruct (C M) as [A _]. rewrite E in A. exact A. }
    assert (Pc : pot c = 6) by (unfold pot; rewrite E; reflexivity).
    assert (X : exists k c1, restart_dhcp fuel sock Nothing k c1 = Ret c' /\ log c1 = log c /\ next_id c1 = next_id c /\ known c1 /\ (m <= 6 -> ack_retry c1 <= m /\ k <= 6)).
    { destruct (st c) eqn:Es;
        try (eexists _, _; split; [exact H|]; split; [reflexivity|]; split; [reflexivity|]; split; [exact K|]; intros M; specialize (Rs M); cbn [set_ack ack_retry]; rewrite N.mod_small by lia; lia).
      exists 0, (set_last None c). split; [exact H|]. split; [reflexivity|]. split; [reflexivity|]. split; [exact K|]. intros M. specialize (Rs M). cbn [set_last ack_retry]. lia. }
    destruct X as (k & c1 & X1 & X2 & X3 & X4 & X5).
    destruct (restart_then b n m fuel sock c1 c' k (timeout c) X1) as (l & L1 & L2 & L3 & _); try assumption.
    + rewrite X3. apply Ht.
    + rewrite X2. exact Hr.
    + rewrite X2. exact Hn.
    + exists l. split; [cbn [closed set_srcs log]; rewrite L1, X2; reflexivity|]. split; [exact L2|]. intros _ M. specialize (L3 M). lia.
Qed.
Lemma allowed_restarts l s : (forall x, In x l -> allowed s (s_kind x) = true) -> restarts l = 0.
Proof.
  unfold restarts. induction l as [|x l IH]; [reflexivity|]. intros H. cbn [filter]. assert (A := H x (or_introl eq_refl)). destruct s, (s_kind x); try discriminate; apply IH; intros y Iy; apply H; right; exact Iy.
Qed.
Lemma bound_counts b n m c : bound n c -> 0 < next_id c -> retry c <> 6 -> (m <= 6 -> ack_retry c <= m /\ retry c <= 5) -> inv b n m c.
Proof.
  intros B N0 S6 C. assert (Z : restarts (srcs c) = 0) by (eapply allowed_restarts; intros x Ix; apply (b_own _ _ B x Ix)).
  split; [exact N0|apply ShBound, B| |exact S6|].
  - intros M. destruct (C M). split; [rewrite Z; lia|assumption].
  - intros s Is Ek. destruct (b_own _ _ B s Is) as [_ A]. rewrite Ek in A. destruct (st c); discriminate.
Qed.
Lemma pot_bound n c : bound n c -> pot c = 6.
Proof.
  intros B. unfold pot. destruct (b_exp _ _ B) as (d & Id & _). destruct (srcs c) as [|s l] eqn:E; [destruct Id|]. destruct l; [|reflexivity].
  destruct (b_own _ _ B s) as [_ A]; [rewrite E; left; reflexivity|]. destruct (st c), (s_kind s); try discriminate; reflexivity.
Qed.
Lemma pot_le c : retry c <= 5 \/ True -> pot c <= 6.
Proof. intros _. unfold pot. destruct (srcs c) as [|s [|]]; [lia| |lia]. destruct (s_kind s); lia. Qed.
Lemma fire_bound b n m fuel sock rnd k id d c c' :
  inv b n m c -> bound n c -> listens c -> In (Src id k d) (srcs c) -> (sock = true \/ b) ->
  fire fuel sock rnd Nothing k c = Ret c' -> effect b n m True c (closed id c').
Proof.
  intros I B Li Is Hs H. assert (C := i_counts _ _ _ _ I). assert (S6 := i_six _ _ _ _ I). assert (N0 := i_next _ _ _ _ I).
  destruct (b_own _ _ B _ Is) as [Eid Al]. cbn [s_id s_kind] in Eid, Al. destruct (b_ids _ _ B) as (I1 & I2 & I3 & I4 & I5 & I6).
  assert (P6 := pot_bound n c B).
  assert (Fin : forall c1 l k' rest, renewed c k' rest c1 -> log c1 = log c ++ l -> Forall quiet l -> retry c1 = retry c -> ack_retry c1 = ack_retry c -> bound n (closed id c1) -> effect b n m True c (closed id c1)).
  { intros c1 l k' rest R El Ql Er Ea Bc. exists l. split; [exact El|]. split.
    - apply bound_counts; [exact Bc| | |].
      + cbn [closed set_srcs next_id]. destruct R as [_ E2 _|d' _ E2 _]; lia.
      + cbn [closed set_srcs retry]. rewrite Er. exact S6.
      + intros M. destruct (C M). cbn [closed set_srcs retry ack_retry]. rewrite Er, Ea. split; lia.
    - intros _ _. rewrite (quiet_discovers l Ql), (pot_bound n _ Bc), P6. lia. }
  assert (Hinc : forall a, a <> lease_timeout c -> (forall s, In s (cut a (srcs c)) -> In s (srcs c)) /\ (forall d, In (Src (lease_timeout c) KExpire d) (srcs c) -> In (Src (lease_timeout c) KExpire d) (cut a (srcs c)))).
  { intros a Ha. split; [intros s Hs'; apply in_cut in Hs'; tauto|]. intros d' Hd. apply in_cut. split; [exact Hd|]. cbn [s_id]. right. congruence. }
  assert (Hkeep : forall a s, In s (cut a (srcs c)) -> a <> 0 -> slot (s_kind s) c <> a).
  { intros a s Hs' Ha. apply in_cut in Hs'. destruct Hs' as [Hs' [?|Hs2]]; [contradiction|]. destruct (b_own _ _ B _ Hs') as [E _]. congruence. }
  destruct k; cbn [fire] in H; try (destruct (st c); discriminate).
  - (* start_renew *)
    inversion H; subst c'; clear H. unfold start_renew.
    match goal with |- context [continue_renew sock rnd ?x] => set (c1 := x) in * end.
    destruct (continue_renew_ok sock rnd c1 Li) as (l & E1 & E2 & E3 & E4 & E5 & E6 & E7 & E8 & E9 & _ & E10). cbn [slot] in Eid.
    destruct (Hinc (t1_timeout c) I5) as [Hi1 Hi2]. assert (Est : st c = BOUND) by (destruct (st c); try discriminate; reflexivity).
    assert (R : renewed c KRenew2 (cut (t1_timeout c) (srcs c)) (continue_renew sock rnd c1)) by (destruct E10 as [F1 F2 F3|d' F1 F2 F3]; [apply R_none|eapply R_new]; eassumption).
    eapply Fin; try eassumption.
    eapply bound_next; try eassumption; try (subst id; lia); try discriminate; try (intros _; assumption).
    + apply nodup_cut, (b_nodup _ _ B).
    + intros s Hs'. assert (Q := Hkeep _ s Hs' ltac:(lia)). apply Hi1 in Hs'. destruct (b_own _ _ B _ Hs') as [_ A]. rewrite E3, Est in *. unfold c1. cbn [set_times set_st st].
      destruct (s_kind s); try discriminate; cbn [slot] in *; try (contradiction Q; reflexivity); repeat split; assumption || reflexivity || discriminate.
    + rewrite E3. reflexivity.
    + tauto.
    + rewrite E4. apply (b_time _ _ B).
  - (* continue_renew *)
    inversion H; subst c'; clear H.
    destruct (continue_renew_ok sock rnd c Li) as (l & E1 & E2 & E3 & E4 & E5 & E6 & E7 & E8 & E9 & _ & E10). cbn [slot] in Eid.
    destruct (Hinc (t1_timeout c) I5) as [Hi1 Hi2]. assert (Est : st c = RENEWING) by (destruct (st c); try discriminate; reflexivity).
    eapply Fin; try eassumption.
    eapply bound_next; try eassumption; try (subst id; lia); try discriminate; try (intros _; assumption).
    + apply nodup_cut, (b_nodup _ _ B).
    + intros s Hs'. assert (Q := Hkeep _ s Hs' ltac:(lia)). apply Hi1 in Hs'. destruct (b_own _ _ B _ Hs') as [_ A]. rewrite E3, Est in *.
      destruct (s_kind s); try discriminate; cbn [slot] in *; try (contradiction Q; reflexivity); repeat split; assumption || reflexivity || discriminate.
    + rewrite E3, Est. reflexivity.
    + tauto.
    + rewrite E4. apply (b_time _ _ B).
  - (* start_rebound *)
    inversion H; subst c'; clear H. unfold start_rebound. destruct (remove_eq (t1_timeout c) c) as [z Ez]. rewrite Ez.
    match goal with |- context [continue_rebound sock rnd ?x] => set (c1 := x) in * end.
    destruct (continue_rebound_ok sock rnd c1 Li) as (l & E1 & E2 & E3 & E4 & E5 & E6 & E7 & E8 & _ & E10). cbn [slot] in Eid.
    change (srcs c1) with (cut (t1_timeout c) (srcs c)) in E10. change (t2_timeout c1) with (t2_timeout c) in E10. change (log c1) with (log c ++ nf (now c) z) in E1. rewrite <- app_assoc in E1.
    destruct (Hinc (t1_timeout c) I5) as [Hi1 Hi2].
    assert (R : renewed c KRebind2 (cut (t2_timeout c) (cut (t1_timeout c) (srcs c))) (continue_rebound sock rnd c1)) by (destruct E10 as [F1 F2 F3|d' F1 F2 F3]; [apply R_none|eapply R_new]; eassumption).
    assert (Qf : Forall quiet (nf (now c) z ++ l)) by (apply Forall_app; split; [apply quiet_nf|exact E2]).
    eapply Fin; try eassumption.
    eapply bound_next; try eassumption; try (subst id; lia); try discriminate; try (intros _; assumption).
    + apply nodup_cut, nodup_cut, (b_nodup _ _ B).
    + intros s Hs'. apply in_cut in Hs'. apply Hi1. tauto.
    + intros d' Hd. apply in_cut. split; [apply Hi2, Hd|]. cbn [s_id]. right. congruence.
    + intros s Hs'. apply in_cut in Hs'. destruct Hs' as [Hs' [?|Hs2]]; [lia|]. assert (Q := Hkeep _ s Hs' ltac:(lia)). apply Hi1 in Hs'. destruct (b_own _ _ B _ Hs') as [Eo A]. rewrite E3. unfold c1. cbn [set_times set_st st].
      destruct (st c), (s_kind s); try discriminate; cbn [slot] in *; try (contradiction Q; reflexivity); try (contradiction (Hs2 Eo)); repeat split; assumption || reflexivity || discriminate.
    + rewrite E3. reflexivity.
    + tauto.
    + rewrite E4. apply (b_time _ _ B).
    + rewrite E3. discriminate.
  - (* continue_rebound *)
    inversion H; subst c'; clear H.
    destruct (continue_rebound_ok sock rnd c Li) as (l & E1 & E2 & E3 & E4 & E5 & E6 & E7 & E8 & _ & E10). cbn [slot] in Eid.
    destruct (Hinc (t2_timeout c) I6) as [Hi1 Hi2]. assert (Est : st c = REBINDING) by (destruct (st c); try discriminate; reflexivity).
    eapply Fin; try eassumption.
    eapply bound_next; try eassumption; try (subst id; lia); try discriminate; try (intros _; assumption).
    + apply nodup_cut, (b_nodup _ _ B).
    + intros s Hs'. assert (Q := Hkeep _ s Hs' ltac:(lia)). apply Hi1 in Hs'. destruct (b_own _ _ B _ Hs') as [_ A]. rewrite E3, Est in *.
      destruct (s_kind s); try discriminate; cbn [slot] in *; try (contradiction Q; reflexivity); repeat split; assumption || reflexivity || discriminate.
    + rewrite E3, Est. reflexivity.
    + tauto.
    + rewrite E4. apply (b_time _ _ B).
    + rewrite E3, Est. discriminate.
  - (* start_expire *)
    unfold start_expire in H. assert (K : known c) by (eapply shape_known, (i_shape _ _ _ _ I)). destruct (remove_timeouts_eq c K) as [z Ez]. rewrite Ez in H.
    match type of H with context [restart_dhcp fuel sock Nothing 0 ?x] => set (c1 := x) in H end.
    destruct (restart_dhcp fuel sock Nothing 0 c1) as [c2| |] eqn:Er; cbn [obind react] in H; try discriminate. inversion H; subst c'; clear H. cbn [slot] in Eid.
    destruct (restart_then b True m fuel sock c1 c2 0 id Er) as (l & L1 & L2 & L3 & L4).
    + intros s Hs'. destruct Hs'.
    + change (next_id c1) with (next_id c). lia.
    + change (log c1) with (log c ++ nf (now c) z). rewrite running_nf. apply (b_run _ _ B).
    + tauto.
    + exact Hs.
    + intros M. destruct (C M). change (ack_retry c1) with (ack_retry c). split; lia.
    + change (log c1) with (log c ++ nf (now c) z) in L1. exists (nf (now c) z ++ l ++ [(now c2, Lost)]).
      split; [cbn [closed set_srcs emit set_log log]; rewrite L1, <- !app_assoc; reflexivity|]. split.
      * assert (N2 := i_next _ _ _ _ L2). assert (C2 := i_counts _ _ _ _ L2). assert (S2 := i_six _ _ _ _ L2). assert (R2 := i_request _ _ _ _ L2).
        split; [exact N2| |intros M; destruct (C2 M); split; assumption|exact S2|exact R2].
        assert (D : n \/ deadline (log (closed id (emit Lost c2))) = None) by (right; cbn [closed set_srcs emit set_log log]; logs; reflexivity).
        destruct (i_shape _ _ _ _ L2) as [F1 F2 F2' F3 F4|k d' F1 F2 F3 F4 F5 F6|Bc].
        -- apply ShIdle; [exact F1| | |exact F3|exact D]; cbn [closed set_srcs emit set_log log]; logs; [exact F2|exact F2'].
        -- eapply ShOne; [exact F1|exact F2|exact F3| |exact F5|exact D]. cbn [closed set_srcs emit set_log log]. logs. exact F4.
        -- destruct (b_exp _ _ Bc) as (d' & Id' & _). apply L4 in Id'. discriminate.
      * intros _ M. specialize (L3 M). rewrite P6. logs. change (discovers [(now c2, Lost)]) with 0. change (pot (closed id (emit Lost c2))) with (pot (closed id c2)). lia.
Qed.

(** ** Packets *)
Ltac fields := cbn [set_timeout set_timers add set_srcs set_log set_retry set_listen set_now set_req set_st set_server emit log srcs st timeout t1_timeout t2_timeout lease_timeout next_id retry ack_retry now lmode watch].
Lemma inv_mono b n m m' c : m <= m' -> inv b n m c -> inv b n m' c.
Proof. intros M I. destruct I. split; try assumption. intros M'. destruct i_counts0; [lia|]. split; [lia|assumption]. Qed.
Lemma effect_same b n m m' lo c : m <= m' -> inv b n m c -> effect b n m' lo c c.
Proof. intros M I. exists []. rewrite app_nil_r. split; [reflexivity|]. split; [apply (inv_mono _ _ m); assumption|]. intros _ _. change (discovers []) with 0. lia. Qed.
Lemma nak_ok b n m c : inv b n m c -> running (log c) = true -> st c <> BOUND /\ st c <> RENEWING -> (n \/ deadline (log c) = None) -> effect b n (m + 1) False c (on_nak c).
Proof.
  intros I R S D. unfold on_nak. assert (K := shape_known _ _ _ (i_shape _ _ _ _ I)). destruct (remove_timeouts_eq (set_retry 0 c) K) as [z Ez]. rewrite Ez.
  assert (N0 := i_next _ _ _ _ I). assert (C := i_counts _ _ _ _ I). clear I Ez K.
  exists (nf (now c) z). split; [reflexivity|]. split; [|tauto]. split.
  - fields. lia.
  - apply (ShOne _ _ _ KRestart (now c + 3000)); fields; try reflexivity; try assumption; logs; try assumption. lia.
  - intros M. assert (M6 : m <= 6) by lia. destruct (C M6). split; fields; [|lia]. match goal with |- context [restarts ?l] => change (restarts l) with 1 end. lia.
  - fields. lia.
  - intros s [<-|[]]. discriminate.
Qed.
Lemma ack_ok b n m fuel sock p c c' : on_ack fuel sock Nothing p c = Ret c' -> inv b n m c -> running (log c) = true -> effect b n m False c c'.
Proof.
  intros H I R. assert (K := shape_known _ _ _ (i_shape _ _ _ _ I)). destruct (remove_timeouts_eq (set_retry 0 c) K) as [z Ez].
  assert (X : exists c1, remove_timeouts (set_retry 0 c) = c1 /\ srcs c1 = [] /\ log c1 = log c ++ nf (now c) z /\ now c1 = now c /\ next_id c1 = next_id c /\ retry c1 = 0 /\ ack_retry c1 = ack_retry c) by (eexists; split; [exact Ez|]; fields; tauto).
  clear Ez K. apply ack_then in H. destruct X as (c1 & E & W1 & W2 & W3 & W4 & W5 & W6). rewrite E in H. clear E.
  destruct H as (c2 & c4 & H & -> & X1 & X2 & X4 & X5 & X6 & X3 & _). rewrite W1 in X1. rewrite W2 in X2. rewrite W3 in X3. rewrite W4 in X4. rewrite W5 in X5. rewrite W6 in X6. clear W1 W2 W3 W4 W5 W6 c1.
  cbn [react] in H. injection H as <-. assert (Y : exists c4, emit (Available (p_yiaddr p) (lease c2)) c2 = c4 /\ srcs c4 = [] /\ log c4 = (log c ++ nf (now c) z) ++ [(now c, Available (p_yiaddr p) (lease c4))] /\ now c4 = now c /\ next_id c4 = next_id c /\ retry c4 = 0 /\ ack_retry c4 = ack_retry c)
    by (eexists; split; [reflexivity|]; cbn [emit set_log srcs log next_id retry ack_retry now lease]; rewrite X2, X3; tauto).
  clear X1 X2 X3 X4 X5 X6. destruct Y as (c4 & -> & X1 & X2 & X3 & X4 & X5 & X6). clear c2.
  assert (N0 := i_next _ _ _ _ I). assert (C := i_counts _ _ _ _ I).
  destruct (start_bound_ok n c4) as (y & Z1 & Z2 & Z3 & Z4 & Z5 & Z6 & Z7).
  - intros s Is. rewrite X1 in Is. destruct Is.
  - lia.
  - rewrite X2. logs. exact R.
  - right. rewrite X2, X3. logs. reflexivity.
  - generalize dependent (start_bound c4). intros cb Z1 Z2 Z3 Z4 Z5 Z6 Z7.
    exists ((nf (now c) z ++ [(now c, Available (p_yiaddr p) (lease c4))]) ++ nf (now c4) y). split; [rewrite Z1, X2, <- !app_assoc; reflexivity|]. split; [|tauto].
    apply bound_counts; [exact Z2|lia|lia|]. intros M. destruct (C M). lia.
Qed.
Lemma offer_ok b n m fuel sock p s c c' :
  start_request fuel sock Nothing (set_st REQUESTING (set_req (p_yiaddr p) (set_server s (set_retry 0 (remove_timeouts c))))) = Ret c' ->
  inv b n m c -> running (log c) = true -> (n \/ deadline (log c) = None) -> effect b n m False c c'.
Proof.
  intros H I R D. assert (K := shape_known _ _ _ (i_shape _ _ _ _ I)). destruct (remove_timeouts_eq c K) as [z Ez]. rewrite Ez in H. clear Ez K.
  assert (N0 := i_next _ _ _ _ I). assert (C := i_counts _ _ _ _ I).
  destruct (start_request_then b n m _ _ _ _ 0 H) as (l & L1 & L2 & L3 & L4); fields.
  - exact N0.
  - reflexivity.
  - logs. exact R.
  - split; discriminate.
  - logs. exact D.
  - lia.
  - intros M. destruct (C M). lia.
  - rewrite L4 in L2 by reflexivity. exists (nf (now c) z ++ l). split; [rewrite L1; fields; rewrite <- app_assoc; reflexivity|]. tauto.
Qed.
Lemma listener_ok b n m fuel sock p c c' :
  listener fuel sock Nothing p c = Ret c' -> inv b n m c -> watch c = true -> (n \/ (deadline (log c) <> None -> is_nak (ORecv p) = false)) ->
  effect b n (if is_nak (ORecv p) then m + 1 else m) False c c'.
Proof.
  intros H I W D. set (m' := if is_nak (ORecv p) then m + 1 else m). assert (M : m <= m') by (unfold m'; destruct (is_nak _); lia).
  assert (R : running (log c) = true).
  { destruct (i_shape _ _ _ _ I) as [_ _ F _ _|k d _ _ _ F _ _|B]; [|exact F|apply (b_run _ _ B)]. destruct (running (log c)); [reflexivity|]. rewrite F in W by reflexivity. discriminate. }
  assert (Same := effect_same b n m m' False c M I).
  assert (Bd : st c = BOUND \/ st c = RENEWING \/ st c = REBINDING \/ (n \/ deadline (log c) = None)).
  { destruct (i_shape _ _ _ _ I) as [_ _ _ _ F|k d _ _ _ _ _ F|B]; [tauto|tauto|]. destruct (b_exp _ _ B) as (d & Id & _). apply (b_own _ _ B) in Id. destruct Id as [_ A]. cbn [s_kind] in A. destruct (st c); try discriminate; tauto. }
  assert (Rn : st c = RENEWING -> lmode c = L3).
  { intros E. destruct (i_shape _ _ _ _ I) as [_ _ _ [_ F] _|k d _ _ _ _ [_ F] _|B]; try contradiction. destruct (b_listen _ _ B E) as [F|F]; [exact F|congruence]. }
  unfold listener in H. destruct (lmode c) eqn:El.
  - injection H as <-. exists []. rewrite app_nil_r. split; [reflexivity|]. split; [|tauto]. clear - I El M R. apply (inv_mono _ _ m); [exact M|]. destruct I as [I1 I2 I3 I4 I5]. split; fields; try assumption.
    + destruct I2 as [F1 F2 F3 F4 F5|k d F1 F2 F3 F4 F5 F6|B].
      * apply ShIdle; fields; auto.
      * eapply ShOne; fields; eauto.
      * apply ShBound. destruct B. split; fields; auto.
    + intros M6. destruct (I3 M6). split; assumption.
  - cbn [seen] in H. destruct (p_owner p); cbn [negb] in H; [|injection H as <-; exact Same]. destruct (p_type p) as [t|] eqn:Et; [|injection H as <-; exact Same].
    assert (Req : st c = REBOOTING \/ st c = REQUESTING \/ st c = REBINDING ->
      (if t =? DHCPACK then on_ack fuel sock Nothing p c else if t =? DHCPNAK then Ret (on_nak c) else Ret c) = Ret c' -> effect b n m' False c c').
    { intros S. destruct (t =? DHCPACK); [intros E; apply (ack_ok b n m') in E; [exact E|apply (inv_mono _ _ m); assumption|exact R]|].
      destruct (t =? DHCPNAK) eqn:E6; [|intros E; injection E as <-; exact Same]. intros E; injection E as <-.
      assert (Nk : is_nak (ORecv p) = true) by (cbn [is_nak]; rewrite Et; exact E6). unfold m'. rewrite Nk in *. apply nak_ok; [exact I|exact R| |].
      - intuition congruence.
      - destruct D as [D|D]; [left; exact D|]. right. destruct (deadline (log c)) as [d|]; [|reflexivity]. discriminate D. discriminate. }
    destruct (st c) eqn:Est; try (injection H as <-; exact Same); try (apply Req; [tauto|exact H]).
    + destruct (t =? DHCPOFFER); cbn [negb] in H; [|injection H as <-; exact Same]. destruct (p_server p) as [s|]; [|discriminate].
      apply (offer_ok b n m') in H; [exact H|apply (inv_mono _ _ m); assumption|exact R|]. intuition discriminate.
    + discriminate Rn. reflexivity.
  - cbn [seen p_owner p_type] in H. destruct (p_owner p); cbn [negb] in H; injection H as <-; exact Same.
Qed.
Lemma wait_ok b n m ms c : inv b n m c -> effect b n m True c (set_now (now c + ms) c).
Proof.
  intros I. exists []. split; [symmetry; apply app_nil_r|]. split; [|intros _ _; change (discovers []) with 0; change (pot (set_now (now c + ms) c)) with (pot c); lia].
  destruct I as [I1 I2 I3 I4 I5]. split; fields; try assumption.
  - destruct I2 as [F1 F2 F3 F4 F5|k d F1 F2 F3 F4 F5 F6|B].
    + apply ShIdle; fields; auto.
    + eapply ShOne; fields; eauto.
    + apply ShBound. destruct B. split; fields; auto.
  - intros M. destruct (I3 M). split; assumption.
Qed.
Lemma error_ok b n m c : inv b n m c -> effect b n m True c (set_listen (lmode c) false c).
Proof.
  intros I. exists []. split; [symmetry; apply app_nil_r|]. split; [|intros _ _; change (discovers []) with 0; change (pot (set_listen (lmode c) false c)) with (pot c); lia].
  destruct I as [I1 I2 I3 I4 I5]. split; fields; try assumption.
  - destruct I2 as [F1 F2 F3 F4 F5|k d F1 F2 F3 F4 F5 F6|B].
    + apply ShIdle; fields; auto.
    + eapply ShOne; fields; eauto.
    + apply ShBound. destruct B. split; fields; auto.
  - intros M. destruct (I3 M). split; assumption.
Qed.
Definition nak_count (m : N) (o : op) : N := match o with OStop => 0 | _ => if is_nak o then m + 1 else m end.
Lemma step_ok b n m fuel sock o c c' :
  step fuel sock Nothing o c = Ret c' -> inv b n m c -> listens c -> (sock = true \/ b) -> (n \/ (deadline (log c) <> None -> is_nak o = false)) ->
  match o with OStart _ => running (log c) = false | _ => True end -> effect b n (nak_count m o) (alone o) c c'.
Proof.
  intros H I Li Hs Hn P. assert (Li' := listens_step _ _ _ _ _ _ H Li). destruct o; cbn [step nak_count alone is_nak] in *.
  - destruct (start fuel sock Nothing la c) as [x| |] eqn:E; try discriminate. cbn [obind] in H. injection H as <-. apply (api_start b n m) in E; auto.
  - injection H as <-. apply (api_stop _ _ _ _ I).
  - destruct (find (fun s => s_id s =? id) (srcs c)) as [s|] eqn:F; [|injection H as <-; apply (effect_same _ _ m); [lia|exact I]].
    destruct (s_due s <=? now c); [|injection H as <-; apply (effect_same _ _ m); [lia|exact I]].
    destruct (fire fuel sock rnd Nothing (s_kind s) c) as [c1| |] eqn:E; try discriminate. cbn [obind] in H. injection H as <-. apply find_src in F. destruct F as [F1 F2].
    change (set_srcs (without id (srcs c1)) (next_id c1) c1) with (closed id c1).
    destruct (i_shape _ _ _ _ I) as [G _ _ _ _|k d G1 G2 G3 G4 G5 G6|B].
    + rewrite G in F1. destruct F1.
    + rewrite G2 in F1. destruct F1 as [<-|[]]. cbn [s_id s_kind] in *. subst id. eapply fire_one; eauto.
    + destruct s as [i k d]. cbn [s_id s_kind] in *. subst i. eapply fire_bound; eauto.
  - destruct (watch c) eqn:W; [|injection H as <-; apply (effect_same _ _ m); [destruct (p_type p) as [t|]; [destruct (t =? 6)|]; lia|exact I]]. apply (listener_ok b n m) in H; assumption.
  - destruct (watch c); injection H as <-; [apply error_ok, I|apply (effect_same _ _ m); [lia|exact I]].
  - injection H as <-. apply wait_ok, I.
Qed.
Lemma fresh_inv b n : inv b n 0 fresh_client.
Proof.
  split.
  - reflexivity.
  - apply ShIdle; [reflexivity|discriminate|reflexivity|split; discriminate|right; reflexivity].
  - intros _. split; vm_compute; discriminate.
  - discriminate.
  - intros s [].
Qed.
Lemma fresh_listens : listens fresh_client.
Proof. intros _. reflexivity. Qed.
Lemma naks_snoc os o : naks (os ++ [o]) = nak_count (naks os) o.
Proof. unfold naks. rewrite fold_left_app. destruct o; reflexivity. Qed.

Lemma runs_listens P os c : runs P os c -> listens c.
Proof. induction 1 as [|os c fuel sock r o c' _ IH _ H]; [exact fresh_listens|]. eapply listens_step; eassumption. Qed.
Lemma runs_inv b n (P : rule) os c :
  (forall c sock r o, P c sock r o -> proper c sock r o /\ (sock = true \/ b) /\ (n \/ (deadline (log c) <> None -> is_nak o = false))) ->
  runs P os c -> inv b n (naks os) c.
Proof.
  intros HP R. induction R as [|os c fuel sock r o c' R IH Hp H]; [apply fresh_inv|]. destruct (HP _ _ _ _ Hp) as ([-> P1] & P2 & P3). rewrite naks_snoc.
  destruct (step_ok b n (naks os) _ _ _ _ _ H IH (runs_listens _ _ _ R) P2 P3 P1) as (l & _ & I & _). exact I.
Qed.
Lemma proper_inv os c : runs proper os c -> inv True True (naks os) c.
Proof. apply runs_inv. intros. tauto. Qed.
Lemma both_mono P Q os c : runs (both P Q) os c -> runs P os c.
Proof. induction 1 as [|os c fuel sock r o c' R IH [Hp _] H]; [constructor|econstructor; eassumption]. Qed.

Lemma idle_after_stop os c : runs proper os c -> running (log c) = false -> srcs c = [].
Proof. intros R F. apply proper_inv, i_shape in R. destruct R as [E _ _ _ _|k d _ _ _ R _ _|B]; [exact E|congruence|]. rewrite (b_run _ _ B) in F. discriminate. Qed.
Lemma lease_ends os c d : runs (both proper no_nak) os c -> deadline (log c) = Some d -> caught_up c -> now c < d.
Proof.
  intros R D C. assert (I : inv True False (naks os) c) by (revert R; apply runs_inv; intros c0 sock r o [P N]; unfold no_nak in N; tauto).
  destruct (i_shape _ _ _ _ I) as [_ _ _ _ [F|F]|k d' _ _ _ _ _ [F|F]|B]; try tauto; try congruence.
  destruct (b_exp _ _ B) as (d' & I' & [F|F]); [tauto|]. rewrite D in F. injection F as <-. unfold caught_up in C. rewrite Forall_forall in C. apply C in I'. exact I'.
Qed.
Lemma renewing_deaf os c p fuel sock r : runs proper os c -> st c = RENEWING -> step fuel sock r (ORecv p) c = Ret c.
Proof.
  intros R E. apply proper_inv, i_shape in R. destruct R as [_ _ _ [_ F] _|k d _ _ _ _ [_ F] _|B]; try contradiction.
  cbn [step]. destruct (watch c) eqn:W; [|reflexivity]. destruct (b_listen _ _ B E) as [F|F]; [|congruence]. unfold listener. rewrite F. cbn [seen p_owner p_type]. destruct (negb (p_owner p)); reflexivity.
Qed.
Lemma never_stuck os c : runs (both proper sockets) os c -> running (log c) = true -> gave_up (log c) = false -> srcs c <> [].
Proof.
  intros R F G. assert (I : inv False True (naks os) c) by (revert R; apply runs_inv; intros c0 sock r o [P N]; unfold sockets in N; tauto).
  destruct (i_shape _ _ _ _ I) as [_ H _ _ _|k d _ -> _ _ _ _|B]; [|discriminate|].
  - destruct (H F) as [X|X]; [destruct X|congruence].
  - destruct (b_exp _ _ B) as (d & I' & _). intros X. rewrite X in I'. destruct I'.
Qed.
Lemma pot_run m fuel os : forall c c', m <= 6 -> inv True True m c -> listens c -> alone_steps os -> run fuel os c = Ret c' ->
  exists l, log c' = log c ++ l /\ discovers l + pot c' <= pot c.
Proof.
  induction os as [|[[sock r] o] os IH]; intros c c' M I Li A H; cbn [run] in H.
  - injection H as <-. exists []. rewrite app_nil_r. split; [reflexivity|]. change (discovers []) with 0. lia.
  - inversion A as [|x y [A1 A2] A3]; subst. cbn [fst snd] in *. subst r. destruct (step fuel sock Nothing o c) as [c1| |] eqn:E; cbn [obind] in H; try discriminate.
    assert (Li1 := listens_step _ _ _ _ _ _ E Li). assert (Nk : nak_count m o = m) by (destruct o; try destruct A2; reflexivity).
    apply (step_ok True True m) in E; try tauto; [|destruct o; try destruct A2; tauto]. rewrite Nk in E. destruct E as (l1 & L1 & I1 & P1).
    destruct (IH c1 c' M I1 Li1 A3 H) as (l2 & L2 & P2). exists (l1 ++ l2). split; [rewrite L2, L1, app_assoc; reflexivity|]. rewrite discovers_app. specialize (P1 A2 M). lia.
Qed.
Lemma six_discovers os c fuel os' c' : runs proper os c -> naks os <= 6 -> alone_steps os' -> run fuel os' c = Ret c' ->
  exists l, log c' = log c ++ l /\ discovers l <= 6.
Proof.
  intros R M A H. destruct (pot_run (naks os) fuel os' c c' M (proper_inv _ _ R) (runs_listens _ _ _ R) A H) as (l & L & P). exists l. split; [exact L|].
  assert (Q : pot c <= 6) by (apply pot_le; tauto). lia.
Qed.

(** ** Undefined and endless *)
Ltac ex := eexists; reflexivity.
Lemma start_ret fuel sock la c : exists x, start (S fuel) sock Nothing la c = Ret x.
Proof.
  cbn [start]. destruct (retry c =? 6); [cbn [obind]; ex|]. destruct (if retry c =? 0 then _ else _) as [c1 ok]. destruct ok; cbn [negb]; [|ex].
  destruct la as [a|]; [|ex]. destruct (a =? 0xffffffff); [ex|]. destruct (a =? 0); cbn [negb]; ex.
Qed.
Lemma start_request_ret fuel sock c : exists x, start_request fuel sock Nothing c = Ret x.
Proof. unfold start_request. destruct (retry c =? 3); cbn [react]; ex. Qed.
Lemma restart_ret fuel sock n c : exists x, restart_dhcp (S fuel) sock Nothing n c = Ret x.
Proof. unfold restart_dhcp. cbv zeta. generalize (fst (switch sock L2 (set_st INIT_SELECTING (set_req 0 (set_retry n (remove_timeouts c)))))). intros c1. destruct (start_ret fuel sock (last c1) c1) as [x ->]. cbn [obind]. ex. Qed.
Lemma fire_ret fuel sock rnd k c : exists x, fire (S fuel) sock rnd Nothing k c = Ret x.
Proof.
  destruct k; cbn [fire].
  - destruct (start_ret fuel sock None (set_st INIT_SELECTING (set_req 0 (set_retry 0 c)))) as [x ->]. cbn [obind]. ex.
  - destruct (start_ret fuel sock None (set_retry ((retry c + 1) mod 256) c)) as [x ->]. cbn [obind]. ex.
  - apply start_request_ret.
  - unfold restart_timeout. destruct (st c); apply restart_ret.
  - ex.
  - ex.
  - ex.
  - ex.
  - unfold start_expire. destruct (restart_ret fuel sock 0 (remove_timeouts c)) as [x ->]. cbn [obind react]. ex.
Qed.
Lemma ack_ret fuel sock p c : p_server p <> None -> exists x, on_ack fuel sock Nothing p c = Ret x.
Proof.
  intros H. unfold on_ack. generalize (ack_address sock p (remove_timeouts (set_retry 0 c))). intros c1.
  assert (X : exists c2, ack_server p c1 = Ret c2) by (unfold ack_server; destruct (st c1); try ex; destruct (p_server p); [ex|contradiction H; reflexivity]).
  destruct X as [c2 ->]. cbn [obind react]. ex.
Qed.
Lemma step_ret fuel sock o c : (forall p, o = ORecv p -> p_server p <> None) -> exists c', step (S fuel) sock Nothing o c = Ret c'.
Proof.
  intros H. destruct o; cbn [step].
  - destruct (start_ret fuel sock la c) as [x ->]. cbn [obind]. ex.
  - ex.
  - destruct (find _ _) as [s|]; [|ex]. destruct (s_due s <=? now c); [|ex]. destruct (fire_ret fuel sock rnd (s_kind s) c) as [x ->]. cbn [obind]. ex.
  - destruct (watch c); [|ex]. specialize (H p eq_refl). unfold listener. destruct (lmode c); [ex| |].
    + cbn [seen]. destruct (p_owner p); cbn [negb]; [|ex]. destruct (p_type p) as [t|]; [|ex].
      assert (Q : exists x, (if t =? DHCPACK then on_ack (S fuel) sock Nothing p c else if t =? DHCPNAK then Ret (on_nak c) else Ret c) = Ret x)
        by (destruct (t =? DHCPACK); [apply ack_ret, H|]; destruct (t =? DHCPNAK); ex).
      destruct (st c); try exact Q; try ex. destruct (negb _); [ex|]. destruct (p_server p); [apply start_request_ret|congruence].
    + cbn [seen p_owner p_type]. destruct (negb _); ex.
  - ex.
  - ex.
Qed.
Lemma start_endless sock la : forall fuel lb c, retry c = 6 -> start fuel sock (DoStart la) lb c = Endless.
Proof.
  induction fuel as [|fuel IH]; [reflexivity|]. intros lb c E. cbn [start]. rewrite E. cbn [N.eqb Pos.eqb]. rewrite (IH la (emit NoLease c) E). reflexivity.
Qed.
Lemma step_endless fuel sock la id rnd d c :
  find (fun s => s_id s =? id) (srcs c) = Some (Src id KDiscover d) -> d <= now c -> retry c = 5 -> step fuel sock (DoStart la) (OFire id rnd) c = Endless.
Proof.
  intros F D R. cbn [step]. rewrite F. cbn [s_due s_kind fire]. replace (d <=? now c) with true by lia. rewrite start_endless; [reflexivity|]. cbn [set_retry retry]. rewrite R. reflexivity.
Qed.

(** ** Options of a packet without a length *)
From Verif Require DhcpOpt_Model.
Lemma no_options code p : lenN p = 628 -> forall k n, (n <= k)%nat -> N.of_nat n <= 388 ->
  DhcpOpt_Model.get_loop (S k) p 0 code (DhcpOpt_Model.mkSt (628 - N.of_nat n) (Z.of_nat n) 0) = Ok (Some None).
Proof.
  intros L. induction k as [|k IH]; intros n Hk Hn; cbn [DhcpOpt_Model.get_loop]; unfold DhcpOpt_Model.get_step; cbn [DhcpOpt_Model.rem DhcpOpt_Model.ptr DhcpOpt_Model.ovl].
  - destruct n; [|lia]. reflexivity.
  - destruct n as [|n].
    + reflexivity.
    + destruct (Z.leb_spec (Z.of_nat (S n)) 0); [lia|]. cbn [andb]. unfold DhcpOpt_Model.rd.
      destruct (nthN_Some p (628 - N.of_nat (S n))) as [x ->]; [lia|]. cbn [bind].
      destruct (x =? DhcpOpt_Model.PADDING).
      * unfold DhcpOpt_Model.sub_int. destruct (Z.ltb_spec (Z.of_nat (S n) - Z.of_N 1) (- 2 ^ 31)); [lia|]. cbn [bind].
        replace (628 - N.of_nat (S n) + 1) with (628 - N.of_nat n) by lia. replace (Z.of_nat (S n) - Z.of_N 1)%Z with (Z.of_nat n) by lia. apply IH; lia.
      * destruct (x =? DhcpOpt_Model.END); [reflexivity|]. destruct (N.leb_spec 0 (628 - N.of_nat (S n) + 1)); [reflexivity|lia].
Qed.
Lemma no_length_no_option code p fuel : lenN p = 628 -> (389 <= fuel)%nat -> DhcpOpt_Model.get_option fuel p 0 code = Ok (Some None).
Proof.
  intros L F. unfold DhcpOpt_Model.get_option. destruct fuel as [|fuel]; [lia|]. assert (X := no_options code p L fuel 388). change (628 - N.of_nat 388) with DhcpOpt_Model.HDR in X. change (Z.of_nat 388) with 388%Z in X. apply X; lia.
Qed.

(** ** The handshake *)
Record waiting (s : state) (c : client) : Prop := Waiting {
  w_st : st c = s; w_mode : lmode c = L2; w_watch : watch c = true; w_retry : retry c = 0;
  w_t1 : t1_timeout c = 0; w_t2 : t2_timeout c = 0; w_lt : lease_timeout c = 0; w_own : timeout c = 0 \/ pending (timeout c) (srcs c) = true }.
Lemma remove_own id c : id = 0 \/ pending id (srcs c) = true -> remove id c = set_srcs (cut id (srcs c)) (next_id c) c.
Proof.
  unfold remove, cut. destruct (N.eqb_spec id 0); [intros _; symmetry; apply set_srcs_same|]. intros [H|H]; [contradiction|]. rewrite H. reflexivity.
Qed.
Lemma waiting_remove s c : waiting s c -> remove_timeouts c = set_timers 0 0 0 0 (set_srcs (cut (timeout c) (srcs c)) (next_id c) c).
Proof.
  intros [_ _ _ _ H1 H2 H3 H4]. unfold remove_timeouts. rewrite H1, H2, H3, (remove_own _ _ H4). reflexivity.
Qed.
Lemma pending_new l id k d : pending id (l ++ [Src id k d]) = true.
Proof. unfold pending. rewrite existsb_app. cbn [existsb s_id]. rewrite N.eqb_refl. apply orb_true_r. Qed.
Lemma waiting_wait s fuel sock r ms c : waiting s c -> exists c', step fuel sock r (OWait ms) c = Ret c' /\ waiting s c' /\ log c' = log c /\ now c' = now c + ms.
Proof. intros []. eexists. split; [reflexivity|]. split; [split; assumption|]. split; reflexivity. Qed.
Lemma stop_idle c : let x := stop c in st x = RELEASED /\ lmode x = L_NONE /\ watch x = false /\ retry x = 0 /\ timeout x = 0 /\ t1_timeout x = 0 /\ t2_timeout x = 0 /\ lease_timeout x = 0.
Proof.
  unfold stop. assert (X : lmode (fst (switch true L_NONE c)) = L_NONE) by (unfold switch; destruct (lmode c) eqn:E; try exact E; reflexivity).
  generalize dependent (fst (switch true L_NONE c)). intros c1 X.
  assert (Y : lmode (match st c1 with BOUND | RENEWING | REBINDING => emit (Release (server_ip c1) (req_ip c1)) c1 | _ => c1 end) = L_NONE) by (destruct (st c1); exact X).
  generalize dependent (match st c1 with BOUND | RENEWING | REBINDING => emit (Release (server_ip c1) (req_ip c1)) c1 | _ => c1 end). intros c2 Y.
  assert (Z : lmode (remove_timeouts c2) = L_NONE) by (rewrite (proj1 (remove_timeouts_listen c2)); exact Y).
  assert (W : timeout (remove_timeouts c2) = 0 /\ t1_timeout (remove_timeouts c2) = 0 /\ t2_timeout (remove_timeouts c2) = 0 /\ lease_timeout (remove_timeouts c2) = 0) by (unfold remove_timeouts; repeat split).
  generalize dependent (remove_timeouts c2). intros c3 Z W. repeat split; try apply W. exact Z.
Qed.
Lemma begin fuel c : exists c', step (S fuel) true Nothing (OStart None) (emit Stop (stop c)) = Ret c' /\ waiting INIT_SELECTING c'
  /\ now c' = now (stop c) /\ log c' = log (emit Stop (stop c)) ++ [(now (stop c), Discover 0); (now (stop c), Start true)].
Proof.
  assert (X := stop_idle c). cbv zeta in X. destruct X as (X1 & X2 & X3 & X4 & X5 & X6 & X7 & X8). generalize dependent (stop c). clear c. intros c X1 X2 X3 X4 X5 X6 X7 X8.
  destruct c as [c1 c2 c3 c4 c5 c6 c7 c8 c9 c10 c11 c12 c13 c14 c15 c16 c17 c18 c19 c20 c21]. cbn [st lmode watch retry timeout t1_timeout t2_timeout lease_timeout] in *. subst. eexists. split; [reflexivity|]. split; [|split; [reflexivity|]].
  - split; try reflexivity. right. apply pending_new.
  - transitivity (((c21 ++ [(c18, Stop)]) ++ [(c18, Discover 0)]) ++ [(c18, Start true)]); [reflexivity|]. cbn [emit set_log log now]. rewrite <- !app_assoc. reflexivity.
Qed.
Lemma offered fuel p s c : waiting INIT_SELECTING c -> p_owner p = true -> p_type p = Some 2 -> p_server p = Some s ->
  exists c', step (S fuel) true Nothing (ORecv p) c = Ret c' /\ waiting REQUESTING c' /\ now c' = now c
  /\ log c' = log c ++ [(now c, Request (Some (p_yiaddr p)) (Some s) None false)].
Proof.
  intros W P1 P2 P3. cbn [step]. rewrite (w_watch _ _ W). unfold listener. rewrite (w_mode _ _ W). cbn [seen]. rewrite P1, P2, P3, (w_st _ _ W). cbn [negb].
  change (2 =? DHCPOFFER) with true. cbn [negb]. rewrite (waiting_remove _ _ W). unfold start_request. cbn [set_st set_req set_server set_retry retry N.eqb].
  unfold switch. cbn [set_st set_req set_server set_retry set_timers set_srcs lmode]. rewrite (w_mode _ _ W). cbn [mode_eqb fst]. eexists. split; [reflexivity|]. split; [|split; reflexivity].
  split; try reflexivity; try apply W. right. apply pending_new.
Qed.
Lemma start_bound_idle c : timeout c = 0 -> t1_timeout c = 0 -> t2_timeout c = 0 -> lease_timeout c = 0 ->
  st (start_bound c) = BOUND /\ now (start_bound c) = now c /\ log (start_bound c) = log c.
Proof.
  intros H1 H2 H3 H4. unfold start_bound. assert (E : remove_timeouts (set_st BOUND c) = set_timers 0 0 0 0 (set_st BOUND c)).
  { unfold remove_timeouts. fields. rewrite H1, H2, H3, H4. reflexivity. }
  rewrite E. clear. assert (X : st (set_timers 0 0 0 0 (set_st BOUND c)) = BOUND /\ now (set_timers 0 0 0 0 (set_st BOUND c)) = now c /\ log (set_timers 0 0 0 0 (set_st BOUND c)) = log c) by (repeat split).
  generalize dependent (set_timers 0 0 0 0 (set_st BOUND c)). intros x X. repeat split; apply X.
Qed.
Lemma acked fuel sock p c l : waiting REQUESTING c -> p_owner p = true -> p_type p = Some 5 -> p_lease p = Some l -> 10 <= l < 2 ^ 28 ->
  exists c', step (S fuel) sock Nothing (ORecv p) c = Ret c' /\ st c' = BOUND /\ now c' = now c /\ log c' = log c ++ [(now c, Available (p_yiaddr p) l)].
Proof.
  intros W P1 P2 P3 L. cbn [step]. rewrite (w_watch _ _ W). unfold listener. rewrite (w_mode _ _ W). cbn [seen]. rewrite P1, P2, (w_st _ _ W). cbn [negb].
  change (5 =? DHCPACK) with true. cbv iota. unfold on_ack.
  assert (W' : waiting REQUESTING (set_retry 0 c)) by (destruct W; split; try assumption; reflexivity). rewrite (waiting_remove _ _ W').
  unfold ack_address, get_lease. rewrite P3. rewrite (N.mod_small l (2 ^ 28)) by lia. destruct (N.ltb_spec l 10); [lia|]. cbv zeta.
  unfold switch. cbn [set_times set_timers set_srcs set_retry lmode]. rewrite (w_mode _ _ W). cbn [mode_eqb fst]. unfold ack_server. cbn [set_assigned set_listen set_times set_timers set_srcs set_retry st]. rewrite (w_st _ _ W). cbn [obind react].
  match goal with |- context [start_bound ?x] => set (c4 := x) end.
  exists (start_bound c4). split; [reflexivity|]. destruct (start_bound_idle c4) as (A & B & C); try reflexivity. rewrite A, B, C. clear A B C. repeat split.
Qed.
Lemma handshake fuel c a b offer ack s l :
  p_owner offer = true -> p_type offer = Some 2 -> p_server offer = Some s ->
  p_owner ack = true -> p_type ack = Some 5 -> p_lease ack = Some l -> 10 <= l < 2 ^ 28 ->
  exists c0 c', step (S fuel) true Nothing OStop c = Ret c0 /\
    run (S fuel) (map (fun o => (true, Nothing, o)) [OStart None; OWait a; ORecv offer; OWait b; ORecv ack]) c0 = Ret c' /\
    log c' = log c0 ++ [(now c0, Discover 0); (now c0, Start true); (now c0 + a, Request (Some (p_yiaddr offer)) (Some s) None false);
                        (now c0 + a + b, Available (p_yiaddr ack) l)].
Proof.
  intros O1 O2 O3 A1 A2 A3 A4. exists (emit Stop (stop c)). cbn [map run]. destruct (begin fuel c) as (c1 & -> & W1 & N1 & L1). cbn [obind].
  destruct (waiting_wait _ (S fuel) true Nothing a c1 W1) as (c2 & -> & W2 & L2 & N2). cbn [obind].
  destruct (offered fuel offer s c2 W2 O1 O2 O3) as (c3 & -> & W3 & N3 & L3). cbn [obind].
  destruct (waiting_wait _ (S fuel) true Nothing b c3 W3) as (c4 & -> & W4 & L4 & N4). cbn [obind].
  destruct (acked fuel true ack c4 l W4 A1 A2 A3 A4) as (c5 & -> & _ & N5 & L5). cbn [obind].
  exists c5. split; [reflexivity|]. split; [reflexivity|]. assert (E : forall x, now (emit Stop x) = now x) by reflexivity. rewrite E. clear E. rewrite L5, L4, L3, L2, L1, N4, N3, N2, N1. generalize (log (emit Stop (stop c))) (now (stop c)). intros h t. rewrite <- !app_assoc. reflexivity.
Qed.
Lemma start_bound_log c : known c -> exists z, log (start_bound c) = log c ++ nf (now c) z.
Proof.
  intros K. destruct (remove_timeouts_eq (set_st BOUND c) K) as [y Ey]. exists y. unfold start_bound.
  assert (X : log (remove_timeouts (set_st BOUND c)) = log c ++ nf (now c) y) by (rewrite Ey; reflexivity). clear Ey.
  generalize dependent (remove_timeouts (set_st BOUND c)). intros x X. exact X.
Qed.
(** An ACK while rebinding. *)
Lemma rebinding_ack fuel sock p c l : known c -> st c = REBINDING -> lmode c = L2 -> watch c = true -> p_owner p = true -> p_type p = Some 5 -> p_lease p = Some l -> 10 <= l < 2 ^ 28 ->
  exists c', step fuel sock Nothing (ORecv p) c = Ret c' /\ deadline (log c') = Some (now c + l * 1000).
Proof.
  intros K S M W P1 P2 P3 L. cbn [step]. rewrite W. unfold listener. rewrite M. cbn [seen]. rewrite P1, P2, S. cbn [negb]. change (5 =? DHCPACK) with true. cbv iota.
  unfold on_ack. destruct (remove_timeouts_eq (set_retry 0 c) K) as [z Ez].
  assert (X : exists c1, remove_timeouts (set_retry 0 c) = c1 /\ srcs c1 = [] /\ now c1 = now c /\ st c1 = REBINDING) by (eexists; split; [exact Ez|]; fields; tauto).
  destruct X as (c1 & -> & E1 & E2 & E3).
  assert (X : exists c2, ack_address sock p c1 = c2 /\ st c2 = REBINDING /\ lease c2 = l /\ now c2 = now c /\ srcs c2 = []).
  { eexists; split; [reflexivity|]. unfold ack_address, get_lease. rewrite P3. rewrite (N.mod_small l (2 ^ 28)) by lia. destruct (N.ltb_spec l 10); [lia|]. cbv zeta.
    set (c2 := set_times _ _ _ _ c1). assert (Y := switch_other sock L_NONE c2). cbv zeta in Y. cbn [set_assigned st lease now srcs].
    destruct Y as (-> & -> & _ & _ & _ & _ & -> & _ & _ & _ & _ & _ & _ & _ & -> & _). cbn [c2 set_times st srcs now lease]. tauto. }
  destruct X as (c2 & -> & F1 & F2 & F3 & F4). unfold ack_server. rewrite F1. cbn [obind react]. eexists. split; [reflexivity|].
  set (c3 := emit (Available (p_yiaddr p) (lease c2)) c2). assert (K3 : known c3) by (intros s Is; cbn in Is; rewrite F4 in Is; destruct Is).
  assert (D : deadline (log c3) = Some (now c + l * 1000)) by (cbn [c3 emit set_log log]; logs; rewrite F2, F3; reflexivity). clearbody c3.
  destruct (start_bound_log c3 K3) as [y ->]. logs. exact D.
Qed.

Lemma rebinding_extends fuel sock p os c l : runs proper os c ->
  st c = REBINDING -> lmode c = L2 -> watch c = true -> p_owner p = true -> p_type p = Some 5 -> p_lease p = Some l -> 10 <= l < 2 ^ 28 ->
  exists c', step fuel sock Nothing (ORecv p) c = Ret c' /\ deadline (log c') = Some (now c + l * 1000).
Proof. intros R. apply rebinding_ack. eapply shape_known, i_shape, proper_inv, R. Qed.

(** ** Concrete histories *)
Definition plain (os : list op) : list (bool * reaction * op) := map (fun o => (true, Nothing, o)) os.
Definition proper_b (c : client) (r : reaction) (o : op) : bool :=
  match r with Nothing => true | _ => false end && match o with OStart _ => negb (running (log c)) | _ => true end.
Fixpoint proper_run (fuel : nat) (os : list (bool * reaction * op)) (c : client) : oc client :=
  match os with
  | [] => Ret c
  | (sock, r, o) :: os => if proper_b c r o then let* c := step fuel sock r o c in proper_run fuel os c else Undef
  end.
Lemma proper_run_from fuel os : forall c c' os0, runs proper os0 c -> proper_run fuel os c = Ret c' -> runs proper (os0 ++ map snd os) c'.
Proof.
  induction os as [|[[sock r] o] os IH]; intros c c' os0 R H; cbn [proper_run map snd] in *.
  - injection H as <-. rewrite app_nil_r. exact R.
  - destruct (proper_b c r o) eqn:P; [|discriminate]. destruct (step fuel sock r o c) as [c1| |] eqn:E; cbn [obind] in H; try discriminate.
    replace (os0 ++ o :: map snd os) with ((os0 ++ [o]) ++ map snd os) by (rewrite <- app_assoc; reflexivity). apply (IH c1); [|exact H].
    apply (runs_step _ os0 c fuel sock r o); [exact R| |exact E]. unfold proper_b in P. apply andb_true_iff in P. destruct P as [P1 P2]. split; [destruct r; try discriminate; reflexivity|].
    destruct o; try exact Logic.I. apply negb_true_iff, P2.
Qed.
Lemma proper_runs fuel os c : proper_run fuel os fresh_client = Ret c -> runs proper (map snd os) c.
Proof. apply (proper_run_from fuel os fresh_client c []). constructor. Qed.
Lemma runs_no_nak os c : runs proper os c -> Forall (fun o => is_nak o = false) os -> runs (both proper no_nak) os c.
Proof.
  induction 1 as [|os c fuel sock r o c' R IH P H]; intros F; [constructor|]. apply Forall_app in F. destruct F as [F1 F2]. inversion F2; subst.
  econstructor; [apply IH, F1| |exact H]. split; [exact P|]. intros _. assumption.
Qed.
(** A server 1.1.1.1 that offers 10.0.0.7 for [l] seconds. *)
Definition offer : packet := Packet true (Some 2) (Some 0x01010101) None 0x0a000007.
Definition ack (l : N) : packet := Packet true (Some 5) (Some 0x01010101) (Some l) 0x0a000007.
Definition nak : packet := Packet true (Some 6) (Some 0x01010101) None 0.
Definition lease_for (l : N) : list op := [OStart None; ORecv offer; ORecv (ack l)].
(** The request is not answered: no lease. *)
Definition no_answer : list op :=
  [OStart None; ORecv offer; OWait 5000; OFire 2 0; OWait 5000; OFire 3 0; OWait 5000; OFire 4 0].
(** Until rebinding: timers 3, 4 and 5 are for T1, T2 and the end. *)
Definition rebinding (l : N) : list op := lease_for l ++ [OWait (l / 2 * 1000); OFire 3 0; OWait (l * 7 / 8 * 1000 - l / 2 * 1000); OFire 4 0].
Definition round (k : N) : list op := [ORecv offer; ORecv nak; OWait 3000; OFire (3 * k + 3) 0].
Definition rounds (n : nat) : list op := OStart None :: flat_map (fun k => round (N.of_nat k)) (seq 0 n).
Definition waits (first : N) (n : nat) : list op := flat_map (fun k => [OWait 5000; OFire (first + N.of_nat k) 0]) (seq 0 n).
Lemma plain_alone os : Forall alone os -> alone_steps (plain os).
Proof. intros H. unfold alone_steps, plain. rewrite Forall_map. eapply Forall_impl; [|exact H]. intros o A. split; [reflexivity|exact A]. Qed.
Lemma waits_alone f n : Forall alone (waits f n).
Proof. unfold waits. apply Forall_flat_map, Forall_forall. intros k _. repeat constructor. Qed.
