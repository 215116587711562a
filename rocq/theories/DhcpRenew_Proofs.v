From Verif Require Import Base DhcpClient_Model DhcpClient_Spec DhcpClient_Proofs DhcpRenew_Spec.

(** ** Histories *)
Lemma lease_of_snoc h e : lease_of (h ++ [e]) = held_step (lease_of h) e.
Proof. unfold lease_of. rewrite fold_left_app. reflexivity. Qed.
Lemma lease_of_nf h t n : lease_of (h ++ nf t n) = lease_of h.
Proof. unfold lease_of. rewrite fold_left_app. apply fold_nf. reflexivity. Qed.
Lemma asked_snoc h e : asked (h ++ [e]) = asked_step (asked h) e.
Proof. unfold asked. rewrite fold_left_app. reflexivity. Qed.
Lemma asked_nf h t n : asked (h ++ nf t n) = asked h.
Proof. unfold asked. rewrite fold_left_app. apply fold_nf. reflexivity. Qed.
Lemma every_nil P : every P [].
Proof. intros h1 e h2 H. destruct h1; discriminate. Qed.
Lemma every_snoc P h e : every P h -> P (lease_of h) e -> every P (h ++ [e]).
Proof.
  intros H He h1 e' h2 E. destruct h2 as [|x h2] using rev_ind.
  - apply app_inj_tail in E. destruct E as [<- <-]. exact He.
  - clear IHh2. rewrite app_comm_cons, app_assoc in E. apply app_inj_tail in E. destruct E as [E _]. apply (H _ _ _ E).
Qed.
(** No message for a lease. *)
Definition mild (e : N * event) : Prop :=
  match snd e with Request _ _ (Some _) _ => False | _ => True end.
Definition fits (P : option held -> N * event -> Prop) : Prop := forall v e, mild e -> P v e.
Lemma every_mild P h l : fits P -> Forall mild l -> every P h -> every P (h ++ l).
Proof.
  intros F H. revert h. induction H as [|e l He _ IH]; intros h E; [rewrite app_nil_r; exact E|].
  change (e :: l) with ([e] ++ l). rewrite app_assoc. apply IH, every_snoc; [exact E|apply F, He].
Qed.
Lemma mild_nf t n : Forall mild (nf t n).
Proof. unfold nf. apply Forall_forall. intros x I. apply repeat_spec in I. subst x. exact Logic.I. Qed.
Lemma mild_stop l : Forall (fun e : N * event => match snd e with Release _ _ | NotFound => True | _ => False end) l -> Forall mild l.
Proof. apply Forall_impl. intros [t e]. unfold mild. cbn [snd]. destruct e; tauto. Qed.
Definition good (v : option held) (e : N * event) : Prop := on_time v e /\ spaced (2 ^ 24) v e.
Lemma good_fits : fits good.
Proof. intros v [t e] H. unfold mild, good, on_time, spaced in *. cbn [snd] in *. destruct e; try tauto. destruct ciaddr; tauto. Qed.

(** ** The functions *)
(** Only timers of messages without a lease, and none of REQUEST. *)
Definition calm (c : client) : Prop := forall s, In s (srcs c) -> timeout_kind (s_kind s) = true.
Definition asks (c : client) : Prop := forall s, In s (srcs c) -> s_kind s = KRequest -> st c = REQUESTING.
Definition apart (c : client) : Prop := forall s, In s (srcs c) -> timeout_kind (s_kind s) = true /\ s_kind s <> KRequest.
Lemma apart_calm c : apart c -> calm c /\ asks c.
Proof. intros H. split; intros s I; [apply H, I|]. intros K. destruct (H s I). contradiction. Qed.
Lemma start_mild fuel sock la c x : start fuel sock Nothing la c = Ret x -> apart c ->
  apart (fst x) /\ exists l, log (fst x) = log c ++ l /\ Forall mild l.
Proof.
  intros H A. apply start_started in H. destruct H as [E6|x' E0 Es Esr El En Est Er Ea Eli|k ev x' E6 Esr Et En El Er Ea Hk].
  - split; [exact A|]. eexists [_]. split; [reflexivity|]. repeat constructor.
  - split; [unfold apart; rewrite Esr; exact A|]. exists []. rewrite app_nil_r. split; [exact El|constructor].
  - split.
    + unfold apart. rewrite Esr. intros s I. apply in_app_iff in I. destruct I as [I|[<-|[]]]; [apply A, I|]. destruct Hk as [(-> & _)|(-> & _)]; split; reflexivity || discriminate.
    + eexists [_]. split; [exact El|]. repeat constructor. destruct Hk as [(_ & -> & _)|(_ & _ & [a ->] & _)]; exact Logic.I.
Qed.
Lemma start_request_mild fuel sock c c' : start_request fuel sock Nothing c = Ret c' -> calm c -> retry c = 0 \/ st c = REQUESTING ->
  calm c' /\ asks c' /\ exists l, log c' = log c ++ l /\ Forall mild l.
Proof.
  unfold start_request. intros H A S. destruct (N.eqb_spec (retry c) 3) as [E3|E3].
  - cbn [react] in H. injection H as <-. split; [exact A|]. split; [intros s _ _; destruct S; [lia|assumption]|]. eexists [_]. split; [reflexivity|]. repeat constructor.
  - set (c1 := if retry c =? 0 then _ else c) in H.
    assert (X : srcs c1 = srcs c /\ log c1 = log c /\ next_id c1 = next_id c /\ now c1 = now c /\ st c1 = REQUESTING).
    { unfold c1. destruct (N.eqb_spec (retry c) 0); [|destruct S; [contradiction|tauto]]. assert (Y := switch_other sock L2 (set_st REQUESTING c)). cbv zeta in Y. tauto. }
    clearbody c1. destruct X as (X1 & X2 & X3 & X4 & X5). injection H as <-. unfold send_request. rewrite X5. split; [|split].
    + unfold calm. cbn [set_timeout set_timers add set_srcs emit set_log srcs]. rewrite X1. intros s I. apply in_app_iff in I. destruct I as [I|[<-|[]]]; [apply A, I|reflexivity].
    + intros s _ _. cbn [set_timeout set_timers add set_srcs emit set_log st]. exact X5.
    + eexists [_]. cbn [set_timeout set_timers add set_srcs emit set_log log]. rewrite X2. split; [reflexivity|]. repeat constructor.
Qed.
Lemma restart_mild fuel sock k c c' : restart_dhcp fuel sock Nothing k c = Ret c' -> known c ->
  apart c' /\ exists l, log c' = log c ++ l /\ Forall mild l.
Proof.
  unfold restart_dhcp. intros H K. destruct (remove_timeouts_eq c K) as [z E]. rewrite E in H.
  match type of H with context [switch sock L2 ?x] => set (c1 := x) in H end.
  assert (Y := switch_other sock L2 c1). cbv zeta in Y. set (c2 := fst (switch sock L2 c1)) in *. destruct Y as (_ & Y2 & Y3 & _).
  destruct (start fuel sock Nothing (last c2) c2) as [x| |] eqn:Es; cbn [obind] in H; try discriminate. injection H as <-.
  apply start_mild in Es; [|unfold apart; rewrite Y2; intros s []]. destruct Es as (A & l & L1 & L2). split; [exact A|].
  exists (nf (now c) z ++ l). split; [rewrite L1, Y3, app_assoc; reflexivity|]. apply Forall_app. split; [apply mild_nf|exact L2].
Qed.

(** ** Renewing *)
Ltac fld := cbn [set_t1 set_t2 set_lease_t set_timeout set_timers add set_srcs set_times set_log set_st set_now set_retry set_assigned set_server emit log srcs st timeout t1_timeout t2_timeout lease_timeout retry ack_retry lmode watch next_id now T1 T2 expire lease req_ip server_ip closed].
Definition cont (u : bool) (c c' : client) : Prop :=
  exists z, log c' = (log c ++ [(now c, Request None None (Some (req_ip c)) u)]) ++ nf (now c) z /\ expire c' = expire c /\ st c' = st c /\ now c' = now c /\ req_ip c' = req_ip c.
Lemma renew_exact sock rnd c : st c = RENEWING -> let c' := continue_renew sock rnd c in
  cont true c c' /\ T1 c' = T1 c / 2 /\ T2 c' = T2 c /\
  srcs c' = cut (t1_timeout c) (srcs c) ++ (if 60 <? T1 c / 2 then [Src (next_id c) KRenew2 (now c + jitter (T1 c / 2) rnd)] else []).
Proof.
  intros S. cbv zeta. unfold continue_renew. assert (X := switch_other sock L3 c). cbv zeta in X. set (c1 := fst (switch sock L3 c)) in *. clearbody c1.
  destruct X as (X1 & X2 & X3 & X4 & X5 & X6 & X7 & X8 & X9 & X10 & X11 & X12 & X13 & X14 & X15 & X16 & _).
  unfold send_request. rewrite X1, S. cbv iota.
  match goal with |- context [remove ?i ?x] => destruct (remove_eq i x) as [z Ez]; rewrite Ez end. fld. rewrite X12, X9.
  destruct (60 <? T1 c / 2); fld; rewrite ?app_nil_r, X2; (split; [exists z; fld; rewrite X1, X3, X7, X16, X14|]); rewrite ?X13, ?X4, ?X7; repeat split.
Qed.
Lemma rebound_exact sock rnd c : st c = REBINDING -> let c' := continue_rebound sock rnd c in
  cont false c c' /\ T1 c' = T1 c /\ T2 c' = T2 c / 2 /\
  srcs c' = cut (t2_timeout c) (srcs c) ++ (if 60 <? T2 c / 2 then [Src (next_id c) KRebind2 (now c + jitter (T2 c / 2) rnd)] else []).
Proof.
  intros S. cbv zeta. unfold continue_rebound. assert (X := switch_other sock L2 c). cbv zeta in X. set (c1 := fst (switch sock L2 c)) in *. clearbody c1.
  destruct X as (X1 & X2 & X3 & X4 & X5 & X6 & X7 & X8 & X9 & X10 & X11 & X12 & X13 & X14 & X15 & X16 & _).
  unfold send_request. rewrite X1, S. cbv iota.
  match goal with |- context [remove ?i ?x] => destruct (remove_eq i x) as [z Ez]; rewrite Ez end. fld. rewrite X13, X10.
  destruct (60 <? T2 c / 2); fld; rewrite ?app_nil_r, X2; (split; [exists z; fld; rewrite X1, X3, X7, X16, X14|]); rewrite ?X12, ?X4, ?X7; repeat split.
Qed.
Lemma jitter_minute t rnd : 60 < t -> t <= 4294000 -> 60000 <= jitter t rnd.
Proof.
  intros H1 H2. unfold jitter, two32. assert (rnd mod 2000 < 2000) by (apply N.mod_lt; lia).
  replace (t * 1000 + rnd mod 2000 + (4294967296 - 1000)) with (t * 1000 + rnd mod 2000 - 1000 + 1 * 4294967296) by lia.
  rewrite N.mod_add, N.mod_small by lia. lia.
Qed.
Lemma sub32_small a b : b <= a -> a < 2 ^ 28 -> sub32 a b = a - b.
Proof.
  change (2 ^ 28) with 268435456. intros H1 H2. unfold sub32, two32. rewrite (N.mod_small b) by lia. replace (a + (4294967296 - b)) with (a - b + 1 * 4294967296) by lia.
  rewrite N.mod_add, N.mod_small by lia. reflexivity.
Qed.

(** ** The invariant *)
Definition timer (k : kind) (d : N) (c : client) : Prop :=
  (forall s, In s (srcs c) -> s_kind s = k -> s_due s = d) /\ exists s, In s (srcs c) /\ s_kind s = k.
Definition phase (c : client) (v : held) : Prop :=
  expire c = h_len v /\ h_len v < 2 ^ 28 /\
  match st c with
  | BOUND => T1 c = h_len v / 2 /\ T2 c = h_len v * 7 / 8 /\ h_renew v = None /\ h_rebind v = None /\ timer KRenew (half v) c /\ timer KRebind (seven_eighths v) c
  | RENEWING => T1 c <= h_len v * 7 / 8 - h_len v / 2 /\ T2 c = h_len v * 7 / 8 /\ h_rebind v = None /\ timer KRebind (seven_eighths v) c /\
      exists t, h_renew v = Some t /\ half v <= t <= now c /\ forall s, In s (srcs c) -> s_kind s = KRenew2 -> h_len v < 2 ^ 24 -> t + 60000 <= s_due s
  | REBINDING => T2 c <= h_len v - h_len v * 7 / 8 /\
      exists t, h_rebind v = Some t /\ seven_eighths v <= t <= now c /\ forall s, In s (srcs c) -> s_kind s = KRebind2 -> h_len v < 2 ^ 24 -> t + 60000 <= s_due s
  | _ => False
  end.
Record timed (c : client) : Prop := Timed {
  d_log : every good (log c);
  d_asks : asks c;
  d_phase : ~ calm c -> exists v, lease_of (log c) = Some v /\ phase c v }.
Lemma timed_mild c c' l : timed c -> log c' = log c ++ l -> Forall mild l -> calm c' -> asks c' -> timed c'.
Proof. intros [D1 D2 D3] L M C A. split; [rewrite L; apply every_mild; [exact good_fits|exact M|exact D1]|exact A|tauto]. Qed.
Lemma calm_closed id c : calm c -> calm (closed id c).
Proof. intros H s I. cbn [closed set_srcs srcs] in I. apply without_in in I. apply H, I. Qed.
Lemma asks_closed id c : asks c -> asks (closed id c).
Proof. intros H s I. cbn [closed set_srcs srcs] in I. apply without_in in I. apply H, I. Qed.
Lemma lease_bounds l : l / 2 <= l * 7 / 8 /\ l * 7 / 8 <= l.
Proof.
  split; [|apply N.div_le_upper_bound; lia]. apply N.div_le_lower_bound; [lia|]. assert (2 * (l / 2) <= l) by (apply N.mul_div_le; lia). lia.
Qed.
Lemma bound_busy n c : bound n c -> ~ calm c.
Proof. intros B C. destruct (b_exp _ _ B) as (d & I & _). apply C in I. discriminate. Qed.
Lemma half_minute x l : x <= l * 7 / 8 - l / 2 \/ x <= l - l * 7 / 8 -> l < 2 ^ 24 -> 60 < x / 2 -> forall rnd : N, 60000 <= jitter (x / 2) rnd.
Proof.
  change (2 ^ 24) with 16777216. intros H1 H3 H4 rnd. apply jitter_minute; [exact H4|].
  assert (A1 := N.div_mod l 2 ltac:(lia)). assert (A2 := N.mod_lt l 2 ltac:(lia)). assert (A3 := N.div_mod (l * 7) 8 ltac:(lia)). assert (A4 := N.mod_lt (l * 7) 8 ltac:(lia)).
  apply N.div_le_upper_bound; lia.
Qed.
Lemma wait_timed ms c : timed c -> timed (set_now (now c + ms) c).
Proof.
  intros [D1 D2 D3]. split; [exact D1|exact D2|]. intros C. destruct (D3 C) as (v & V & P1 & P2 & P3). exists v. split; [exact V|]. split; [exact P1|]. split; [exact P2|].
  fld. destruct (st c); try exact P3.
  - destruct P3 as (Q1 & Q2 & Q3 & Q4 & t & Q5 & Q6 & Q7). repeat (split; [assumption|]). exists t. split; [exact Q5|]. split; [lia|exact Q7].
  - destruct P3 as (Q1 & t & Q5 & Q6 & Q7). split; [assumption|]. exists t. split; [exact Q5|]. split; [lia|exact Q7].
Qed.

Lemma timer_keep k d c l id n c' : timer k d c -> srcs c' = without id (cut n (srcs c) ++ l) -> (forall s, In s (srcs c) -> s_kind s = k -> s_id s <> id /\ s_id s <> n) -> (forall s, In s l -> s_kind s <> k) -> timer k d c'.
Proof.
  intros [T0 (s0 & I0 & K0)] E H Hl. split.
  - rewrite E. intros s I K. apply without_in in I. destruct I as [I _]. apply in_app_iff in I. destruct I as [I|I]; [apply in_cut in I; apply T0; tauto|]. contradiction (Hl s I).
  - exists s0. split; [|exact K0]. rewrite E. apply without_in. destruct (H s0 I0 K0). split; [|assumption]. apply in_or_app. left. apply in_cut. tauto.
Qed.
Lemma good_request h t ip (u : bool) v : lease_of h = Some v -> (if u then half v else seven_eighths v) <= t -> (h_len v < 2 ^ 24 -> forall t', (if u then h_renew v else h_rebind v) = Some t' -> t' + 60000 <= t) ->
  good (lease_of h) (t, Request None None (Some ip) u).
Proof. intros V H1 H2. rewrite V. split; [|exact H2]. cbn. repeat split. exists v. split; [reflexivity|exact H1]. Qed.
Definition renewed_at (u : bool) (t : N) (v : held) : held :=
  if u then Held (h_at v) (h_ip v) (h_len v) (Some t) (h_rebind v) else Held (h_at v) (h_ip v) (h_len v) (h_renew v) (Some t).
Lemma cont_log u c c' v : cont u c c' -> every good (log c) -> lease_of (log c) = Some v ->
  (if u then half v else seven_eighths v) <= now c -> (h_len v < 2 ^ 24 -> forall t', (if u then h_renew v else h_rebind v) = Some t' -> t' + 60000 <= now c) ->
  every good (log c') /\ lease_of (log c') = Some (renewed_at u (now c) v).
Proof.
  intros (z & L & _) E V H1 H2. rewrite L. split.
  - apply every_mild; [exact good_fits|apply mild_nf|]. apply every_snoc; [exact E|]. eapply good_request; eassumption.
  - rewrite lease_of_nf, lease_of_snoc, V. destruct u; reflexivity.
Qed.

Lemma fire_timed fuel sock rnd k id d c c' : bound True c -> timed c -> In (Src id k d) (srcs c) -> d <= now c ->
  fire fuel sock rnd Nothing k c = Ret c' -> timed (closed id c').
Proof.
  intros B T Is Due H. destruct (b_own _ _ B _ Is) as [Eid Al]. cbn [s_id s_kind] in Eid, Al. destruct (b_ids _ _ B) as (I1 & I2 & I3 & I4 & I5 & I6).
  destruct (d_phase _ T (bound_busy _ _ B)) as (v & V & P1 & P2 & P3). assert (LB := lease_bounds (h_len v)).
  assert (K2 : forall s, In s (srcs c) -> s_kind s = KRebind -> s_id s = t2_timeout c) by (intros s I K; destruct (b_own _ _ B s I) as [E _]; rewrite K in E; exact E).
  assert (Nk : forall c', asks c' \/ (forall s, In s (srcs c') -> In s (srcs c) \/ s_kind s <> KRequest) -> asks c').
  { intros x [A|A]; [exact A|]. intros s I K. destruct (A s I) as [A'|A']; [|contradiction]. destruct (b_own _ _ B s A') as [_ A2]. rewrite K in A2. destruct (st c); discriminate. }
  destruct k; cbn [fire] in H; try (destruct (st c); discriminate).
  - (* start_renew *)
    injection H as <-. assert (S : st c = BOUND) by (destruct (st c); try discriminate; reflexivity). rewrite S in P3. destruct P3 as (Q1 & Q2 & Q3 & Q4 & Q5 & Q6). cbn [slot] in Eid.
    unfold start_renew. match goal with |- context [continue_renew sock rnd ?x] => set (c1 := x) end.
    assert (F1 : T1 c1 = h_len v * 7 / 8 - h_len v / 2) by (unfold c1; fld; rewrite Q1, Q2; apply sub32_small; lia).
    destruct (renew_exact sock rnd c1 eq_refl) as (R1 & R2 & R3 & R4). set (c2 := continue_renew sock rnd c1) in *. clearbody c2. rewrite F1 in R2, R4.
    assert (Hd : half v <= now c) by (destruct Q5 as [Q5 _]; rewrite <- (Q5 _ Is eq_refl); exact Due).
    destruct (cont_log true c1 c2 v R1 (d_log _ T) V Hd) as [L1 L2]. { intros _ t. rewrite Q3. discriminate. }
    destruct R1 as (z & _ & R6 & R7 & R8 & _). split; [exact L1| |].
    + apply Nk. right. cbn [closed set_srcs srcs]. rewrite R4. intros s I. apply without_in in I. destruct I as [I _]. apply in_app_iff in I. destruct I as [I|I]; [apply in_cut in I; left; apply I|].
      right. destruct (60 <? _); [destruct I as [<-|[]]; discriminate|destruct I].
    + intros _. exists (renewed_at true (now c) v). split; [exact L2|]. unfold phase. fld. rewrite R7, R6. unfold c1 at 1 2. fld. split; [exact P1|]. split; [exact P2|]. rewrite R2, R3. unfold half, seven_eighths in *. cbn [renewed_at h_at h_len h_renew h_rebind].
      split; [apply N.div_le_upper_bound; lia|]. split; [exact Q2|]. split; [exact Q4|]. split.
      * eapply timer_keep; [exact Q6|cbn [closed set_srcs srcs]; rewrite R4; reflexivity| |].
        -- intros s I K. rewrite (K2 s I K). subst id. unfold c1. fld. lia.
        -- intros s I. destruct (60 <? _); [destruct I as [<-|[]]; discriminate|destruct I].
      * exists (now c). split; [reflexivity|]. rewrite R8. split; [split; [exact Hd|unfold c1; fld; lia]|].
        intros s I K Sm. rewrite R4 in I. apply without_in in I. destruct I as [I _]. apply in_app_iff in I. destruct I as [I|I].
        -- apply in_cut in I. destruct (b_own _ _ B s) as [_ A]; [apply I|]. rewrite K, S in A. discriminate.
        -- destruct (N.ltb_spec 60 ((h_len v * 7 / 8 - h_len v / 2) / 2)) as [Hg|Hg]; [|destruct I]. destruct I as [<-|[]]. cbn [s_due]. assert (J := half_minute _ _ (or_introl (N.le_refl _)) Sm Hg rnd). unfold c1. fld. lia.
  - (* continue_renew *)
    injection H as <-. assert (S : st c = RENEWING) by (destruct (st c); try discriminate; reflexivity). rewrite S in P3. destruct P3 as (Q1 & Q2 & Q3 & Q4 & t & Q5 & Q6 & Q7). cbn [slot] in Eid.
    destruct (renew_exact sock rnd c S) as (R1 & R2 & R3 & R4). set (c2 := continue_renew sock rnd c) in *. clearbody c2.
    destruct (cont_log true c c2 v R1 (d_log _ T) V) as [L1 L2]. { lia. } { intros Sm t'. rewrite Q5. intros X. injection X as <-. specialize (Q7 _ Is eq_refl Sm). cbn [s_due] in Q7. lia. }
    destruct R1 as (z & _ & R6 & R7 & R8 & _). split; [exact L1| |].
    + apply Nk. right. cbn [closed set_srcs srcs]. rewrite R4. intros s I. apply without_in in I. destruct I as [I _]. apply in_app_iff in I. destruct I as [I|I]; [apply in_cut in I; left; apply I|].
      right. destruct (60 <? _); [destruct I as [<-|[]]; discriminate|destruct I].
    + intros _. exists (renewed_at true (now c) v). split; [exact L2|]. unfold phase. fld. rewrite R7, R6, S. split; [exact P1|]. split; [exact P2|]. rewrite R2, R3. unfold half, seven_eighths in *. cbn [renewed_at h_at h_len h_renew h_rebind].
      split; [apply N.div_le_upper_bound; lia|]. split; [exact Q2|]. split; [exact Q3|]. split.
      * eapply timer_keep; [exact Q4|cbn [closed set_srcs srcs]; rewrite R4; reflexivity| |].
        -- intros s I K. rewrite (K2 s I K). subst id. lia.
        -- intros s I. destruct (60 <? _); [destruct I as [<-|[]]; discriminate|destruct I].
      * exists (now c). split; [reflexivity|]. rewrite R8. split; [lia|].
        intros s I K Sm. rewrite R4 in I. apply without_in in I. destruct I as [I Hi]. apply in_app_iff in I. destruct I as [I|I].
        -- apply in_cut in I. destruct (b_own _ _ B s) as [A _]; [apply I|]. rewrite K in A. cbn [slot] in A. congruence.
        -- destruct (N.ltb_spec 60 (T1 c / 2)) as [Hg|Hg]; [|destruct I]. destruct I as [<-|[]]. cbn [s_due]. assert (J := half_minute _ _ (or_introl Q1) Sm Hg rnd). lia.
  - (* start_rebound *)
    injection H as <-. cbn [slot] in Eid. unfold start_rebound. destruct (remove_eq (t1_timeout c) c) as [z0 Ez]. rewrite Ez.
    match goal with |- context [continue_rebound sock rnd ?x] => set (c1 := x) end.
    assert (Q : T2 c = h_len v * 7 / 8 /\ h_rebind v = None /\ timer KRebind (seven_eighths v) c) by (destruct (st c); try discriminate; tauto). destruct Q as (Q2 & Q4 & Q6).
    assert (F2 : T2 c1 = h_len v - h_len v * 7 / 8) by (unfold c1; fld; rewrite P1, Q2; apply sub32_small; lia).
    destruct (rebound_exact sock rnd c1 eq_refl) as (R1 & R2 & R3 & R4). set (c2 := continue_rebound sock rnd c1) in *. clearbody c2. rewrite F2 in R3, R4.
    assert (Hd : seven_eighths v <= now c) by (destruct Q6 as [Q6 _]; rewrite <- (Q6 _ Is eq_refl); exact Due).
    assert (V1 : lease_of (log c1) = Some v) by (unfold c1; fld; rewrite lease_of_nf; exact V).
    assert (L0 : every good (log c1)) by (unfold c1; fld; apply every_mild; [exact good_fits|apply mild_nf|exact (d_log _ T)]).
    destruct (cont_log false c1 c2 v R1 L0 V1 Hd) as [L1 L2]. { intros _ t. rewrite Q4. discriminate. }
    destruct R1 as (z & _ & R6 & R7 & R8 & _). split; [exact L1| |].
    + apply Nk. right. cbn [closed set_srcs srcs]. rewrite R4. intros s I. apply without_in in I. destruct I as [I _]. apply in_app_iff in I. destruct I as [I|I]; [apply in_cut in I; destruct I as [I _]; unfold c1 in I; cbn [set_times set_st set_log set_srcs srcs] in I; apply in_cut in I; left; apply I|].
      right. destruct (60 <? _); [destruct I as [<-|[]]; discriminate|destruct I].
    + intros _. exists (renewed_at false (now c) v). split; [exact L2|]. unfold phase. fld. rewrite R7, R6. unfold c1 at 1 2. fld. split; [exact P1|]. split; [exact P2|]. rewrite R3. unfold half, seven_eighths in *. cbn [renewed_at h_at h_len h_renew h_rebind].
      split; [apply N.div_le_upper_bound; lia|]. exists (now c). split; [reflexivity|]. rewrite R8. split; [split; [exact Hd|unfold c1; fld; lia]|].
      intros s I K Sm. rewrite R4 in I. apply without_in in I. destruct I as [I _]. apply in_app_iff in I. destruct I as [I|I].
      * apply in_cut in I. destruct I as [I _]. unfold c1 in I. cbn [set_times set_st set_log set_srcs srcs] in I. apply in_cut in I. destruct (b_own _ _ B s) as [_ A]; [apply I|]. rewrite K in A. destruct (st c); discriminate.
      * destruct (N.ltb_spec 60 ((h_len v - h_len v * 7 / 8) / 2)) as [Hg|Hg]; [|destruct I]. destruct I as [<-|[]]. cbn [s_due]. assert (J := half_minute _ _ (or_intror (N.le_refl _)) Sm Hg rnd). unfold c1. fld. lia.
  - (* continue_rebound *)
    injection H as <-. assert (S : st c = REBINDING) by (destruct (st c); try discriminate; reflexivity). rewrite S in P3. destruct P3 as (Q1 & t & Q5 & Q6 & Q7). cbn [slot] in Eid.
    destruct (rebound_exact sock rnd c S) as (R1 & R2 & R3 & R4). set (c2 := continue_rebound sock rnd c) in *. clearbody c2.
    destruct (cont_log false c c2 v R1 (d_log _ T) V) as [L1 L2]. { lia. } { intros Sm t'. rewrite Q5. intros X. injection X as <-. specialize (Q7 _ Is eq_refl Sm). cbn [s_due] in Q7. lia. }
    destruct R1 as (z & _ & R6 & R7 & R8 & _). split; [exact L1| |].
    + apply Nk. right. cbn [closed set_srcs srcs]. rewrite R4. intros s I. apply without_in in I. destruct I as [I _]. apply in_app_iff in I. destruct I as [I|I]; [apply in_cut in I; left; apply I|].
      right. destruct (60 <? _); [destruct I as [<-|[]]; discriminate|destruct I].
    + intros _. exists (renewed_at false (now c) v). split; [exact L2|]. unfold phase. fld. rewrite R7, R6, S. split; [exact P1|]. split; [exact P2|]. rewrite R3. unfold half, seven_eighths in *. cbn [renewed_at h_at h_len h_renew h_rebind].
      split; [apply N.div_le_upper_bound; lia|]. exists (now c). split; [reflexivity|]. rewrite R8. split; [lia|].
      intros s I K Sm. rewrite R4 in I. apply without_in in I. destruct I as [I Hi]. apply in_app_iff in I. destruct I as [I|I].
      * apply in_cut in I. destruct (b_own _ _ B s) as [A _]; [apply I|]. rewrite K in A. cbn [slot] in A. congruence.
      * destruct (N.ltb_spec 60 (T2 c / 2)) as [Hg|Hg]; [|destruct I]. destruct I as [<-|[]]. cbn [s_due]. assert (J := half_minute _ _ (or_intror Q1) Sm Hg rnd). lia.
  - (* start_expire *)
    unfold start_expire in H. assert (K : known c) by (apply (shape_known True True), ShBound, B). destruct (remove_timeouts_eq c K) as [z E]. rewrite E in H.
    match type of H with context [restart_dhcp _ _ _ _ ?x] => set (c1 := x) in H end. assert (K1 : known c1) by (intros s []).
    destruct (restart_dhcp fuel sock Nothing 0 c1) as [c2| |] eqn:E2; cbn [obind react] in H; try discriminate. injection H as <-. apply restart_mild in E2; [|exact K1]. destruct E2 as (A & l & L1 & L2).
    apply apart_calm in A. eapply (timed_mild c _ (nf (now c) z ++ l ++ [_])); [exact T| | |apply calm_closed, A|apply asks_closed, A].
    + cbn [closed set_srcs emit set_log log]. rewrite L1. unfold c1. cbn [set_log log]. rewrite <- !app_assoc. reflexivity.
    + apply Forall_app. split; [apply mild_nf|]. apply Forall_app. split; [exact L2|]. repeat constructor.
Qed.

(** ** Steps *)
Lemma get_lease_bound l : get_lease l < 2 ^ 28.
Proof.
  unfold get_lease. destruct l as [l|]; [|reflexivity]. cbv zeta. destruct (_ <? 10); [reflexivity|]. apply N.mod_lt. discriminate.
Qed.
Lemma start_bound_exact c : known c -> exists z, let c' := start_bound c in
  log c' = log c ++ nf (now c) z /\ st c' = BOUND /\ T1 c' = lease c / 2 /\ T2 c' = lease c * 7 / 8 /\ expire c' = lease c /\ now c' = now c /\ req_ip c' = req_ip c /\
  srcs c' = [Src (next_id c) KRenew (now c + lease c / 2 * 1000); Src (next_id c + 1) KRebind (now c + lease c * 7 / 8 * 1000); Src (next_id c + 1 + 1) KExpire (now c + lease c * 1000)].
Proof.
  intros K. unfold start_bound. destruct (remove_timeouts_eq (set_st BOUND c) K) as [z E]. rewrite E. exists z. fld. cbn [app]. repeat split.
Qed.
Lemma ack_address_lease sock p c : lease (ack_address sock p c) = get_lease (p_lease p) /\ req_ip (ack_address sock p c) = req_ip c.
Proof.
  unfold ack_address. cbv zeta. set (c2 := set_times _ _ _ _ c). assert (Y := switch_other sock L_NONE c2). cbv zeta in Y. cbn [set_assigned lease req_ip].
  destruct Y as (_ & _ & _ & _ & _ & _ & _ & _ & _ & _ & _ & _ & _ & _ & -> & -> & _). split; reflexivity.
Qed.
(** The client after an ACK. *)
Lemma ack_exact fuel sock p c c' : on_ack fuel sock Nothing p c = Ret c' -> known c -> exists y z l, l < 2 ^ 28 /\
  log c' = ((log c ++ nf (now c) y) ++ [(now c, Available (p_yiaddr p) l)]) ++ nf (now c) z /\ st c' = BOUND /\ T1 c' = l / 2 /\ T2 c' = l * 7 / 8 /\ expire c' = l /\ now c' = now c /\ req_ip c' = req_ip c /\
  exists i j k, srcs c' = [Src i KRenew (now c + l / 2 * 1000); Src j KRebind (now c + l * 7 / 8 * 1000); Src k KExpire (now c + l * 1000)].
Proof.
  unfold on_ack. intros H K. destruct (remove_timeouts_eq (set_retry 0 c) K) as [y Ey].
  assert (X : exists c1, remove_timeouts (set_retry 0 c) = c1 /\ srcs c1 = [] /\ now c1 = now c /\ req_ip c1 = req_ip c /\ log c1 = log c ++ nf (now c) y) by (eexists; split; [exact Ey|]; repeat split).
  destruct X as (c1 & E & X1 & X2 & X3 & X4). rewrite E in H. clear Ey E.
  assert (Y := ack_address_same sock p c1). cbv zeta in Y. destruct (ack_address_lease sock p c1) as [W1 W2]. set (c2 := ack_address sock p c1) in *. clearbody c2.
  destruct Y as (_ & Y2 & Y3 & _ & _ & _ & Y7 & _).
  destruct (ack_server p c2) as [c3| |] eqn:E3; cbn [obind] in H; try discriminate.
  assert (Z : srcs c3 = [] /\ now c3 = now c /\ req_ip c3 = req_ip c /\ log c3 = log c ++ nf (now c) y /\ lease c3 = get_lease (p_lease p)).
  { unfold ack_server in E3. assert (G : c3 = c2 \/ exists s, c3 = set_server s c2) by (destruct (st c2); try (left; congruence); destruct (p_server p) as [s|]; [right; exists s; congruence|discriminate]).
    destruct G as [->|[s ->]]; cbn [set_server srcs now req_ip log lease]; repeat split; congruence. }
  clear E3. destruct Z as (Z1 & Z2 & Z3 & Z4 & Z5). cbn [react obind] in H. injection H as <-.
  assert (K3 : known (emit (Available (p_yiaddr p) (lease c3)) c3)) by (intros s I; cbn [emit set_log srcs] in I; rewrite Z1 in I; destruct I).
  destruct (start_bound_exact _ K3) as (z & F1 & F2 & F3 & F4 & F5 & F6 & F7 & F8). cbn [emit set_log log lease now req_ip next_id] in *. rewrite Z5, Z2, ?Z3, ?Z4 in *.
  exists y, z, (get_lease (p_lease p)). split; [apply get_lease_bound|]. repeat (split; [assumption|]). do 3 eexists. exact F8.
Qed.
Lemma ack_timed fuel sock p c c' : timed c -> on_ack fuel sock Nothing p c = Ret c' -> known c -> timed c'.
Proof.
  intros T H K. destruct (ack_exact _ _ _ _ _ H K) as (y & z & l & Hl & L & S & F1 & F2 & F3 & F4 & _ & i & j & k & Es). split.
  - rewrite L. apply every_mild; [exact good_fits|apply mild_nf|]. apply every_snoc; [|split; exact Logic.I]. apply every_mild; [exact good_fits|apply mild_nf|apply T].
  - intros s I E. rewrite Es in I. destruct I as [<-|[<-|[<-|[]]]]; discriminate.
  - intros _. exists (Held (now c) (p_yiaddr p) l None None). split; [rewrite L, lease_of_nf, lease_of_snoc; reflexivity|].
    split; [exact F3|]. split; [exact Hl|]. rewrite S. unfold half, seven_eighths. cbn [h_at h_len h_renew h_rebind]. repeat (split; [assumption||reflexivity|]).
    split; (split; [rewrite Es; intros s [<-|[<-|[<-|[]]]]; cbn [s_kind s_due]; intros X; try discriminate; reflexivity|]); rewrite Es; eexists; cbn [In]; [split; [left; reflexivity|reflexivity]|split; [right; left; reflexivity|reflexivity]].
Qed.
Lemma nak_exact c : known c -> exists z, log (on_nak c) = log c ++ nf (now c) z /\ st (on_nak c) = st c /\ req_ip (on_nak c) = req_ip c /\ srcs (on_nak c) = [Src (next_id c) KRestart (now c + 3000)].
Proof. intros K. unfold on_nak. destruct (remove_timeouts_eq (set_retry 0 c) K) as [z E]. rewrite E. exists z. repeat split. Qed.
Lemma listener_timed fuel sock p c c' : timed c -> known c -> listener fuel sock Nothing p c = Ret c' -> timed c'.
Proof.
  intros T K H. unfold listener in H.
  assert (Sm : forall x, Ret c = Ret x -> timed x) by (intros x E; injection E as <-; exact T).
  assert (Hl : lmode c = L_NONE -> timed c') by (intros E; rewrite E in H; injection H as <-; destruct T; split; assumption).
  assert (Hm : forall q, (if negb (p_owner q) then Ret c else match p_type q with
     | None => Ret c
     | Some t => match st c with
        | INIT_SELECTING => if negb (t =? DHCPOFFER) then Ret c else match p_server q with None => Undef | Some s => start_request fuel sock Nothing (set_st REQUESTING (set_req (p_yiaddr q) (set_server s (set_retry 0 (remove_timeouts c))))) end
        | REBOOTING | REQUESTING | RENEWING | REBINDING => if t =? DHCPACK then on_ack fuel sock Nothing q c else if t =? DHCPNAK then Ret (on_nak c) else Ret c
        | BOUND | RELEASED => Ret c end end) = Ret c' -> timed c').
  { intros q. destruct (negb (p_owner q)); [apply Sm|]. destruct (p_type q) as [t|]; [|apply Sm].
    assert (Han : (if t =? DHCPACK then on_ack fuel sock Nothing q c else if t =? DHCPNAK then Ret (on_nak c) else Ret c) = Ret c' -> timed c').
    { destruct (t =? DHCPACK); [intros G; eapply ack_timed; eassumption|]. destruct (t =? DHCPNAK); [|apply Sm]. intros G. injection G as <-.
      destruct (nak_exact c K) as (z & L & _ & _ & Es). eapply timed_mild; [exact T|exact L|apply mild_nf| |]; intros s I; rewrite Es in I; destruct I as [<-|[]]; [reflexivity|discriminate]. }
    destruct (st c); try exact Han; try apply Sm. destruct (negb (t =? DHCPOFFER)); [apply Sm|]. destruct (p_server q) as [s|]; [|discriminate]. intros G.
    destruct (remove_timeouts_eq c K) as [z E]. rewrite E in G. apply start_request_mild in G; [|intros x []|left; reflexivity]. destruct G as (G1 & G2 & l & G3 & G4).
    eapply (timed_mild c _ (nf (now c) z ++ l)); [exact T| | |exact G1|exact G2]; [rewrite G3, app_assoc; reflexivity|]. apply Forall_app. split; [apply mild_nf|exact G4]. }
  destruct (lmode c); [apply Hl; reflexivity| |]; apply (Hm _ H).
Qed.
Lemma fire_one_timed fuel sock rnd k c c' : timed c -> known c -> (forall s, In s (srcs c) -> s_kind s = k) -> srcs c <> [] -> timeout_kind k = true ->
  fire fuel sock rnd Nothing k c = Ret c' -> timed (closed (timeout c) c').
Proof.
  intros T K Hk Hne Ht H.
  assert (Hc : calm c) by (intros s I; rewrite (Hk s I); exact Ht).
  assert (Hs : forall la c0 c1, log c0 = log c -> apart c0 -> (let* x := start fuel sock Nothing la c0 in Ret (fst x)) = Ret c1 -> timed (closed (timeout c) c1)).
  { intros la c0 c1 L A E. destruct (start fuel sock Nothing la c0) as [x| |] eqn:Ex; cbn [obind] in E; try discriminate. injection E as <-. apply start_mild in Ex; [|exact A].
    destruct Ex as (G & l & G1 & G2). apply apart_calm in G. eapply (timed_mild c _ l); [exact T|cbn [closed set_srcs log]; rewrite G1, L; reflexivity|exact G2|apply calm_closed, G|apply asks_closed, G]. }
  assert (Hr : forall n c0 c1, log c0 = log c -> known c0 -> restart_dhcp fuel sock Nothing n c0 = Ret c1 -> timed (closed (timeout c) c1)).
  { intros n c0 c1 L A E. apply restart_mild in E; [|exact A]. destruct E as (G & l & G1 & G2). apply apart_calm in G. eapply (timed_mild c _ l); [exact T|cbn [closed set_srcs log]; rewrite G1, L; reflexivity|exact G2|apply calm_closed, G|apply asks_closed, G]. }
  destruct k; try discriminate; cbn [fire] in H.
  - eapply Hs; [|  |exact H]; [reflexivity|]. intros s I. rewrite (Hk s I). split; [reflexivity|discriminate].
  - eapply Hs; [|  |exact H]; [reflexivity|]. intros s I. rewrite (Hk s I). split; [reflexivity|discriminate].
  - apply start_request_mild in H; [|exact Hc|].
    + destruct H as (G1 & G2 & l & G3 & G4). eapply (timed_mild c _ l); [exact T|exact G3|exact G4|apply calm_closed, G1|apply asks_closed, G2].
    + right. destruct (srcs c) as [|s l] eqn:E; [contradiction Hne; reflexivity|]. apply (d_asks _ T s); [rewrite E; left; reflexivity|]. apply Hk. left. reflexivity.
  - unfold restart_timeout in H. destruct (st c); (eapply Hr; [| |exact H]; [reflexivity|exact K]).
Qed.
Lemma step_timed fuel sock o c c' m : timed c -> inv True True m c -> (match o with OStart _ => running (log c) = false | _ => True end) ->
  step fuel sock Nothing o c = Ret c' -> timed c'.
Proof.
  intros T I P H. assert (K := shape_known _ _ _ (i_shape _ _ _ _ I)). destruct o; cbn [step] in H.
  - assert (Es : srcs c = []) by (destruct (i_shape _ _ _ _ I) as [E _ _ _ _|k d _ _ _ R _ _|B]; [exact E|congruence|rewrite (b_run _ _ B) in P; discriminate]).
    destruct (start fuel sock Nothing la c) as [x| |] eqn:E; cbn [obind] in H; try discriminate. injection H as <-. apply start_mild in E; [|intros s Is; rewrite Es in Is; destruct Is].
    destruct E as (G & l & G1 & G2). apply apart_calm in G. eapply (timed_mild c _ (l ++ [_])); [exact T|cbn [emit set_log log]; rewrite G1, app_assoc; reflexivity| |apply G|apply G]. apply Forall_app. split; [exact G2|repeat constructor].
  - injection H as <-. destruct (stop_eq c K) as (l & L1 & L2 & L3 & _). eapply (timed_mild c _ (l ++ [_])); [exact T|cbn [emit set_log log]; rewrite L1, app_assoc; reflexivity| | |].
    + apply Forall_app. split; [apply mild_stop, L2|repeat constructor].
    + intros s Is. cbn [emit set_log srcs] in Is. rewrite L3 in Is. destruct Is.
    + intros s Is. cbn [emit set_log srcs] in Is. rewrite L3 in Is. destruct Is.
  - destruct (find (fun s => s_id s =? id) (srcs c)) as [s|] eqn:F; [|injection H as <-; exact T].
    destruct (N.leb_spec (s_due s) (now c)) as [D|D]; [|injection H as <-; exact T].
    destruct (fire fuel sock rnd Nothing (s_kind s) c) as [c1| |] eqn:E; try discriminate. cbn [obind] in H. injection H as <-. apply find_src in F. destruct F as [F1 F2].
    change (set_srcs (without id (srcs c1)) (next_id c1) c1) with (closed id c1).
    destruct (i_shape _ _ _ _ I) as [G _ _ _ _|k d G1 G2 G3 G4 G5 G6|B].
    + rewrite G in F1. destruct F1.
    + rewrite G2 in F1. destruct F1 as [<-|[]]. cbn [s_id s_kind] in *. subst id. eapply fire_one_timed; eauto; rewrite G2; [|discriminate]. intros s [<-|[]]. reflexivity.
    + destruct s as [i k d]. cbn [s_id s_kind s_due] in *. subst i. eapply fire_timed; eauto.
  - destruct (watch c); [|injection H as <-; exact T]. eapply listener_timed; eassumption.
  - destruct (watch c); injection H as <-; destruct T; split; assumption.
  - injection H as <-. apply wait_timed, T.
Qed.
Lemma fresh_timed : timed fresh_client.
Proof. split; [apply every_nil|intros s []|]. intros H. contradiction H. intros s []. Qed.
Lemma runs_timed os c : runs proper os c -> timed c.
Proof.
  induction 1 as [|os c fuel sock r o c' R IH [-> P] H]; [exact fresh_timed|]. eapply step_timed; [exact IH|apply proper_inv, R|exact P|exact H].
Qed.

Lemma not_early os c : runs proper os c -> every on_time (log c).
Proof. intros R h1 e h2 E. apply runs_timed in R. apply (d_log _ R) in E. apply E. Qed.
Lemma minute_apart os c : runs proper os c -> every (spaced (2 ^ 24)) (log c).
Proof. intros R h1 e h2 E. apply runs_timed in R. apply (d_log _ R) in E. apply E. Qed.
(** The readings agree. *)
Lemma lease_deadline h : deadline h = match lease_of h with Some v => Some (h_at v + h_len v * 1000) | None => None end.
Proof.
  unfold deadline, lease_of. rewrite <- (rev_involutive h). induction (rev h) as [|[t e] l IH]; [reflexivity|]. cbn [rev]. rewrite !fold_left_app, IH. cbn [fold_left].
  generalize (fold_left held_step (rev l) None). intros v. destruct e; try reflexivity. cbn [deadline_step held_step snd]. destruct ciaddr, v; try destruct unicast; reflexivity.
Qed.
Lemma in_time os c v : runs (both proper no_nak) os c -> lease_of (log c) = Some v -> caught_up c ->
  (half v <= now c -> h_renew v <> None \/ h_rebind v <> None) /\ (seven_eighths v <= now c -> h_rebind v <> None).
Proof.
  intros R V C. assert (I : inv True False (naks os) c) by (revert R; apply runs_inv; intros c0 sock r o [P N]; unfold no_nak in N; tauto).
  apply both_mono in R. assert (T := runs_timed _ _ R). assert (D := lease_deadline (log c)). rewrite V in D.
  destruct (i_shape _ _ _ _ I) as [_ _ _ _ [F|F]|k d' _ _ _ _ _ [F|F]|B]; try tauto; try congruence.
  destruct (d_phase _ T (bound_busy _ _ B)) as (v' & V' & P1 & P2 & P3). rewrite V in V'. injection V' as <-.
  assert (Cu : forall k d, timer k d c -> now c < d). { intros k d [T1 (s & Is & Ks)]. rewrite <- (T1 s Is Ks). unfold caught_up in C. rewrite Forall_forall in C. apply C, Is. }
  destruct (st c); try destruct P3.
  - destruct H0 as (Q2 & Q3 & Q4 & Q5 & Q6). apply Cu in Q5, Q6. split; lia.
  - destruct H0 as (Q2 & Q3 & Q4 & t & Q5 & Q6 & Q7). apply Cu in Q4. split; [intros _; left; congruence|lia].
  - destruct H0 as (t & Q5 & Q6). split; intros _; [right|]; congruence.
Qed.

(** ** Addresses *)
Definition active (s : state) : bool := match s with INIT_SELECTING | RELEASED => false | _ => true end.
Definition leased (s : state) : bool := match s with BOUND | RENEWING | REBINDING => true | _ => false end.
Record named (s : state) (a : N) (h : history) : Prop := Named {
  n_all : every same_address h;
  n_asked : active s = true -> asked h = Some a;
  n_lease : leased s = true -> exists v, lease_of h = Some v /\ h_ip v = a }.
Lemma named_idle s a h : active s = false -> every same_address h -> named s a h.
Proof. intros H E. split; [exact E|congruence|destruct s; discriminate]. Qed.
Lemma named_event s a h t e : named s a h -> match e with Start _ | Discover _ | NoLease | NotFound => True | _ => False end -> named s a (h ++ [(t, e)]).
Proof.
  intros [N1 N2 N3] He. split.
  - apply every_snoc; [exact N1|]. destruct e; try destruct He; exact Logic.I.
  - rewrite asked_snoc. destruct e; try destruct He; exact N2.
  - rewrite lease_of_snoc. destruct e; try destruct He; exact N3.
Qed.
Lemma named_nf s a h t n : named s a h -> named s a (h ++ nf t n).
Proof.
  intros [N1 N2 N3]. split; [|rewrite asked_nf; exact N2|rewrite lease_of_nf; exact N3].
  revert h N1 N2 N3. induction n as [|n IH]; intros h N1 N2 N3; [unfold nf; cbn [repeat]; rewrite app_nil_r; exact N1|].
  change (nf t (S n)) with ([(t, NotFound)] ++ nf t n). rewrite app_assoc. apply IH.
  - apply every_snoc; [exact N1|exact Logic.I].
  - rewrite asked_snoc. exact N2.
  - rewrite lease_of_snoc. exact N3.
Qed.
Definition req_event (s : state) (a sv : N) : event :=
  Request (match s with REQUESTING | REBOOTING => Some a | _ => None end) (match s with REQUESTING => Some sv | _ => None end)
          (match s with RENEWING | REBINDING => Some a | _ => None end) (match s with RENEWING => true | _ => false end).
Lemma named_request s a sv h t : named s a h \/ (every same_address h /\ (s = REQUESTING \/ s = REBOOTING)) -> named s a (h ++ [(t, req_event s a sv)]).
Proof.
  intros H. assert (N1 : every same_address h) by (destruct H as [[N1 _ _]|[N1 _]]; exact N1).
  assert (N3 : leased s = true -> exists v, lease_of h = Some v /\ h_ip v = a) by (destruct H as [[_ _ N3]|[_ [-> | ->]]]; [exact N3|discriminate|discriminate]).
  split.
  - apply every_snoc; [exact N1|]. unfold req_event, same_address. cbn [snd]. destruct s; try exact Logic.I; apply N3; reflexivity.
  - rewrite asked_snoc. unfold req_event, asked_step. cbn [snd]. destruct s; try discriminate; try reflexivity. destruct H as [[_ N2 _]|[_ [F|F]]]; try discriminate. exact N2.
  - rewrite lease_of_snoc. unfold req_event, held_step. cbn [snd fst]. intros L. destruct (N3 L) as (v & V & Va). rewrite V. destruct s; try discriminate; eexists; (split; [reflexivity|exact Va]).
Qed.
Lemma named_move s s' a h : leased s = true -> leased s' = true -> named s a h -> named s' a h.
Proof. intros L L' [N1 N2 N3]. split; [exact N1| |intros _; apply N3, L]. intros _. apply N2. destruct s; try discriminate; reflexivity. Qed.
Definition nm (c : client) : Prop := named (st c) (req_ip c) (log c).
Lemma nm_same c c' : st c' = st c -> req_ip c' = req_ip c -> log c' = log c -> nm c -> nm c'.
Proof. unfold nm. intros -> -> ->. trivial. Qed.
Lemma nm_switch sock m c : nm c -> nm (fst (switch sock m c)).
Proof. assert (Y := switch_other sock m c). cbv zeta in Y. apply nm_same; apply Y. Qed.
Lemma nm_remove id c : nm c -> nm (remove id c).
Proof. intros H. destruct (remove_eq id c) as [z ->]. apply named_nf, H. Qed.
Lemma nm_timeouts c : nm c -> nm (remove_timeouts c).
Proof. intros H. destruct (remove_timeouts_cut c) as [z ->]. apply named_nf, H. Qed.
Lemma every_timeouts c : every same_address (log c) -> every same_address (log (remove_timeouts c)).
Proof. intros H. destruct (remove_timeouts_cut c) as [z ->]. apply (n_all RELEASED 0), named_nf, named_idle; [reflexivity|exact H]. Qed.
Lemma nm_send c : nm c \/ (every same_address (log c) /\ (st c = REQUESTING \/ st c = REBOOTING)) -> nm (send_request c).
Proof. intros H. unfold nm, send_request. cbn [emit set_log st req_ip log]. apply named_request, H. Qed.
Lemma nm_start fuel sock la c x : start fuel sock Nothing la c = Ret x -> nm c -> nm (fst x).
Proof.
  destruct fuel as [|fuel]; [discriminate|]. cbn [start]. intros H A. destruct (retry c =? 6); [cbn [obind] in H; injection H as <-; apply named_event; [exact A|exact Logic.I]|].
  destruct (if retry c =? 0 then _ else (c, true)) as [c2 ok] eqn:E.
  assert (A2 : nm c2).
  { destruct (retry c =? 0); [|injection E as <- _; exact A]. change c2 with (fst (c2, ok)). rewrite <- E. apply nm_switch. apply named_idle; [reflexivity|apply (n_all _ _ _ A)]. }
  destruct ok; cbn [negb] in H; [|injection H as <-; exact A2].
  set (c3 := match la with None => c2 | Some a => _ end) in H. assert (A3 : nm c3) by (unfold c3; destruct la as [a|]; [destruct (a =? 0xffffffff)|]; exact A2). clearbody c3.
  match type of H with (if negb ?t then _ else _) = _ => destruct t end; cbn [negb] in H; injection H as <-; cbn [fst].
  - apply (named_event _ _ (log c3)); [exact A3|exact Logic.I].
  - match goal with |- context [send_request ?y] => assert (Q : nm (send_request y)) end; [|exact Q]. apply nm_send. right. split; [apply (n_all _ _ _ A3)|right; reflexivity].
Qed.
Lemma nm_start_request fuel sock c c' : start_request fuel sock Nothing c = Ret c' -> nm c \/ (every same_address (log c) /\ retry c = 0) -> nm c'.
Proof.
  unfold start_request. intros H A. destruct (N.eqb_spec (retry c) 3) as [E3|E3].
  - cbn [react] in H. injection H as <-. apply named_event; [|exact Logic.I]. destruct A as [A|[_ A]]; [exact A|lia].
  - set (c1 := if retry c =? 0 then _ else c) in H.
    assert (X : nm c1 \/ (every same_address (log c1) /\ (st c1 = REQUESTING \/ st c1 = REBOOTING))).
    { unfold c1. destruct (N.eqb_spec (retry c) 0) as [E0|E0]; [|destruct A as [A|[_ A]]; [left; exact A|contradiction]].
      right. assert (Y := switch_other sock L2 (set_st REQUESTING c)). cbv zeta in Y. destruct Y as (Y1 & _ & Y3 & _). rewrite Y1, Y3. split; [|left; reflexivity]. destruct A as [A|[A _]]; [apply A|exact A]. }
    injection H as <-. apply nm_send in X. exact X.
Qed.
Lemma nm_restart fuel sock k c c' : restart_dhcp fuel sock Nothing k c = Ret c' -> every same_address (log c) -> nm c'.
Proof.
  unfold restart_dhcp. intros H A. destruct (start fuel sock Nothing _ _) as [x| |] eqn:E in H; cbn [obind] in H; try discriminate. injection H as <-.
  apply nm_start in E; [exact E|]. apply nm_switch. apply named_idle; [reflexivity|]. apply every_timeouts, A.
Qed.
Lemma restart_st fuel sock k c c' : restart_dhcp fuel sock Nothing k c = Ret c' -> leased (st c') = false.
Proof.
  unfold restart_dhcp. intros H. match type of H with context [switch sock L2 ?x] => assert (Y := switch_other sock L2 x); set (c2 := fst (switch sock L2 x)) in * end.
  cbv zeta in Y. destruct Y as (Y1 & _). destruct (start fuel sock Nothing _ _) as [x| |] eqn:E in H; cbn [obind] in H; try discriminate. injection H as <-.
  apply start_started in E. cbn in Y1. destruct E as [E6|x' E0 Es Esr El En Est Er Ea Eli|k' ev x' E6 Esr Et En El Er Ea Hk]; cbn [fst].
  - cbn [set_retry emit set_log st]. rewrite Y1. reflexivity.
  - rewrite Est. reflexivity.
  - destruct Hk as [(_ & _ & [->| ->])|(_ & _ & _ & ->)]; rewrite ?Y1; reflexivity.
Qed.
Lemma nm_stop c : nm c -> nm (emit Stop (stop c)).
Proof.
  intros A. apply named_idle; [reflexivity|]. cbn [emit set_log log]. apply every_snoc; [|exact Logic.I]. unfold stop.
  match goal with |- context [remove_timeouts ?x] => assert (Q : every same_address (log x)); [|apply every_timeouts in Q; exact Q] end.
  apply (nm_switch true L_NONE) in A. set (c1 := fst (switch true L_NONE c)) in *. clearbody c1. destruct A as [N1 N2 N3].
  destruct (st c1); try exact N1; (apply every_snoc; [exact N1|]); apply N3; reflexivity.
Qed.
Lemma nm_renew sock rnd c : nm c -> nm (continue_renew sock rnd c).
Proof.
  intros A. unfold continue_renew. apply (nm_switch sock L3) in A. set (c1 := fst (switch sock L3 c)) in *. clearbody c1.
  assert (A2 : nm (send_request c1)) by (apply nm_send; tauto). set (c2 := send_request c1) in *. clearbody c2. apply (nm_remove (t1_timeout c2)) in A2.
  match goal with |- context [60 <? ?t] => destruct (60 <? t) end; exact A2.
Qed.
Lemma nm_rebound sock rnd c : nm c -> nm (continue_rebound sock rnd c).
Proof.
  intros A. unfold continue_rebound. apply (nm_switch sock L2) in A. set (c1 := fst (switch sock L2 c)) in *. clearbody c1.
  assert (A2 : nm (send_request c1)) by (apply nm_send; tauto). set (c2 := send_request c1) in *. clearbody c2. apply (nm_remove (t2_timeout c2)) in A2.
  match goal with |- context [60 <? ?t] => destruct (60 <? t) end; exact A2.
Qed.
Lemma nm_fire fuel sock rnd k c c' : nm c -> allowed (st c) k = true \/ timeout_kind k = true -> fire fuel sock rnd Nothing k c = Ret c' -> nm c'.
Proof.
  intros A S H. assert (N1 := n_all _ _ _ A).
  assert (Lz : timeout_kind k = false -> leased (st c) = true) by (intros F; destruct S as [S|S]; [|congruence]; destruct (st c), k; try discriminate; reflexivity).
  destruct k; cbn [fire timeout_kind] in *.
  - destruct (start _ _ _ _ _) as [x| |] eqn:E in H; cbn [obind] in H; try discriminate. injection H as <-. apply nm_start in E; [exact E|]. apply named_idle; [reflexivity|exact N1].
  - destruct (start _ _ _ _ _) as [x| |] eqn:E in H; cbn [obind] in H; try discriminate. injection H as <-. apply nm_start in E; [exact E|exact A].
  - eapply nm_start_request; [exact H|left; exact A].
  - unfold restart_timeout in H. destruct (st c); (eapply nm_restart; [exact H|exact N1]).
  - injection H as <-. apply nm_renew. apply (named_move (st c)); [auto|reflexivity|exact A].
  - injection H as <-. apply nm_renew, A.
  - injection H as <-. apply nm_rebound. apply (nm_remove (t1_timeout c)) in A. assert (E : st (remove (t1_timeout c) c) = st c) by (destruct (remove_eq (t1_timeout c) c) as [z ->]; reflexivity).
    apply (named_move (st (remove (t1_timeout c) c))); [rewrite E; auto|reflexivity|exact A].
  - injection H as <-. apply nm_rebound, A.
  - unfold start_expire in H. destruct (restart_dhcp _ _ _ _ _) as [x| |] eqn:E in H; cbn [obind react] in H; try discriminate. injection H as <-.
    assert (F := restart_st _ _ _ _ _ E). apply nm_restart in E; [|apply every_timeouts, N1]. destruct E as [E1 E2 E3].
    split; cbn [emit set_log st req_ip log]; [apply every_snoc; [exact E1|exact Logic.I]|rewrite asked_snoc; exact E2|congruence].
Qed.
Lemma nm_ack fuel sock p c c' : nm c -> known c -> active (st c) = true -> asked (log c) = Some (p_yiaddr p) -> on_ack fuel sock Nothing p c = Ret c' -> nm c'.
Proof.
  intros A K S As H. destruct (ack_exact _ _ _ _ _ H K) as (y & z & l & _ & L & S' & _ & _ & _ & _ & Ra & _). unfold nm. rewrite L, S', Ra.
  rewrite (n_asked _ _ _ A S) in As. injection As as As. apply named_nf. split.
  - apply every_snoc; [|exact Logic.I]. apply (n_all (st c) (req_ip c)), named_nf, A.
  - intros _. rewrite asked_snoc, asked_nf. cbn [asked_step snd]. apply (n_asked _ _ _ A S).
  - intros _. rewrite lease_of_snoc. eexists. split; [reflexivity|]. cbn [h_ip]. auto.
Qed.
Lemma nm_listener fuel sock p c c' : nm c -> known c -> (p_type p = Some 5 -> asked (log c) = Some (p_yiaddr p)) -> listener fuel sock Nothing p c = Ret c' -> nm c'.
Proof.
  intros A K Ho H. unfold listener in H. assert (Sm : forall x, Ret c = Ret x -> nm x) by (intros x E; injection E as <-; exact A).
  destruct (lmode c) eqn:M; [injection H as <-; exact A| |]; cbn [seen] in H; destruct (negb (p_owner _)) in H; try (apply Sm, H).
  destruct (p_type p) as [t|]; [|apply Sm, H].
  assert (Han : active (st c) = true -> (if t =? DHCPACK then on_ack fuel sock Nothing p c else if t =? DHCPNAK then Ret (on_nak c) else Ret c) = Ret c' -> nm c').
  { intros S G. destruct (N.eqb_spec t DHCPACK) as [->|_]; [eapply nm_ack; eauto|]. destruct (t =? DHCPNAK); [|apply Sm, G]. injection G as <-.
    destruct (nak_exact c K) as (z & L & L2 & L3 & _). unfold nm. rewrite L, L2, L3. apply named_nf, A. }
  destruct (st c) eqn:S; try (apply Han; [reflexivity|exact H]); try (apply Sm, H). destruct (negb (t =? DHCPOFFER)); [apply Sm, H|]. destruct (p_server p) as [s|]; [|discriminate].
  apply nm_start_request in H; [exact H|]. right. split; [|reflexivity]. cbn [set_st set_req set_server set_retry log]. apply every_timeouts, (n_all _ _ _ A).
Qed.
Lemma runs_named os c : runs (both proper honest) os c -> nm c.
Proof.
  induction 1 as [|os c fuel sock r o c' R IH [[-> P] Ho] H]; [apply named_idle; [reflexivity|apply every_nil]|]. apply both_mono in R.
  assert (I := proper_inv _ _ R). assert (K := shape_known _ _ _ (i_shape _ _ _ _ I)). destruct o; cbn [step honest] in *.
  - destruct (start fuel sock Nothing la c) as [x| |] eqn:E; cbn [obind] in H; try discriminate. injection H as <-. apply nm_start in E; [|exact IH]. apply named_event; [exact E|exact Logic.I].
  - injection H as <-. apply nm_stop, IH.
  - destruct (find (fun s => s_id s =? id) (srcs c)) as [s|] eqn:F; [|injection H as <-; exact IH].
    destruct (s_due s <=? now c); [|injection H as <-; exact IH].
    destruct (fire fuel sock rnd Nothing (s_kind s) c) as [c1| |] eqn:E; try discriminate. cbn [obind] in H. injection H as <-. apply find_src in F. destruct F as [F1 F2].
    apply nm_fire in E; [exact E|exact IH|]. destruct (i_shape _ _ _ _ I) as [G _ _ _ _|k d G1 G2 G3 G4 G5 G6|B].
    + rewrite G in F1. destruct F1.
    + rewrite G2 in F1. destruct F1 as [<-|[]]. right. exact G1.
    + left. apply (b_own _ _ B _ F1).
  - destruct (watch c); [|injection H as <-; exact IH]. eapply nm_listener; eassumption.
  - destruct (watch c); injection H as <-; exact IH.
  - injection H as <-. exact IH.
Qed.
Lemma addresses os c : runs (both proper honest) os c -> every same_address (log c).
Proof. intros R. apply runs_named in R. apply (n_all _ _ _ R). Qed.
