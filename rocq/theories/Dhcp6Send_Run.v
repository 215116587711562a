(** What a DHCPv6 client sends: any sequence of calls. *)
From Coq Require Import ZArith Permutation.
From Verif Require Import Base Dhcp6_Spec Dhcp6Send_Model Dhcp6Send_Spec Dhcp6Send_Proofs Dhcp6Send_Opts Dhcp6Send_Msg.
From Verif Require Dhcp6_Proofs.
Local Open Scope N_scope.

Lemma requested_one c time code : (List.length (requested c time code) <= 1)%nat.
Proof. unfold requested. rewrite switch_code. destruct (code =? 1); [destruct (c_duid c); auto|]. destruct (code =? 2); [destruct (c_server c); auto|]. destruct (code =? 14); [auto|]. destruct (code =? 8); auto. Qed.
Lemma requested_nodup c time l : sane c -> time < 65536 -> Forall (fun r => r < 65536) l -> NoDup l -> NoDup (map o_code (flat_map (requested c time) l)).
Proof.
  intros HS HT HR. induction 1 as [|code l Hn Hd IH]; cbn [flat_map map]; [constructor|]. inversion HR as [|? ? HC HR']; subst. rewrite map_app. pose proof (requested_one c time code) as H1. destruct (requested c time code) as [|o [|o' os]] eqn:E; cbn [map app]; [auto| |cbn in H1; lia].
  constructor; [|auto]. assert (HI : In o (requested c time code)) by (rewrite E; now left). destruct (requested_small c time code o HS HT HC HI) as (_ & EC & _). rewrite EC. intros Hin. apply Hn. apply in_map_iff in Hin. destruct Hin as (x & Ex & Hx).
  apply in_flat_map in Hx. destruct Hx as (r & Hr & Hx). rewrite Forall_forall in HR'. destruct (requested_small c time r x HS HT (HR' r Hr) Hx) as (_ & EC' & _). congruence.
Qed.
Lemma requested_codes c time l o : sane c -> time < 65536 -> Forall (fun r => r < 65536) l -> In o (flat_map (requested c time) l) -> small o /\ In (o_code o) [1; 2; 8; 14].
Proof.
  intros HS HT HR Hx. apply in_flat_map in Hx. destruct Hx as (r & Hr & Hx). rewrite Forall_forall in HR. destruct (requested_small c time r o HS HT (HR r Hr) Hx) as (H1 & H2 & H3). split; [exact H1|]. rewrite H2. cbn. intuition.
Qed.
Lemma nodup_app {A} (a b : list A) : NoDup (a ++ b) -> NoDup a.
Proof. induction a as [|x a IH]; cbn [app]; intros H; [constructor|]. inversion H as [|? ? Hn Hd]; subst. constructor; [|auto]. intros Hin. apply Hn, in_or_app. auto. Qed.
Lemma nodup_join {A} (a b : list A) : NoDup a -> NoDup b -> (forall x, In x a -> In x b -> False) -> NoDup (a ++ b).
Proof.
  induction 1 as [|x a Hn Hd IH]; cbn [app]; intros HB HX; [exact HB|]. constructor; [|apply IH; [exact HB|]; intros y H1 H2; apply (HX y); [now right|exact H2]].
  intros Hin. apply in_app_or in Hin. destruct Hin as [H|H]; [auto|]. apply (HX x); [now left|exact H].
Qed.
Lemma small_fits os o : In o os -> small o -> lenN (encs os) <= 1500 -> opt_ok o.
Proof.
  intros Hin (H1 & H2 & H3) HL. split; [exact H1|]. split; [|exact H3]. assert (HO : lenN (o_data o) <= lenN (encs os)); [|lia]. clear - Hin. induction os as [|x os IH]; [contradiction|]. rewrite Dhcp6_Proofs.encs_cons, lenN_app, Dhcp6_Proofs.len_enc.
  destruct Hin as [-> | Hin]; [lia|]. specialize (IH Hin). lia.
Qed.
Lemma send_proper type id now order c os : (forall l, Permutation (order l) l) -> sane c -> tidy c os -> Forall table_code os -> type < 256 ->
  exists c' p, send_msg type id now order c = Ret (c', p) /\ proper p /\ xid_of p = (if c_again c then xid3 (c_xid c) else xid3 id) /\ sane c' /\ tidy c' os /\ c_iaid c' = c_iaid c /\ c_again c' = c_again c
   /\ xid3 (c_xid c') = xid_of p.
Proof.
  intros HO HS T HTC HT. destruct (send_spec type id now order c os HO HS T HT) as (c' & p & t & os1 & more & os2 & os' & E & EP & HL & _ & Ht & ER & HP & HSO & _ & _ & HS' & T' & Ei & _ & Ed & Ev & Ea & EX1 & EX2).
  exists c', p. split; [exact E|]. set (xid := if c_again c then xid3 (c_xid c) else xid3 id) in *. assert (HX : lenN xid = 3 /\ bytes xid) by (unfold xid; destruct (c_again c); apply xid3_bytes).
  assert (XP : xid_of p = xid). { rewrite EP. unfold xid_of, message. change (dropN 1 (type :: xid ++ encs (os1 ++ os2))) with (xid ++ encs (os1 ++ os2)). rewrite takeN_app, takeN_all by lia. rewrite (proj1 HX). change (takeN (3 - 3) ?x) with (@nil byte). apply app_nil_r. }
  assert (HR : flat_map (requested c' t) (c_requests c') = os1 ++ more). { rewrite <- ER. apply flat_map_ext. intros r. unfold requested. now rewrite Ed, Ev. }
  assert (HC1 : forall o, In o os1 -> small o /\ In (o_code o) [1; 2; 8; 14]). { intros o Ho. apply (requested_codes c' t (c_requests c')); [exact HS'|exact Ht|apply HS'|]. rewrite HR. apply in_or_app. auto. }
  assert (HC2 : forall o, In o os2 -> In o os). { intros o Ho. eapply Permutation_in; [exact HP|]. eapply some_of_in; eauto. }
  split.
  { exists type, xid, (os1 ++ os2). split; [exact EP|]. split; [exact HT|]. split; [apply HX|]. split; [apply HX|]. split; [|split; [|lia]].
    - apply Forall_forall. intros o Ho. apply (small_fits (os1 ++ os2)); [exact Ho| |rewrite EP, len_message in HL by apply HX; lia]. apply in_app_or in Ho. destruct Ho as [Ho|Ho]; [apply HC1, Ho|].
      destruct T as (_ & _ & TF). rewrite Forall_forall in TF. apply TF, HC2, Ho.
    - rewrite map_app. apply nodup_join.
      + apply (nodup_app _ (map o_code more)). rewrite <- map_app, <- HR. apply requested_nodup; [exact HS'|exact Ht|apply HS'|apply HS'].
      + eapply some_of_nodup; [exact HSO|]. destruct T as (_ & TN & _). eapply Permutation_NoDup; [|exact TN]. apply Permutation_map, Permutation_sym, HP.
      + intros x H1 H2. apply in_map_iff in H1, H2. destruct H1 as (o1 & E1 & H1). destruct H2 as (o2 & E2 & H2). destruct (HC1 o1 H1) as [_ H3]. rewrite Forall_forall in HTC. pose proof (HTC o2 (HC2 o2 H2)) as H4. red in H4. rewrite E1 in H3. rewrite E2 in H4. cbn in H3, H4.
        destruct H3 as [<- | [<- | [<- | [<- | []]]]]; destruct H4 as [H4 | [H4 | [H4 | [H4 | []]]]]; discriminate. }
  split; [exact XP|]. split; [exact HS'|]. split; [exact T'|]. split; [exact Ei|]. split; [exact Ea|]. rewrite XP. unfold xid. destruct (c_again c); [now rewrite (proj1 (EX1 eq_refl))|now rewrite (proj1 (EX2 eq_refl))].
Qed.
(** One call. *)
Lemma does_inv order x c : (forall l, Permutation (order l) l) -> inv c -> call_ok x ->
  exists c' ps, does order x c = Ret (c', ps) /\ inv c' /\ Forall proper ps /\ (c_iaid c <> 0 -> c_iaid c' = c_iaid c)
    /\ (c_again c = true -> x <> Again false -> c_again c' = true /\ xid3 (c_xid c') = xid3 (c_xid c) /\ Forall (fun p => xid_of p = xid3 (c_xid c)) ps).
Proof.
  intros HO (HS & os & T & HT) HC. destruct x as [mac code t1 t2 add a|mac code t1 t2 l|t1 t2 l|l|code|b|type id now]; cbn [does call_ok] in *.
  - destruct HC as (HM & H1 & H2 & HA). destruct (N.eq_dec code 3) as [->|N3]; [|destruct (N.eq_dec code 4) as [->|N4]].
    + assert (HW : exists w, wished c add a w). { destruct add; [|eexists; constructor]. destruct a as [[a|]|]; [eexists; constructor|eexists; constructor|]. destruct (existsb (fun b => negb (b =? 0)) (c_na c)) eqn:EX.
        - eexists. apply w_last. intros HU. apply unspecified_dec in HU. congruence. - eexists. apply w_none. apply unspecified_dec, EX. }
      destruct HW as (w & HW). destruct (set_ia_na mac t1 t2 add a w c os HM HS T H1 H2) as (c' & i & E & HI & EI & HK & HS' & (T' & HR) & _); [intros x ->; exact HA|exact HW|]. rewrite E. cbn [obind fst]. do 2 eexists. split; [reflexivity|].
      split; [split; [exact HS'|]; eexists; split; [exact T'|]; constructor; [red; cbn; auto|now apply other_table]|]. split; [constructor|]. destruct HK as (_ & _ & K1 & K2 & _). split; [intros HZ; rewrite EI; destruct HI as [[_ ->] | [HZ' _]]; [reflexivity|congruence]|].
      intros HA' _. rewrite K1, K2. auto.
    + destruct (set_ia_ta mac t1 t2 add a c os HM HS T) as (c' & i & E & HI & EI & HK & HS' & (T' & HR) & _). rewrite E. cbn [obind fst]. do 2 eexists. split; [reflexivity|].
      split; [split; [exact HS'|]; eexists; split; [exact T'|]; constructor; [red; cbn; auto|now apply other_table]|]. split; [constructor|]. destruct HK as (_ & _ & K1 & K2 & _). split; [intros HZ; rewrite EI; destruct HI as [[_ ->] | [HZ' _]]; [reflexivity|congruence]|].
      intros HA' _. rewrite K1, K2. auto.
    + rewrite set_ia_other by assumption. cbn [obind fst]. do 2 eexists. split; [reflexivity|]. split; [split; [exact HS|eauto]|]. auto.
  - destruct HC as (HM & HC & H1 & H2 & HA & HL). destruct (set_ias_any mac code t1 t2 l c os HM HS T HC HA HL) as (c' & r & os' & E & HS' & T' & HT' & (_ & _ & K1 & K2 & _) & EI). rewrite E. cbn [obind fst]. do 2 eexists. split; [reflexivity|].
    split; [split; [exact HS'|eauto]|]. split; [constructor|]. split; [exact EI|]. intros HA' _. rewrite K1, K2. auto.
  - destruct HC as (H1 & H2 & HA). destruct (N.le_gt_cases (lenN l) 49) as [HL|HL].
    + destruct (set_pd_exact t1 t2 l c os HS T H1 H2 HA HL) as (c' & E & EI & (_ & _ & K1 & K2 & _) & HS' & (T' & _)). rewrite E. cbn [obind fst]. do 2 eexists. split; [reflexivity|].
      split; [split; [exact HS'|]; eexists; split; [exact T'|]; constructor; [red; cbn; auto|now apply other_table]|]. split; [constructor|]. split; [auto|]. intros HA' _. rewrite K1, K2. auto.
    + rewrite set_pd_many by (auto; lia). cbn [obind fst]. destruct (set_request_spec 25 c) as (E1 & _ & E3 & _ & _ & K1 & K2 & _). do 2 eexists. split; [reflexivity|].
      split; [split; [apply set_request_sane; [reflexivity|exact HS]|exists os; split; [eapply tidy_eq; eauto|exact HT]]|]. split; [constructor|]. split; [auto|]. intros HA' _. rewrite K1, K2. auto.
  - destruct (set_oro_any l c os HS T) as (c' & r & os' & E & HS' & T' & HT' & (_ & _ & K1 & K2 & _) & EI). rewrite E. cbn [obind fst]. do 2 eexists. split; [reflexivity|]. split; [split; [exact HS'|eauto]|]. split; [constructor|]. split; [auto|]. intros HA' _. rewrite K1, K2. auto.
  - destruct (set_request_spec code c) as (E1 & _ & E3 & _ & _ & K1 & K2 & _). do 2 eexists. split; [reflexivity|]. split; [split; [now apply set_request_sane|exists os; split; [eapply tidy_eq; eauto|exact HT]]|]. split; [constructor|]. split; [auto|]. intros HA' _. rewrite K1, K2. auto.
  - do 2 eexists. split; [reflexivity|]. split; [split; [exact HS|exists os; split; [eapply tidy_eq; [|exact T]; reflexivity|exact HT]]|]. split; [constructor|]. split; [auto|]. intros HA' HN. destruct b; [auto|congruence].
  - destruct HC as [H1 H2]. destruct (send_proper type id now order c os HO HS T HT H1) as (c' & p & E & HP & HX & HS' & T' & EI & EA & EX). rewrite E. cbn [obind fst snd]. do 2 eexists. split; [reflexivity|]. split; [split; [exact HS'|eauto]|].
    split; [constructor; [exact HP|constructor]|]. split; [auto|]. intros HA' _. rewrite HA' in HX. split; [congruence|]. split; [congruence|]. constructor; [exact HX|constructor].
Qed.
Theorem calls_inv order l : (forall l, Permutation (order l) l) -> forall c, inv c -> Forall call_ok l ->
  exists c' ps, calls order l c = Ret (c', ps) /\ inv c' /\ Forall proper ps /\ (c_iaid c <> 0 -> c_iaid c' = c_iaid c)
    /\ (c_again c = true -> ~ In (Again false) l -> Forall (fun p => xid_of p = xid3 (c_xid c)) ps).
Proof.
  intros HO. induction l as [|x l IH]; intros c HI HC; cbn [calls].
  - exists c, []. auto.
  - inversion HC as [|? ? H1 H2]; subst. destruct (does_inv order x c HO HI H1) as (c1 & p1 & E1 & I1 & P1 & A1 & X1). rewrite E1. cbn [obind fst snd]. destruct (IH c1 I1 H2) as (c2 & p2 & E2 & I2 & P2 & A2 & X2). rewrite E2. cbn [obind fst snd].
    exists c2, (p1 ++ p2). split; [reflexivity|]. split; [exact I2|]. split; [apply Forall_app; auto|]. split; [intros HZ; rewrite <- (A1 HZ); apply A2; rewrite (A1 HZ); exact HZ|].
    intros HA HN. destruct X1 as (X3 & X4 & X5); [exact HA|intros ->; apply HN; now left|]. apply Forall_app. split; [exact X5|]. rewrite <- X4. apply X2; [exact X3|]. intros Hin. apply HN. now right.
Qed.
Theorem again_xid order t id now l c : (forall l, Permutation (order l) l) -> inv c -> c_again c = false -> t < 256 -> id < 2147483648 -> Forall call_ok l -> ~ In (Again false) l ->
  exists c' p ps, calls order (Send t id now :: Again true :: l) c = Ret (c', p :: ps) /\ xid_of p = xid3 id /\ Forall (fun q => xid_of q = xid_of p) ps.
Proof.
  intros HO (HS & os & T & HT) HA H1 H2 HC HN. destruct (send_proper t id now order c os HO HS T HT H1) as (c1 & p & E & HP & HX & HS' & T' & EI & EA & EX). cbn [calls does]. rewrite E. cbn [obind fst snd]. rewrite HA in HX.
  assert (I1 : inv (again true c1)) by (split; [exact HS'|exists os; split; [eapply tidy_eq; [|exact T']; reflexivity|exact HT]]). destruct (calls_inv order l HO (again true c1) I1 HC) as (c2 & ps & E2 & _ & _ & _ & X2). rewrite E2. cbn [obind fst snd app].
  exists c2, p, ps. split; [reflexivity|]. split; [exact HX|]. specialize (X2 eq_refl HN). eapply Forall_impl; [|exact X2]. cbn beta. intros q Hq. rewrite Hq. exact EX.
Qed.
(** Identifiers. *)
Theorem duid_llt hw now mac : hw < 256 -> is_mac mac -> create_duid 1 hw now (Some mac) = Ret (0, Some (be16 1 ++ be16 hw ++ be32 (Z.to_N ((now - 946684800) mod 4294967296)) ++ mac)).
Proof.
  intros HW [HM _]. unfold create_duid. rewrite takeN_all by lia. rewrite put32_be32 by (unfold uint32; pose proof (Z.mod_pos_bound (now - 946684800) 4294967296); lia). unfold be16. rewrite (N.div_small hw) by assumption. reflexivity.
Qed.
Theorem duid_ll hw now mac : hw < 256 -> is_mac mac -> create_duid 3 hw now (Some mac) = Ret (0, Some (be16 3 ++ be16 hw ++ mac)).
Proof. intros HW [HM _]. unfold create_duid. rewrite takeN_all by lia. unfold be16. rewrite (N.div_small hw) by assumption. reflexivity. Qed.
(** Starting. *)
Theorem start_one set k : set k = true -> (forall j, set j = true -> j = k) -> start set = Some k /\ (k <> Solicit -> tells set = Some k).
Proof.
  intros HK HU. assert (HF : forall j, j <> k -> set j = false) by (intros j Hj; destruct (set j) eqn:E; [exfalso; apply Hj, HU, E|reflexivity]).
  unfold start, tells. cbn [find]. destruct k; rewrite ?HK; repeat (rewrite HF by discriminate); rewrite ?HK; split; auto; intros H; congruence.
Qed.

Lemma first_type set k t id now order c : (forall l, Permutation (order l) l) -> inv c -> set k = true -> (forall j, set j = true -> j = k) -> In (k, t) types ->
  exists c' xid os, first_msg set id now order c = Ret (c', Some (message t xid os)).
Proof.
  intros HO (HS & l & HT & _) H1 H2 HI. destruct (start_one set k H1 H2) as [H _]. unfold first_msg. rewrite H.
  assert (message_type k = t /\ t < 256) as [E L]. { unfold types in HI. cbn [In] in HI. repeat (destruct HI as [HI|HI]; [injection HI as <- <-; split; [reflexivity|lia]|]). destruct HI. }
  rewrite E. destruct (send_spec t id now order c l HO HS HT L) as (c' & p & u & os1 & more & os2 & os' & EM & EP & _). rewrite EM. cbn [obind fst snd]. exists c'. eexists _, _. rewrite EP. reflexivity.
Qed.
Lemma first_none set id now order c : (forall k, set k = false) -> first_msg set id now order c = Ret (c, None).
Proof. intros H. unfold first_msg, start. cbn [find]. rewrite !H. reflexivity. Qed.
