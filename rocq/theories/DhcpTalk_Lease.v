From Verif Require Import Base DhcpOpt_Model DhcpOpt_Spec DhcpServer_Model DhcpServer_Spec DhcpOpt_Proofs DhcpServer_Proofs DhcpServer_Send DhcpServer_More.
From Verif Require Import DhcpClient_Model DhcpTalk_Model DhcpTalk_Spec DhcpTalk_Proofs DhcpTalk_Read.

(** ** The client *)
Lemma latest_emit e c : latest (emit e c) = Some e.
Proof. unfold latest, emit. cbn [log set_log]. now rewrite rev_app_distr. Qed.
Lemma remove_keeps id c : st (remove id c) = st c /\ lmode (remove id c) = lmode c /\ retry (remove id c) = retry c.
Proof. unfold remove, emit. destruct (id =? 0); [auto|]. destruct (pending id (srcs c)); auto. Qed.
Lemma removes_keep c : st (remove_timeouts c) = st c /\ lmode (remove_timeouts c) = lmode c.
Proof.
  unfold remove_timeouts. cbn [st lmode set_timers].
  pose proof (remove_keeps (lease_timeout c) (remove (t2_timeout c) (remove (t1_timeout c) (remove (timeout c) c)))).
  pose proof (remove_keeps (t2_timeout c) (remove (t1_timeout c) (remove (timeout c) c))).
  pose proof (remove_keeps (t1_timeout c) (remove (timeout c) c)).
  pose proof (remove_keeps (timeout c) c). intuition congruence.
Qed.

Lemma offer_answered fuel sock r s y l c : st c = INIT_SELECTING -> lmode c = L2 ->
  exists c2, listener fuel sock r (Packet true (Some 2) (Some s) l y) c = Ret c2
  /\ latest c2 = Some (Request (Some y) (Some s) None false)
  /\ st c2 = REQUESTING /\ lmode c2 = L2 /\ req_ip c2 = y /\ server_ip c2 = s.
Proof.
  intros S M. unfold listener. rewrite M. cbn [seen p_owner p_type negb]. rewrite S. change (negb (2 =? DHCPOFFER)) with false. cbv iota.
  cbn [p_server p_yiaddr]. unfold start_request.
  set (c1 := set_st REQUESTING (set_req y (set_server s (set_retry 0 (remove_timeouts c))))).
  change (retry c1) with 0. change (0 =? 3) with false. change (0 =? 0) with true. cbv iota.
  assert (M1 : lmode (set_st REQUESTING c1) = L2) by (unfold c1; cbn [lmode set_st set_req set_server set_retry]; rewrite (proj2 (removes_keep c)); exact M).
  unfold switch. rewrite M1. cbn [mode_eqb fst]. eexists. split; [reflexivity|].
  set (c2 := set_st REQUESTING c1). assert (S2 : send_request c2 = emit (Request (Some y) (Some s) None false) c2) by reflexivity.
  rewrite S2. split.
  - unfold latest. cbn [log set_timeout set_timers add set_srcs]. apply (latest_emit (Request (Some y) (Some s) None false) c2).
  - unfold set_timeout, add, emit. cbn. repeat split; auto.
Qed.

Lemma ack_taken fuel sock s y l c : st c = REQUESTING -> lmode c = L2 ->
  exists c3, listener fuel sock Nothing (Packet true (Some 5) s l y) c = Ret c3
  /\ latest c3 = Some (Available y (get_lease l)) /\ st c3 = BOUND /\ assigned c3 = Some y
  /\ server_ip c3 = server_ip c /\ req_ip c3 = req_ip c.
Proof.
  intros S M. unfold listener. rewrite M. cbn [seen p_owner p_type negb]. rewrite S. change (5 =? DHCPACK) with true. cbv iota.
  unfold on_ack. set (c1 := ack_address sock _ _).
  assert (S1 : st c1 = REQUESTING).
  { unfold c1, ack_address, switch. cbn [lmode set_times]. destruct (removes_keep (set_retry 0 c)) as [A B].
    rewrite B. change (lmode (set_retry 0 c)) with (lmode c). rewrite M. cbn [mode_eqb fst set_listen lmode set_assigned st set_times]. rewrite A. exact S. }
  unfold ack_server. rewrite S1. cbn [obind]. unfold react. cbn [obind]. eexists. split; [reflexivity|].
  assert (Z : remove_timeouts (set_st BOUND (emit (Available y (get_lease l)) c1))
    = set_timers 0 0 0 0 (set_st BOUND (emit (Available y (get_lease l)) c1))).
  { unfold remove_timeouts. 
    assert (T : timeout c1 = 0 /\ t1_timeout c1 = 0 /\ t2_timeout c1 = 0 /\ lease_timeout c1 = 0).
    { unfold c1, ack_address, switch. cbn [lmode set_times]. rewrite (proj2 (removes_keep (set_retry 0 c))). change (lmode (set_retry 0 c)) with (lmode c).
      rewrite M. cbn. repeat split; reflexivity. }
    destruct T as (T1 & T2 & T3 & T4).
    change (timeout (set_st BOUND (emit (Available y (get_lease l)) c1))) with (timeout c1). rewrite T1.
    change (t1_timeout (set_st BOUND (emit (Available y (get_lease l)) c1))) with (t1_timeout c1). rewrite T2.
    change (t2_timeout (set_st BOUND (emit (Available y (get_lease l)) c1))) with (t2_timeout c1). rewrite T3.
    change (lease_timeout (set_st BOUND (emit (Available y (get_lease l)) c1))) with (lease_timeout c1). rewrite T4. reflexivity. }
  assert (L : lease c1 = get_lease l /\ assigned c1 = Some y /\ server_ip c1 = server_ip c /\ req_ip c1 = req_ip c).
  { unfold c1, ack_address, switch. cbn [lmode set_times p_lease p_yiaddr]. rewrite (proj2 (removes_keep (set_retry 0 c))). change (lmode (set_retry 0 c)) with (lmode c).
    rewrite M. cbn [mode_eqb fst set_listen lmode set_assigned lease assigned server_ip req_ip set_times].
    assert (Kp : forall id d, server_ip (remove id d) = server_ip d /\ req_ip (remove id d) = req_ip d).
    { intros. unfold remove, emit. destruct (id =? 0); [auto|]. destruct (pending id (srcs d)); auto. }
    unfold remove_timeouts. cbn [server_ip req_ip set_timers]. rewrite !(fun id d => proj1 (Kp id d)), !(fun id d => proj2 (Kp id d)). auto. }
  destruct L as (L1 & L2 & L3 & L4). rewrite L1. change (p_yiaddr _) with y. unfold start_bound. rewrite Z.
  split; [|cbn; auto]. unfold latest. cbn. now rewrite rev_app_distr.
Qed.

(** ** The conversation *)
Lemma offered s now i s1 out : inv s -> start_ip s < 2 ^ 32 -> forall fuel mem m, handle fuel mem now s i = Ret (s1, out) ->
  In m out -> reply_type m = 2 -> exists y, out = [Offer y] /\ m = Offer y /\ inv s1 /\ same_config s s1 /\ has s1 (mkLease 300 y (chaddr i)).
Proof.
  intros I S fuel mem m H Hm T. destruct (handle_ok fuel mem now s i I S) as [[_ E]|(s' & o & E & I' & C & T' & HT & Ef)]; rewrite E in H; [discriminate|].
  apply (f_equal (fun x => match x with Ret y => y | _ => (s, []) end)) in H. cbv beta iota in H.
  pose proof (f_equal fst H) as H1. pose proof (f_equal snd H) as H2. cbn [fst snd] in H1, H2. subst s' o. clear H.
  inversion Ef as [o [->|[->| ->]] E1 E2|y T1 Ch R M E1 E2|y T3 Ey R M U E1 E2|x T4 Hx Mx Rx E1 E2|x T7 Hx Mx Rx E1 E2]; subst;
    try (cbn [In] in Hm; contradiction); destruct Hm as [<-|[]]; cbn [reply_type] in T; try discriminate T.
  exists y. split; [reflexivity|]. split; [reflexivity|]. split; [exact I'|]. split; [exact C|]. apply HT. now left.
Qed.

Theorem lease_got fuel k xid rest s t1 el1 req s1 p1 l c sock r : (400 <= fuel)%nat ->
  cfg_ok k -> lenN xid = 4 -> config_ok s -> reachable s ->
  exchange fuel true t1 s k xid (Z.of_N el1) (Discover req) rest = Ret (s1, p1 :: l) ->
  p_type p1 = Some 2 -> st c = INIT_SELECTING -> lmode c = L2 ->
  exists c2 e, listener fuel sock r p1 c = Ret c2 /\ latest c2 = Some e /\ has s1 (mkLease 300 (p_yiaddr p1) (k_mac k)) /\
  forall others s2 o t2 el2, quiet fuel s1 (p_yiaddr p1) (k_mac k) others -> history fuel s1 others = Ret (s2, o) ->
  exists s3 p2 c3, exchange fuel true t2 s2 k xid (Z.of_N el2) e rest = Ret (s3, [p2]) /\
    has s3 (mkLease (t2 + secs s) (p_yiaddr p1) (k_mac k)) /\
    listener fuel sock Nothing p2 c2 = Ret c3 /\
    latest c3 = Some (Available (p_yiaddr p1) (DhcpClient_Model.get_lease (Some (secs s)))) /\
    st c3 = BOUND /\ assigned c3 = Some (p_yiaddr p1).
Proof.
  intros Hf K X C R E T S M. apply reachable_inv in R as (I & S0 & _).
  rewrite (exchange_ok fuel true t1 s k xid el1 (Discover req) 1 rest Hf K X eq_refl Logic.I C I S0) in E.
  destruct (handle fuel true t1 s (input_of k (Discover req) 1)) as [[s' out]| |] eqn:H; cbn [obind] in E; try discriminate.
  apply (f_equal (fun x => match x with Ret y => y | _ => (s, []) end)) in E. cbv beta iota in E.
  pose proof (f_equal fst E) as E1. pose proof (f_equal snd E) as E2. cbn [fst snd] in E1, E2. subst s'. clear E.
  destruct out as [|m out]; [discriminate|]. cbn [map] in E2.
  assert (E3 : answer_read s m = p1) by (apply (f_equal (hd p1)) in E2; exact E2). subst p1. clear E2.
  assert (T' : reply_type m = 2) by (apply (f_equal (fun x => match x with Some x => x | None => 0 end)) in T; exact T).
  destruct (offered s t1 _ s1 _ I S0 fuel true m H (or_introl eq_refl) T') as (y & _ & -> & I1 & SC & Hy). clear T T'.
  destruct (offer_answered fuel sock r (server_nip s) y (Some (secs s)) c S M) as (c2 & L1 & L2 & L3 & L4 & L5 & L6).
  exists c2, (Request (Some y) (Some (server_nip s)) None false). split; [exact L1|]. split; [exact L2|]. split; [exact Hy|].
  cbn [p_yiaddr answer_read reply_addr]. intros others s2 o t2 el2 Q Ho.
  assert (S1 : start_ip s1 < 2 ^ 32) by (destruct SC as (-> & _); exact S0).
  destruct (quiet_history fuel y (k_mac k) others s1 s2 o I1 S1) as [(x & Hx & Nx & Mx) _]; auto.
  { exists (mkLease 300 y (k_mac k)). auto. }
  destruct (history_inv fuel s1 others s2 o I1 S1 Ho) as [I2 SC2].
  pose proof (config_trans s s1 s2 SC SC2) as SC3.
  assert (S2 : start_ip s2 < 2 ^ 32) by (destruct SC3 as (-> & _); exact S0).
  set (e := Request (Some y) (Some (server_nip s)) None false).
  assert (ME : match meant e with Some v => v = server_nip s2 | None => True end) by (destruct SC3 as (_ & _ & E3 & _); cbn; congruence).
  rewrite (exchange_ok fuel true t2 s2 k xid el2 e 3 rest Hf K X eq_refl ME (same_config_ok s s2 SC3 C) I2 S2).
  assert (RQ : requested (input_of k e 3) = nip x).
  { unfold requested. cbn. rewrite Nx. destruct (t_range s2 (inv_table s2 I2) x Hx) as [_ Z]. rewrite Nx in Z. now destruct (N.eqb_spec y 0). }
  destruct (own_address s2 fuel true t2 (input_of k e 3) x I2 Hx Mx eq_refl RQ) as (s3 & -> & Hs3). cbn [obind map].
  destruct (ack_taken fuel sock (Some (server_nip s2)) y (Some (secs s2)) c2 L3 L4) as (c3 & A1 & A2 & A3 & A4 & _).
  exists s3, (answer_read s2 (Ack (nip x))), c3. rewrite Nx in *. rewrite Mx in *. destruct SC3 as (_ & _ & _ & E4 & _). rewrite E4 in *.
  split; [reflexivity|]. split; [exact Hs3|]. split; [unfold answer_read; cbn [reply_type reply_addr]; rewrite E4; exact A1|]. auto.
Qed.

(** ** Extending and giving back *)
Lemma keeps_nothing s fuel mem now i x : inv s -> has s x -> mac x = chaddr i ->
  (type i = 3 /\ DhcpServer_Model.req_ip i = None /\ server_id i = None) \/ type i = 7 -> ciaddr i <> nip x ->
  handle fuel mem now s i = Ret (s, []).
Proof.
  intros I Hx Hm T Hc. unfold handle. destruct (find_by_mac s (chaddr i) I) as (l & -> & Hl). cbn [obind].
  destruct l as [id|]; [|exfalso; now apply (Hl x)]. destruct Hl as (Hid & y & Ey & Hy).
  assert (y = x).
  { destruct Hx as (j & Hj & Ej). assert (j = id) by (eapply (i_mac s I); eauto; congruence). congruence. }
  subst y. destruct T as [(T3 & R & SI)|T7].
  - rewrite T3, R, SI. change (3 =? 1) with false. change (3 =? 3) with true. change (0 =? 0) with true. cbv iota.
    destruct (ciaddr i =? 0); [reflexivity|]. cbn [obind]. unfold deref. rewrite Ey. cbn [obind].
    destruct (N.eqb_spec (ciaddr i) (nip x)); [contradiction|reflexivity].
  - rewrite T7. change (7 =? 1) with false. change (7 =? 3) with false. change (7 =? 4) with false. change (7 =? 7) with true. cbv iota.
    destruct (server_id i); [|reflexivity]. unfold deref. rewrite Ey. cbn [obind].
    destruct (N.eqb_spec (ciaddr i) (nip x)); [contradiction|reflexivity].
Qed.

Theorem own_ignored fuel mem k xid rest s now el x e : (400 <= fuel)%nat -> cfg_ok k -> lenN xid = 4 -> config_ok s -> reachable s ->
  has s x -> mac x = k_mac k -> about_own e s x -> swap32 (nip x) <> nip x ->
  exchange fuel mem now s k xid (Z.of_N el) e rest = Ret (s, []).
Proof.
  intros Hf K X C R Hx Mx A W. apply reachable_inv in R as (I & S0 & _).
  destruct A as [(u & ->)| ->].
  - rewrite (exchange_ok fuel mem now s k xid el (Request None None (Some (nip x)) u) 3 rest Hf K X eq_refl Logic.I C I S0).
    rewrite (keeps_nothing s fuel mem now _ x I Hx); [reflexivity|exact Mx|left; auto|exact W].
  - rewrite (exchange_ok fuel mem now s k xid el (Release (server_nip s) (nip x)) 7 rest Hf K X eq_refl eq_refl C I S0).
    rewrite (keeps_nothing s fuel mem now _ x I Hx); [reflexivity|exact Mx|right; auto|exact W].
Qed.
Theorem extended_partial fuel mem k xid rest s now el x u : (400 <= fuel)%nat -> cfg_ok k -> lenN xid = 4 -> config_ok s -> reachable s ->
  has s x -> mac x = k_mac k -> swap32 (nip x) = nip x ->
  exists s', exchange fuel mem now s k xid (Z.of_N el) (Request None None (Some (nip x)) u) rest = Ret (s', [answer_read s (Ack (nip x))])
  /\ has s' (mkLease (now + secs s) (nip x) (mac x)).
Proof.
  intros Hf K X C R Hx Mx W. apply reachable_inv in R as (I & S0 & _).
  rewrite (exchange_ok fuel mem now s k xid el (Request None None (Some (nip x)) u) 3 rest Hf K X eq_refl Logic.I C I S0).
  destruct (own_address s fuel mem now (input_of k (Request None None (Some (nip x)) u) 3) x I Hx Mx eq_refl) as (s' & -> & H'); [exact W|].
  exists s'. split; [reflexivity|exact H'].
Qed.
(** Packets for the server alone are sent to the address with the bytes the wrong way. *)
Lemma swap_stored v : v < 2 ^ 32 -> net32 v = stored_bytes v <-> swap32 v = v.
Proof.
  intros H. unfold stored_bytes. rewrite net32_be32, be32_eq. cbn [rev app]. unfold swap32.
  change (2 ^ 32) with 4294967296 in H. change (2 ^ 24) with 16777216. change (2 ^ 16) with 65536. change (2 ^ 8) with 256.
  assert (E1 : v / 65536 = 256 * (v / 16777216) + v / 65536 mod 256) by (change 16777216 with (65536 * 256); rewrite <- N.div_div by lia; apply N.div_mod; lia).
  assert (E2 : v / 256 = 256 * (v / 65536) + v / 256 mod 256) by (change 65536 with (256 * 256); rewrite <- N.div_div by lia; apply N.div_mod; lia).
  assert (E3 : v = 256 * (v / 256) + v mod 256) by (apply N.div_mod; lia).
  assert (L1 : v / 65536 mod 256 < 256) by (apply N.mod_lt; lia). assert (L2 : v / 256 mod 256 < 256) by (apply N.mod_lt; lia).
  assert (L3 : v mod 256 < 256) by (apply N.mod_lt; lia). assert (L4 : v / 16777216 < 256) by (apply N.div_lt_upper_bound; lia).
  set (a := v / 16777216) in *. set (b := v / 65536 mod 256) in *. set (c := v / 256 mod 256) in *. set (d := v mod 256) in *.
  set (x := v / 65536) in *. set (y := v / 256) in *. clearbody a b c d x y.
  split.
  - intros E. injection E as ? ? ? ?. lia.
  - intros E. assert (d = a) by lia. assert (c = b) by lia. subst d c. reflexivity.
Qed.
Theorem unicast_address c e v : v < 2 ^ 32 -> swap32 v <> v -> server_ip c = v ->
  (exists req srv ci, e = Request req srv ci true) \/ (exists a, e = Release v a) ->
  destination c e <> stored_bytes v.
Proof.
  intros H W S [(req & srv & ci & ->)|(a & ->)]; cbn [destination]; rewrite ?S; intros E; apply W, swap_stored; assumption.
Qed.

(** ** For configured clients *)
Theorem messages mac l k xid el e t : configured_by mac l k -> real_codes l -> lenN xid = 4 -> message_type e = Some t ->
  exists p, render_event k xid (Z.of_N el) e = Ok (Some p) /\ payload e p = message k xid el e /\ lenN (payload e p) = 548.
Proof.
  intros C R X T. destruct (configured_ok mac l k C R) as [K _]. destruct (render_event_ok k xid el e t K X T) as (p & A & B & D & E).
  exists p. split; [exact A|]. split; [exact E|]. rewrite E. apply sent_len; [|apply D].
  apply client_header_len; [apply K|exact X|reflexivity].
Qed.
Theorem understood mac l k xid el e t s p fuel : configured_by mac l k -> real_codes l -> lenN xid = 4 -> message_type e = Some t -> (400 <= fuel)%nat ->
  render_event k xid (Z.of_N el) e = Ok (Some p) ->
  decode fuel s (payload e p)
  = Ret (if match meant e with Some v => negb (v =? server_nip s) | None => false end then None
         else Some (mkInput t (meant e) (asked_for e) (swap32 (in_use e)) mac)).
Proof.
  intros C R X T F E. destruct (configured_ok mac l k C R) as [K <-]. destruct (render_event_ok k xid el e t K X T) as (p' & A & _ & D & E').
  rewrite A in E. apply (f_equal (fun x => match x with Ok (Some y) => y | _ => p end)) in E. cbv beta iota in E. subst p'.
  rewrite E'. now apply decode_message.
Qed.
Theorem answer_understood mac l k xid el e t s p m fuel rest : configured_by mac l k -> real_codes l -> lenN xid = 4 -> message_type e = Some t -> (400 <= fuel)%nat ->
  config_ok s -> render_event k xid (Z.of_N el) e = Ok (Some p) ->
  exists r, render s (received (payload e p)) m = Ok (Some r)
  /\ read_packet fuel k xid (takeN 548 (DhcpRaw_Model.set_broadcast r) ++ rest) 548 = Ret (answer_read s m).
Proof.
  intros C R X T F O E. destruct (configured_ok mac l k C R) as [K _]. destruct (render_event_ok k xid el e t K X T) as (p' & A & _ & D & E').
  rewrite A in E. apply (f_equal (fun x => match x with Ok (Some y) => y | _ => p end)) in E. cbv beta iota in E. subst p'.
  rewrite E'. now apply answer_ok.
Qed.
Theorem answer_not_taken mac l k xid el e t s p m fuel rest k' xid' : configured_by mac l k -> real_codes l -> lenN xid = 4 -> message_type e = Some t ->
  config_ok s -> render_event k xid (Z.of_N el) e = Ok (Some p) -> xid' <> xid \/ k_mac k' <> mac ->
  exists r q, render s (received (payload e p)) m = Ok (Some r)
  /\ read_packet fuel k' xid' (takeN 548 (DhcpRaw_Model.set_broadcast r) ++ rest) 548 = Ret q /\ p_owner q = false.
Proof.
  intros C R X T O E D. destruct (configured_ok mac l k C R) as [K <-]. destruct (render_event_ok k xid el e t K X T) as (p' & A & _ & I & E').
  rewrite A in E. apply (f_equal (fun x => match x with Ok (Some y) => y | _ => p end)) in E. cbv beta iota in E. subst p'.
  rewrite E'. destruct (answer_other fuel s k xid el e m rest k' xid' O K X I D) as (r & R1 & R2). eauto.
Qed.
Theorem lease_obtained mac calls k fuel xid rest s t1 el1 req s1 p1 l c sock r : configured_by mac calls k -> real_codes calls ->
  (400 <= fuel)%nat -> lenN xid = 4 -> config_ok s -> reachable s ->
  exchange fuel true t1 s k xid (Z.of_N el1) (Discover req) rest = Ret (s1, p1 :: l) ->
  p_type p1 = Some 2 -> st c = INIT_SELECTING -> lmode c = L2 ->
  exists c2 e, listener fuel sock r p1 c = Ret c2 /\ latest c2 = Some e /\ has s1 (mkLease 300 (p_yiaddr p1) mac) /\
  forall others s2 o t2 el2, quiet fuel s1 (p_yiaddr p1) mac others -> history fuel s1 others = Ret (s2, o) ->
  exists s3 p2 c3, exchange fuel true t2 s2 k xid (Z.of_N el2) e rest = Ret (s3, [p2]) /\
    has s3 (mkLease (t2 + secs s) (p_yiaddr p1) mac) /\
    listener fuel sock Nothing p2 c2 = Ret c3 /\
    latest c3 = Some (Available (p_yiaddr p1) (DhcpClient_Model.get_lease (Some (secs s)))) /\
    st c3 = BOUND /\ assigned c3 = Some (p_yiaddr p1).
Proof. intros C R. destruct (configured_ok mac calls k C R) as [K <-]. intros F X. now apply lease_got. Qed.
(** A client without an address always gets one when the server has one. *)
Theorem discover_offered mac calls k fuel xid rest a b me secs0 opts0 evs s o now el req : configured_by mac calls k -> real_codes calls ->
  (400 <= fuel)%nat -> lenN xid = 4 -> a < 2 ^ 32 -> b < 2 ^ 32 - 1 -> (forall ev, In ev evs -> e_now ev + secs0 < 2 ^ 31) ->
  history fuel (server_new a b me secs0 opts0) evs = Ret (s, o) -> config_ok s ->
  (N.to_nat (b + 1 - a) < fuel)%nat -> real_client mac ->
  free_address s \/ (exists x, has s x /\ DhcpServer_Model.expire x < now) ->
  exists s' p, exchange fuel true now s k xid (Z.of_N el) (Discover req) rest = Ret (s', [p]) /\ p_type p = Some 2 /\ p_owner p = true.
Proof.
  intros C R F X A B L H O G M Fr. destruct (configured_ok mac calls k C R) as [K E].
  assert (I : inv s /\ start_ip s < 2 ^ 32).
  { destruct (history_inv fuel _ evs s o (new_inv a b me secs0 opts0) A H) as [I SC]. split; [exact I|]. destruct SC as (-> & _). exact A. }
  destruct I as [I S0].
  rewrite (exchange_ok fuel true now s k xid el (Discover req) 1 rest F K X eq_refl Logic.I O I S0).
  destruct (discover_gets_offer a b me secs0 opts0 fuel evs s o fuel now (input_of k (Discover req) 1) A B L H G eq_refl) as (s' & y & ->); auto.
  { cbn. now rewrite E. }
  cbn [obind map]. eexists _, _. split; [reflexivity|]. split; reflexivity.
Qed.
Theorem extension_ignored mac calls k fuel mem xid rest s now el x e : configured_by mac calls k -> real_codes calls -> (400 <= fuel)%nat -> lenN xid = 4 ->
  config_ok s -> reachable s -> has s x -> DhcpServer_Model.mac x = mac -> about_own e s x -> swap32 (nip x) <> nip x ->
  exchange fuel mem now s k xid (Z.of_N el) e rest = Ret (s, []).
Proof. intros C R. destruct (configured_ok mac calls k C R) as [K <-]. intros F X. now apply own_ignored. Qed.
Theorem extension_granted mac calls k fuel mem xid rest s now el x u : configured_by mac calls k -> real_codes calls -> (400 <= fuel)%nat -> lenN xid = 4 ->
  config_ok s -> reachable s -> has s x -> DhcpServer_Model.mac x = mac -> swap32 (nip x) = nip x ->
  exists s', exchange fuel mem now s k xid (Z.of_N el) (Request None None (Some (nip x)) u) rest = Ret (s', [answer_read s (Ack (nip x))])
  /\ has s' (mkLease (now + secs s) (nip x) mac).
Proof.
  intros C R. destruct (configured_ok mac calls k C R) as [K <-]. intros F X O Re Hx Mx W.
  destruct (extended_partial fuel mem k xid rest s now el x u F K X O Re Hx Mx W) as (s' & A & B). exists s'. rewrite <- Mx. auto.
Qed.
