(** What a DHCPv6 client sends: messages. *)
From Coq Require Import ZArith Permutation.
From Verif Require Import Base Dhcp6_Spec Dhcp6Send_Model Dhcp6Send_Spec Dhcp6Send_Proofs Dhcp6Send_Opts.
From Verif Require Dhcp6_Proofs.
Local Open Scope N_scope.

Lemma elapsed_lt c now : elapsed c now < 65536.
Proof. unfold elapsed. destruct (c_again c); [|lia]. set (d := time_diff _ _). destruct ((d <? 0) || (65535 <? d))%Z eqn:E; [lia|]. apply orb_false_iff in E. destruct E as [E1 E2]. apply Z.ltb_ge in E1, E2. lia. Qed.
Lemma requested_small c time code o : sane c -> time < 65536 -> code < 65536 -> In o (requested c time code) -> small o /\ o_code o = code /\ (code = 1 \/ code = 2 \/ code = 8 \/ code = 14).
Proof.
  intros (_ & _ & _ & _ & HD & HV & _) HT HC. unfold requested.
  destruct (N.eq_dec code 1) as [->|N1]; [destruct (c_duid c) as [d|]; [|intros []]; intros [<- | []]; split; [apply mk_small; [lia|apply HD|apply HD]|auto]|].
  destruct (N.eq_dec code 2) as [->|N2]; [destruct (c_server c) as [d|]; [|intros []]; intros [<- | []]; split; [apply mk_small; [lia|apply HV|apply HV]|auto]|].
  destruct (N.eq_dec code 8) as [->|N8]; [intros [<- | []]; split; [apply mk_small; [lia|change (lenN (be16 time)) with 2; lia|now apply bytes_be16]|auto]|].
  destruct (N.eq_dec code 14) as [->|N14]; [intros [<- | []]; split; [apply mk_small; [lia|change (lenN (@nil byte)) with 0; lia|constructor]|auto]|].
  intros H. exfalso. destruct code as [|[[[[p|p|]|[p|p|]|]|[[p|p|]|[p|p|]|]|]|[[[p|p|]|[p|p|]|]|[[p|p|]|[p|p|]|]|]|]]; cbn in H; try contradiction; congruence.
Qed.
Lemma switch_code {A} (code : N) (a b d e f : A) :
  match code with 1 => a | 2 => b | 14 => d | 8 => e | _ => f end = if code =? 1 then a else if code =? 2 then b else if code =? 14 then d else if code =? 8 then e else f.
Proof. destruct code as [|[[[[p|p|]|[p|p|]|]|[[p|p|]|[p|p|]|]|]|[[[p|p|]|[p|p|]|]|[[p|p|]|[p|p|]|]|]|]]; reflexivity. Qed.
Lemma fits_spec b n : fits b n = true <-> lenN b + 4 + n <= 1496.
Proof. unfold fits. rewrite N.leb_le. lia. Qed.
Lemma emit_ok b o : small o -> lenN b + 4 + lenN (o_data o) <= 1500 -> emit b (put16 (o_code o) ++ put16 (lenN (o_data o)) ++ o_data o) = Ret (b ++ enc o).
Proof. intros HS HL. rewrite enc_put by assumption. unfold emit. rewrite Dhcp6_Proofs.len_enc. now rewrite (proj2 (N.leb_le _ _)) by lia. Qed.
(** Options that are requested. *)
Lemma requests_sound c time l : sane c -> time < 65536 -> Forall (fun r => r < 65536) l -> forall b, lenN b <= 1496 ->
  exists os more, add_requests c time l b = Ret (b ++ encs os) /\ flat_map (requested c time) l = os ++ more /\ lenN (b ++ encs os) <= 1496
    /\ ((In 1 l -> c_duid c <> None) -> lenN b + lenN (encs (os ++ more)) <= 1496 -> more = []).
Proof.
  intros HS HT. induction l as [|code l IH]; intros HR b HB; cbn [add_requests flat_map].
  - exists [], []. rewrite app_nil_r. auto.
  - inversion HR as [|? ? HC HR']; subst. rewrite N.mod_small by assumption.
    assert (STEP : forall o, small o -> o_code o = code -> requested c time code = [o] ->
      exists os more, (if fits b (lenN (o_data o)) then let* b := emit b (put16 code ++ put16 (lenN (o_data o)) ++ o_data o) in add_requests c time l b else Ret b) = Ret (b ++ encs os)
        /\ requested c time code ++ flat_map (requested c time) l = os ++ more /\ lenN (b ++ encs os) <= 1496 /\ ((In 1 (code :: l) -> c_duid c <> None) -> lenN b + lenN (encs (os ++ more)) <= 1496 -> more = [])).
    { intros o HO <- ER. rewrite ER. destruct (fits b (lenN (o_data o))) eqn:EF.
      - apply fits_spec in EF. rewrite emit_ok by (auto; lia). cbn [obind]. destruct (IH HR' (b ++ enc o)) as (os & more & E1 & E2 & E3 & E4); [rewrite lenN_app, Dhcp6_Proofs.len_enc; lia|].
        exists (o :: os), more. rewrite E1, Dhcp6_Proofs.encs_cons, app_assoc. split; [reflexivity|]. split; [cbn [app]; now rewrite E2|]. split; [exact E3|]. intros HD HL. apply E4; [intros Hin; apply HD; now right|].
        cbn [app] in HL. rewrite Dhcp6_Proofs.encs_cons in HL. rewrite lenN_app in *. lia.
      - exists [], (o :: flat_map (requested c time) l). rewrite app_nil_r. split; [reflexivity|]. split; [reflexivity|]. split; [exact HB|]. intros _ HL. exfalso. cbn [app] in HL. rewrite Dhcp6_Proofs.encs_cons, lenN_app, Dhcp6_Proofs.len_enc in HL.
        assert (fits b (lenN (o_data o)) = true) by (apply fits_spec; lia). congruence. }
    assert (SKIP : requested c time code = [] -> exists os more, add_requests c time l b = Ret (b ++ encs os) /\ requested c time code ++ flat_map (requested c time) l = os ++ more /\ lenN (b ++ encs os) <= 1496
        /\ ((In 1 (code :: l) -> c_duid c <> None) -> lenN b + lenN (encs (os ++ more)) <= 1496 -> more = [])).
    { intros ER. rewrite ER. destruct (IH HR' b HB) as (os & more & E1 & E2 & E3 & E4). exists os, more. split; [exact E1|]. split; [exact E2|]. split; [exact E3|]. intros HD HL. apply E4; [intros Hin; apply HD; now right|exact HL]. }
    rewrite switch_code.
    destruct (code =? 1) eqn:C1; [apply N.eqb_eq in C1; subst code|destruct (code =? 2) eqn:C2; [apply N.eqb_eq in C2; subst code|destruct (code =? 14) eqn:C14; [apply N.eqb_eq in C14; subst code|destruct (code =? 8) eqn:C8; [apply N.eqb_eq in C8; subst code|]]]].
    + destruct (c_duid c) as [d|] eqn:ED.
      * apply (STEP (mkOpt 1 d)); [apply mk_small; [lia|destruct HS as (_ & _ & _ & _ & HD & _); rewrite ED in HD; apply HD|destruct HS as (_ & _ & _ & _ & HD & _); rewrite ED in HD; apply HD]|reflexivity|unfold requested; now rewrite ED].
      * exists []. eexists. rewrite app_nil_r. split; [reflexivity|]. split; [reflexivity|]. split; [exact HB|]. intros HD. exfalso. apply HD; [now left|reflexivity].
    + destruct (c_server c) as [d|] eqn:ED.
      * apply (STEP (mkOpt 2 d)); [apply mk_small; [lia|destruct HS as (_ & _ & _ & _ & _ & HD & _); rewrite ED in HD; apply HD|destruct HS as (_ & _ & _ & _ & _ & HD & _); rewrite ED in HD; apply HD]|reflexivity|unfold requested; now rewrite ED].
      * apply SKIP. unfold requested. now rewrite ED.
    + apply (STEP (mkOpt 14 [])); [apply mk_small; [lia|change (lenN (@nil byte)) with 0; lia|constructor]|reflexivity|reflexivity].
    + pose proof (STEP (mkOpt 8 (be16 time))) as S8. cbn [o_data o_code] in S8. rewrite put16_be16 by assumption. apply S8; [apply mk_small; [lia|change (lenN (be16 time)) with 2; lia|now apply bytes_be16]|reflexivity|reflexivity].
    + apply SKIP. destruct (requested c time code) as [|o os] eqn:EO; [reflexivity|]. exfalso. assert (HI : In o (requested c time code)) by (rewrite EO; now left).
      destruct (requested_small c time code o HS HT HC HI) as (_ & _ & [-> | [-> | [-> | ->]]]); discriminate.
Qed.
(** Options of the table. *)
Lemma get32_2 n : n < 65536 -> get32 (be16 n) = n.
Proof. intros H. unfold get32, be16. cbn [fold_left]. lia. Qed.
Lemma sends_sound os : Forall small os -> forall b, lenN b <= 1496 -> exists os', add_sends (map enc os) b = Ret (b ++ encs os') /\ some_of os' os /\ lenN (b ++ encs os') <= 1496 /\ (lenN b + lenN (encs os) <= 1496 -> os' = os).
Proof.
  induction 1 as [|o os HO HS IH]; intros b HB; cbn [map add_sends].
  - exists []. rewrite app_nil_r. repeat split; auto. constructor.
  - assert (R4 : rd (enc o) 4 = Ret (be16 (o_code o) ++ be16 (lenN (o_data o)))).
    { unfold rd. rewrite (proj2 (N.leb_le _ _)) by (rewrite Dhcp6_Proofs.len_enc; lia). unfold enc. rewrite app_assoc, takeN_app, takeN_all by (rewrite lenN_app; change (lenN (be16 _)) with 2; lia). rewrite lenN_app. change (lenN (be16 _)) with 2. change (takeN (4 - (2 + lenN (be16 (lenN (o_data o))))) (o_data o)) with (@nil byte). now rewrite app_nil_r. }
    rewrite R4. cbn [obind]. change (dropN 2 (be16 (o_code o) ++ be16 (lenN (o_data o)))) with (be16 (lenN (o_data o))). rewrite get32_2 by apply HO. destruct (fits b (lenN (o_data o))) eqn:EF.
    + apply fits_spec in EF. unfold rd. rewrite Dhcp6_Proofs.len_enc, (proj2 (N.leb_le _ _)) by lia. cbn [obind]. rewrite takeN_all by (rewrite Dhcp6_Proofs.len_enc; lia). unfold emit. rewrite Dhcp6_Proofs.len_enc, (proj2 (N.leb_le _ _)) by lia. cbn [obind].
      destruct (IH (b ++ enc o)) as (os' & E1 & E2 & E3 & E4); [rewrite lenN_app, Dhcp6_Proofs.len_enc; lia|]. exists (o :: os'). rewrite E1, Dhcp6_Proofs.encs_cons, app_assoc. split; [reflexivity|]. split; [now constructor|]. split; [exact E3|].
      intros HL. f_equal. apply E4. rewrite Dhcp6_Proofs.encs_cons, lenN_app in HL. rewrite lenN_app. lia.
    + destruct (IH b HB) as (os' & E1 & E2 & E3 & E4). exists os'. rewrite E1. split; [reflexivity|]. split; [now constructor|]. split; [exact E3|]. intros HL. exfalso. rewrite Dhcp6_Proofs.encs_cons, lenN_app, Dhcp6_Proofs.len_enc in HL.
      assert (fits b (lenN (o_data o)) = true) by (apply fits_spec; lia). congruence.
Qed.
Lemma xid3_bytes x : lenN (xid3 x) = 3 /\ bytes (xid3 x).
Proof. split; [reflexivity|]. repeat (apply Forall_cons || apply Forall_nil); unfold is_byte; apply N.mod_lt; lia. Qed.
Lemma xid3_get x : get32 (xid3 x) < 16777216 /\ xid3 (get32 (xid3 x)) = xid3 x.
Proof.
  unfold xid3 at 1 3 4. assert (A := N.mod_lt (x / 65536) 256). assert (B := N.mod_lt (x / 256) 256). assert (C := N.mod_lt x 256). revert A B C. generalize (x / 65536 mod 256) (x / 256 mod 256) (x mod 256). clear x. intros a b c A B C.
  unfold get32. cbn [fold_left]. rewrite N.mul_0_r, N.add_0_l. split; [lia|]. unfold xid3. repeat f_equal; lia.
Qed.
Lemma time_told_ok c now c' : c_again c' = c_again c -> (c_again c = true -> c_start c' = c_start c) -> time_told c now (elapsed c' now).
Proof.
  intros EA ES. unfold time_told, elapsed. rewrite EA. destruct (c_again c); [|reflexivity]. rewrite ES by reflexivity. intros (S1 & S2) (N1 & N2) HM HD. unfold micros in *. unfold time_diff.
  destruct (c_start c) as [s u]. destruct now as [s' u']. cbn [fst snd] in *. unfold hundredths.
  assert (Q := Z.quot_rem' (u' - u) 10000). assert (R : (- 10000 < Z.rem (u' - u) 10000 < 10000)%Z). { pose proof (Z.rem_bound_abs (u' - u) 10000). lia. }
  set (q := ((u' - u) ÷ 10000)%Z) in *. assert (HQ : (- 100 <= q <= 100)%Z) by lia. assert (E1 : int32 ((s' - s) * 100) = ((s' - s) * 100)%Z) by (unfold int32; rewrite Z.mod_small; lia).
  rewrite E1. assert (E0 : int32 ((s' - s) * 100 + q) = ((s' - s) * 100 + q)%Z) by (unfold int32; rewrite Z.mod_small; lia). rewrite E0.
  destruct (((s' - s) * 100 + q <? 0) || (65535 <? (s' - s) * 100 + q))%Z eqn:E.
  - apply orb_true_iff in E. destruct E as [E|E]; apply Z.ltb_lt in E; [exfalso; lia|]. split; [lia|]. split; [lia|auto].
  - apply orb_false_iff in E. destruct E as [E2 E3]. apply Z.ltb_ge in E2, E3. split; [lia|]. split; [lia|right; lia].
Qed.
Lemma some_of_in {A} (a b : list A) : some_of a b -> forall x, In x a -> In x b.
Proof. induction 1; intros y Hy; [auto|destruct Hy as [-> | Hy]; [now left|right; auto]|right; auto]. Qed.
Lemma some_of_nodup {A B} (f : A -> B) (a b : list A) : some_of a b -> NoDup (map f b) -> NoDup (map f a).
Proof.
  induction 1 as [|x a b H IH|x a b H IH]; intros HN; [constructor| |]; cbn [map] in *; inversion HN as [|? ? Hn Hd]; subst; auto. constructor; [|auto].
  intros Hin. apply Hn. apply in_map_iff in Hin. destruct Hin as (y & E & Hy). apply in_map_iff. exists y. split; [exact E|]. eapply some_of_in; eauto.
Qed.
Lemma len_message t xid os : lenN xid = 3 -> lenN (message t xid os) = 4 + lenN (encs os).
Proof. intros H. unfold message. rewrite lenN_cons, lenN_app. lia. Qed.
(** One message. *)
Theorem send_spec type id now order c os : (forall l, Permutation (order l) l) -> sane c -> tidy c os -> type < 256 ->
  exists c' p t os1 more os2 os', send_msg type id now order c = Ret (c', p) /\ p = message type (if c_again c then xid3 (c_xid c) else xid3 id) (os1 ++ os2) /\ lenN p <= 1496
    /\ time_told c now t /\ t < 65536 /\ flat_map (requested c t) (c_requests c') = os1 ++ more /\ Permutation os' os /\ some_of os2 os'
    /\ ((In 1 (c_requests c) -> c_duid c <> None) -> lenN (encs (os1 ++ more ++ os)) <= 1492 -> more = [] /\ os2 = os')
    /\ (forall r, In r (c_requests c') <-> r = 8 \/ In r (c_requests c)) /\ sane c' /\ tidy c' os /\ c_iaid c' = c_iaid c /\ c_na c' = c_na c /\ c_duid c' = c_duid c /\ c_server c' = c_server c /\ c_again c' = c_again c
    /\ (c_again c = true -> c_xid c' = c_xid c /\ c_start c' = c_start c) /\ (c_again c = false -> xid3 (c_xid c') = xid3 id /\ c_start c' = now).
Proof.
  intros HO HS T HT. unfold send_msg. set (c1 := if c_again c then c else with_xid (get32 (xid3 id)) now c). destruct (xid3_get id) as [HX EX].
  assert (S1 : sane c1) by (unfold c1; destruct (c_again c); [exact HS|]; destruct HS as (A1 & A2 & A3 & A4 & A5 & A6 & A7); unfold sane; cbn [with_xid c_iaid c_na c_requests c_duid c_server c_xid]; auto 10).
  assert (T1 : tidy c1 os) by (eapply tidy_eq; [|exact T]; unfold c1; destruct (c_again c); reflexivity).
  assert (F1 : c_iaid c1 = c_iaid c /\ c_na c1 = c_na c /\ c_requests c1 = c_requests c /\ c_duid c1 = c_duid c /\ c_server c1 = c_server c /\ c_again c1 = c_again c) by (unfold c1; destruct (c_again c) eqn:E; repeat split; auto).
  assert (X1 : xid3 (c_xid c1) = if c_again c then xid3 (c_xid c) else xid3 id) by (unfold c1; destruct (c_again c); [reflexivity|exact EX]).
  assert (Y1 : (c_again c = true -> c_xid c1 = c_xid c /\ c_start c1 = c_start c) /\ (c_again c = false -> xid3 (c_xid c1) = xid3 id /\ c_start c1 = now)) by (unfold c1; split; intros ->; split; try reflexivity; exact EX).
  clearbody c1. destruct F1 as (Fi & Fn & Fr & Fd & Fs & Fa). set (c2 := set_request 8 c1). destruct (set_request_spec 8 c1) as (Gi & Gn & Gs & Gd & Gv & Ga & Gx & Gt). fold c2 in Gi, Gn, Gs, Gd, Gv, Ga, Gx, Gt.
  assert (S2 : sane c2) by (apply set_request_sane; [reflexivity|exact S1]). assert (T2 : tidy c2 os) by (eapply tidy_eq; [exact Gs|exact T1]). assert (R2 := proj2 (set_request_in 8 c1)). fold c2 in R2. rewrite Fr in R2.
  clearbody c2. rewrite N.mod_small by assumption. unfold emit at 1. change (lenN [] + lenN (type :: xid3 (c_xid c2)) <=? 1500) with true. cbn [obind app].
  set (t := elapsed c2 now). destruct (requests_sound c2 t (c_requests c2) S2 (elapsed_lt c2 now) (proj1 (proj2 (proj2 S2))) (type :: xid3 (c_xid c2))) as (os1 & more & E1 & E2 & E3 & E4); [change (lenN (type :: xid3 (c_xid c2))) with 4; lia|].
  rewrite E1. cbn [obind]. pose proof T2 as (TS & TN & TF). rewrite TS, map_map. assert (HP := HO (map (fun x => snd (stored x)) os)). change (map (fun x => snd (stored x)) os) with (map enc os) in *. symmetry in HP. destruct (Permutation_map_inv _ _ (Permutation_sym HP)) as (os' & EO & HP').
  rewrite EO. assert (TF' : Forall small os') by (rewrite Forall_forall in *; intros x Hx; apply TF; eapply Permutation_in; [apply Permutation_sym; exact HP'|exact Hx]).
  destruct (sends_sound os' TF' _ E3) as (os2 & D1 & D2 & D3 & D4). rewrite D1. cbn [obind].
  assert (EP : ((type :: xid3 (c_xid c2)) ++ encs os1) ++ encs os2 = message type (if c_again c then xid3 (c_xid c) else xid3 id) (os1 ++ os2)) by (unfold message; rewrite Dhcp6_Proofs.encs_app, Gx, X1; cbn [app]; now rewrite <- app_assoc).
  exists c2. eexists. exists t, os1, more, os2, os'. split; [reflexivity|]. split; [exact EP|]. split; [exact D3|]. split; [apply time_told_ok; [congruence|intros HA; rewrite Gt; apply Y1; exact HA]|]. split; [apply elapsed_lt|].
  split. { rewrite <- E2. apply flat_map_ext. intros r. unfold requested. now rewrite Gd, Fd, Gv, Fs. }
  split; [now apply Permutation_sym|]. split; [exact D2|]. split.
  { intros HD HL. rewrite !Dhcp6_Proofs.encs_app, !lenN_app in HL. assert (HM : more = []).
    { apply E4; [rewrite Gd, Fd; intros Hin; apply HD; destruct (proj1 (R2 1) Hin) as [H|H]; [discriminate|exact H]|]. change (lenN (type :: xid3 (c_xid c2))) with 4. rewrite Dhcp6_Proofs.encs_app, lenN_app. lia. }
    split; [exact HM|]. apply D4. rewrite lenN_app. change (lenN (type :: xid3 (c_xid c2))) with 4. assert (HE : lenN (encs os') = lenN (encs os)).
    { clear - HP'. induction HP' as [|x a b H IH|x y a|a b d H1 IH1 H2 IH2]; rewrite ?Dhcp6_Proofs.encs_cons, ?lenN_app; lia. }
    lia. }
  split; [exact R2|]. split; [exact S2|]. split; [exact T2|]. split; [congruence|]. split; [congruence|]. split; [congruence|]. split; [congruence|]. split; [congruence|]. rewrite Gx, Gt. exact Y1.
Qed.
