(** What a DHCPv6 client sends: options. *)
From Coq Require Import ZArith Permutation.
From Verif Require Import Base Dhcp6_Spec Dhcp6Send_Model Dhcp6Send_Spec.
From Verif Require Dhcp6_Proofs.
Local Open Scope N_scope.

Lemma put16_be16 n : n < 65536 -> put16 n = be16 n.
Proof. intros H. unfold put16, be16. f_equal. apply N.mod_small. apply N.div_lt_upper_bound; lia. Qed.
Lemma put32_be32 n : uint32 n -> put32 n = be32 n.
Proof. unfold uint32. intros H. unfold put32, be32. f_equal. apply N.mod_small. apply N.div_lt_upper_bound; lia. Qed.
Lemma bytes_app a b : bytes a -> bytes b -> bytes (a ++ b).
Proof. intros. apply Forall_app. auto. Qed.
Lemma bytes_be16 n : n < 65536 -> bytes (be16 n).
Proof. intros H. constructor; [unfold is_byte; apply N.div_lt_upper_bound; lia|constructor; [unfold is_byte; apply N.mod_lt; lia|constructor]]. Qed.
Lemma bytes_put16 n : bytes (put16 n).
Proof. repeat (apply Forall_cons || apply Forall_nil); unfold is_byte; apply N.mod_lt; lia. Qed.
Lemma bytes_put32 n : bytes (put32 n).
Proof. repeat (apply Forall_cons || apply Forall_nil); unfold is_byte; apply N.mod_lt; lia. Qed.
Lemma bytes_be32 n : uint32 n -> bytes (be32 n).
Proof. intros H. rewrite <- put32_be32 by assumption. apply bytes_put32. Qed.
Lemma bytes_zeros n : bytes (zeros n).
Proof. apply Forall_forall. intros x Hx. apply repeat_spec in Hx. subst. unfold is_byte. lia. Qed.
Lemma bytes_take n l : bytes l -> bytes (takeN n l).
Proof. intros H. unfold bytes in *. rewrite Forall_forall in *. intros x Hx. apply H. unfold takeN in Hx. rewrite <- (firstn_skipn (N.to_nat n) l). apply in_or_app. auto. Qed.
Lemma len_zeros n : lenN (zeros n) = n.
Proof. unfold lenN, zeros. rewrite repeat_length. lia. Qed.
Lemma zeros_add a b : zeros (a + b) = zeros a ++ zeros b.
Proof. unfold zeros. rewrite <- repeat_app. f_equal. lia. Qed.
Lemma enc_put o : small o -> put16 (o_code o) ++ put16 (lenN (o_data o)) ++ o_data o = enc o.
Proof. intros (H1 & H2 & _). unfold enc. now rewrite !put16_be16 by assumption. Qed.
Lemma filter_stored code os : filter (fun x => negb (fst x =? code)) (map stored os) = map stored (other code os).
Proof. induction os as [|o os IH]; cbn [map filter other]; [reflexivity|]. cbn [stored fst]. destruct (negb (o_code o =? code)); cbn [map]; rewrite IH; reflexivity. Qed.
Lemma other_small code os : Forall small os -> Forall small (other code os).
Proof. intros H. apply Forall_forall. intros o Ho. apply filter_In in Ho. rewrite Forall_forall in H. apply H. tauto. Qed.
Lemma other_nodup code os : NoDup (map o_code os) -> NoDup (code :: map o_code (other code os)).
Proof.
  intros H. constructor.
  - intros Hin. apply in_map_iff in Hin. destruct Hin as (o & E & Ho). apply filter_In in Ho. destruct Ho as [_ Ho]. rewrite E, N.eqb_refl in Ho. discriminate.
  - induction os as [|o os IH]; cbn [map other filter]; [constructor|]. cbn [map] in H. inversion H as [|? ? Hn Hd]; subst. destruct (negb (o_code o =? code)); cbn [map]; [|auto]. constructor; [|auto].
    intros Hin. apply Hn. apply in_map_iff in Hin. destruct Hin as (o' & E & Ho). apply filter_In in Ho. apply in_map_iff. exists o'. tauto.
Qed.
Lemma set_send_spec code v c os : small (mkOpt code v) -> tidy c os ->
  exists c', set_send code v (lenN v) c = Ret c' /\ tidy c' (mkOpt code v :: other code os) /\ c' = with_sends (map stored (mkOpt code v :: other code os)) c.
Proof.
  intros HS (T1 & T2 & T3). unfold set_send. rewrite N.mod_small by (destruct HS as (_ & H & _); exact H). unfold rd. rewrite (proj2 (N.leb_le _ _)) by lia. cbn [obind]. rewrite takeN_all by lia.
  pose proof (enc_put _ HS) as E. cbn [o_code o_data] in E. rewrite E, T1, filter_stored. eexists. split; [reflexivity|]. split; [|reflexivity]. repeat split.
  - cbn [map o_code]. now apply other_nodup.
  - constructor; [exact HS|now apply other_small].
Qed.
Lemma tidy_small c os code v : tidy c os -> small (mkOpt code v) -> NoDup (map o_code (mkOpt code v :: other code os)) /\ Forall small (mkOpt code v :: other code os).
Proof. intros (T1 & T2 & T3) HS. split; [cbn [map o_code]; now apply other_nodup|constructor; [exact HS|now apply other_small]]. Qed.
Lemma set_request_spec code c : c_iaid (set_request code c) = c_iaid c /\ c_na (set_request code c) = c_na c /\ c_sends (set_request code c) = c_sends c /\ c_duid (set_request code c) = c_duid c /\ c_server (set_request code c) = c_server c
  /\ c_again (set_request code c) = c_again c /\ c_xid (set_request code c) = c_xid c /\ c_start (set_request code c) = c_start c.
Proof. unfold set_request. destruct (existsb _ _); repeat split. Qed.
Lemma set_request_in code c : In code (c_requests (set_request code c)) /\ (forall r, In r (c_requests (set_request code c)) <-> r = code \/ In r (c_requests c)).
Proof.
  unfold set_request. destruct (existsb (N.eqb code) (c_requests c)) eqn:E.
  - apply existsb_exists in E. destruct E as (x & Hx & E). apply N.eqb_eq in E. subst x. split; [assumption|]. intros r. split; [auto|]. intros [-> | H]; auto.
  - cbn [with_requests c_requests In]. split; [auto|]. intros r. split; intros [H|H]; auto.
Qed.
Lemma set_request_sane code c : code < 65536 -> sane c -> sane (set_request code c).
Proof.
  intros HC (S1 & S2 & S3 & S4 & S5). unfold sane. destruct (set_request_spec code c) as (-> & -> & _ & -> & -> & _ & -> & _). split; [exact S1|]. split; [exact S2|].
  unfold set_request. destruct (existsb (N.eqb code) (c_requests c)) eqn:E; [auto|]. cbn [with_requests c_requests]. split; [constructor; assumption|]. split; [|exact S5]. constructor; [|exact S4].
  intros Hin. assert (existsb (N.eqb code) (c_requests c) = true); [|congruence]. apply existsb_exists. exists code. split; [assumption|apply N.eqb_refl].
Qed.
Lemma tidy_eq c c' os : c_sends c' = c_sends c -> tidy c os -> tidy c' os.
Proof. intros E (T1 & T2). split; [congruence|exact T2]. Qed.
(** Identities. *)
Lemma get32_bytes l : bytes l -> lenN l = 4 -> get32 l < 4294967296 /\ put32 (get32 l) = l.
Proof.
  intros H HL. destruct l as [|a [|b [|c [|d [|e l]]]]]; try (exfalso; unfold lenN in HL; cbn [List.length] in HL; lia). inversion H as [|? ? Ha H1]; subst. inversion H1 as [|? ? Hb H2]; subst. inversion H2 as [|? ? Hc H3]; subst. inversion H3 as [|? ? Hd _]; subst.
  unfold is_byte in *. unfold get32. cbn [fold_left]. unfold put32. split; [lia|]. repeat f_equal; lia.
Qed.
Lemma put_iaid_spec mac c : is_mac mac -> uint32 (c_iaid c) -> exists i b, put_iaid (Some mac) c = Ret (with_iaid i c, b) /\ identity c (Some mac) i /\ b = be32 i /\ uint32 i.
Proof.
  intros [HL HB] HU. unfold put_iaid, identity. destruct (c_iaid c =? 0) eqn:E.
  - apply N.eqb_eq in E. destruct mac as [|x [|y m]]; try (exfalso; unfold lenN in HL; cbn [List.length] in HL; lia). assert (HM : lenN m = 4) by (rewrite !lenN_cons in HL; lia).
    assert (BM : bytes m) by (inversion HB as [|? ? _ H]; inversion H; assumption). destruct (get32_bytes m BM HM) as [G1 G2]. change (dropN 2 (x :: y :: m)) with m. rewrite takeN_all by lia.
    do 2 eexists. split; [reflexivity|]. split; [right; split; [exact E|]; exists x, y, m; auto|]. split; [|exact G1]. rewrite <- put32_be32 by exact G1. congruence.
  - apply N.eqb_neq in E. exists (c_iaid c), (put32 (c_iaid c)). split; [destruct c; reflexivity|]. split; [left; auto|]. split; [now apply put32_be32|exact HU].
Qed.
(** Buffers. *)
Lemma wr_mid pre mid post d : lenN d = lenN mid -> wr (pre ++ mid ++ post) (lenN pre) d = Ret (pre ++ d ++ post).
Proof.
  intros H. unfold wr, mem_write. rewrite (proj2 (N.leb_le _ _)) by (len; lia). rewrite takeN_app, takeN_all by lia. replace (takeN (lenN pre - lenN pre) (mid ++ post)) with (@nil byte) by (replace (lenN pre - lenN pre) with 0 by lia; reflexivity).
  rewrite app_nil_r, H. rewrite dropN_app, (dropN_all _ pre) by lia. cbn [app]. replace (lenN pre + lenN mid - lenN pre) with (lenN mid) by lia. rewrite dropN_app, (dropN_all _ mid) by lia. cbn [app].
  replace (lenN mid - lenN mid) with 0 by lia. reflexivity.
Qed.
Lemma wr_at pre mid post d off : off = lenN pre -> lenN d = lenN mid -> wr (pre ++ mid ++ post) off d = Ret (pre ++ d ++ post).
Proof. intros -> H. now apply wr_mid. Qed.
Lemma wr_start mid post d : lenN d = lenN mid -> wr (mid ++ post) 0 d = Ret (d ++ post).
Proof. exact (wr_mid [] mid post d). Qed.
Lemma iaaddr_enc a : lenN a = 16 -> iaaddr a = enc (sub_opt (SAddr a 0 0 [])).
Proof. intros H. unfold iaaddr, enc. cbn [sub_opt o_code o_data]. rewrite takeN_all by lia. rewrite app_nil_r. rewrite !lenN_app, H. reflexivity. Qed.
Lemma len_iaaddr a : lenN a = 16 -> lenN (iaaddr a) = 28.
Proof. intros H. unfold iaaddr. rewrite takeN_all by lia. rewrite !lenN_app, H. reflexivity. Qed.
Fixpoint known (l : list (option (list byte))) : list (list byte) := match l with Some a :: l => a :: known l | _ => [] end.
Lemma append_spec l : forall pre k, all_addresses l -> lenN l * 28 <= k -> append_all l (lenN pre) (pre ++ zeros k) = Ret (pre ++ concat (map iaaddr (known l)) ++ zeros (k - 28 * lenN (known l))).
Proof.
  induction l as [|[a|] l IH]; intros pre k HA HK.
  - cbn [append_all known map concat app]. change (lenN (@nil (list byte))) with 0. do 3 f_equal. lia.
  - inversion HA as [|? ? Ha HA']; subst. destruct Ha as [Hl _]. rewrite lenN_cons in HK. cbn [append_all known map concat]. replace k with (28 + (k - 28)) at 1 by lia. rewrite zeros_add.
    rewrite wr_mid by (rewrite len_iaaddr, len_zeros; auto). cbn [obind]. replace (lenN pre + 28) with (lenN (pre ++ iaaddr a)) by (rewrite lenN_app, len_iaaddr; auto). rewrite app_assoc.
    rewrite IH by (auto; lia). rewrite lenN_cons, <- !app_assoc. rewrite (N.mul_add_distr_l 28 1), N.sub_add_distr. reflexivity.
  - cbn [append_all known map concat app]. change (lenN (@nil (list byte))) with 0. do 3 f_equal. lia.
Qed.
Lemma known_len l : lenN (known l) <= lenN l.
Proof. induction l as [|[a|] l IH]; cbn [known]; rewrite ?lenN_cons; try lia; apply N.le_0_l. Qed.
Lemma known_all l : known (map Some l) = l.
Proof. induction l as [|a l IH]; cbn [map known]; [reflexivity|]. now rewrite IH. Qed.
Lemma known_addr l : all_addresses l -> Forall address (known l).
Proof. induction 1 as [|[a|] l Ha H IH]; cbn [known]; constructor; auto. Qed.
Lemma concat_iaaddr l : Forall address l -> concat (map iaaddr l) = encs (map sub_opt (map (fun a => SAddr a 0 0 []) l)).
Proof. induction 1 as [|a l [Ha _] H IH]; cbn [map concat]; [reflexivity|]. rewrite Dhcp6_Proofs.encs_cons, IH, iaaddr_enc by assumption. reflexivity. Qed.
Lemma zeros_encs n : zeros (4 * n) = encs (repeat (mkOpt 0 []) (N.to_nat n)).
Proof.
  induction n as [|n IH] using N.peano_ind; [reflexivity|]. replace (4 * N.succ n) with (4 + 4 * n) by lia. rewrite zeros_add, IH. rewrite N2Nat.inj_succ. cbn [repeat]. rewrite Dhcp6_Proofs.encs_cons. reflexivity.
Qed.
Lemma bytes_encs os : Forall small os -> bytes (encs os).
Proof.
  induction 1 as [|o os (H1 & H2 & H3) H IH]; [constructor|]. rewrite Dhcp6_Proofs.encs_cons. apply bytes_app; [|exact IH]. unfold enc. apply bytes_app; [now apply bytes_be16|]. apply bytes_app; [now apply bytes_be16|exact H3].
Qed.
Lemma bytes_iaaddr a : bytes a -> bytes (iaaddr a).
Proof. intros H. unfold iaaddr. apply bytes_app; [repeat constructor; unfold is_byte; lia|]. apply bytes_app; [now apply bytes_take|apply bytes_zeros]. Qed.
Lemma len_concat_iaaddr l : Forall address l -> lenN (concat (map iaaddr l)) = 28 * lenN l.
Proof. induction 1 as [|a l [Ha _] H IH]; cbn [map concat]; [reflexivity|]. rewrite lenN_app, IH, lenN_cons, len_iaaddr by assumption. lia. Qed.
Lemma bytes_concat_iaaddr l : Forall address l -> bytes (concat (map iaaddr l)).
Proof. induction 1 as [|a l [_ Ha] H IH]; cbn [map concat]; [constructor|]. apply bytes_app; [now apply bytes_iaaddr|exact IH]. Qed.
(** What set_ias stores, before it is cut off. *)
Definition ias_data (code i : N) (t1 t2 : option N) (l : list (option (list byte))) : list byte :=
  be32 i ++ (if code =? 3 then put32 (or_zero t1) ++ put32 (or_zero t2) else []) ++ concat (map iaaddr (known l)) ++ zeros (28 * (lenN l - lenN (known l))).
Lemma or_zero_uint t : uint32_if t -> uint32 (or_zero t).
Proof. destruct t; cbn; [auto|unfold uint32; lia]. Qed.
Lemma ias_len code i t1 t2 l : all_addresses l -> (code = 3 \/ code = 4) -> lenN (ias_data code i t1 t2 l) = (if code =? 4 then 4 else 12) + lenN l * 28.
Proof.
  intros HA HC. unfold ias_data. pose proof (known_len l) as HK. rewrite !lenN_app, len_zeros, len_concat_iaaddr by (now apply known_addr). change (lenN (be32 i)) with 4.
  destruct HC as [-> | ->].
  - change (lenN (if 3 =? 3 then put32 (or_zero t1) ++ put32 (or_zero t2) else [])) with 8. change (if 3 =? 4 then 4 else 12) with 12. lia.
  - change (lenN (if 4 =? 3 then put32 (or_zero t1) ++ put32 (or_zero t2) else [])) with 0. change (if 4 =? 4 then 4 else 12) with 4. lia.
Qed.
Lemma ias_bytes code i t1 t2 l : all_addresses l -> uint32 i -> bytes (ias_data code i t1 t2 l).
Proof.
  intros HA HI. unfold ias_data. apply bytes_app; [now apply bytes_be32|]. apply bytes_app; [destruct (code =? 3); [apply bytes_app; apply bytes_put32|constructor]|]. apply bytes_app; [apply bytes_concat_iaaddr; now apply known_addr|apply bytes_zeros].
Qed.
Lemma set_send_cut code v c os n : tidy c os -> code < 65536 -> bytes v -> n = lenN v -> exists c', set_send code v n c = Ret c' /\ c' = with_sends (map stored (mkOpt code (takeN (lenN v mod 65536) v) :: other code os)) c /\ tidy c' (mkOpt code (takeN (lenN v mod 65536) v) :: other code os).
Proof.
  intros T HC HB ->. set (w := takeN (lenN v mod 65536) v). assert (HL : lenN w = lenN v mod 65536) by (unfold w; rewrite lenN_takeN; pose proof (N.mod_le (lenN v) 65536); lia).
  assert (HS : small (mkOpt code w)). { repeat split; cbn [o_code o_data]; auto. - rewrite HL. apply N.mod_lt. lia. - now apply bytes_take. }
  destruct (set_send_spec code w c os HS T) as (c' & E & T' & E'). exists c'. split; [|auto]. rewrite <- E. unfold set_send. rewrite HL, N.mod_mod by lia. unfold rd. pose proof (N.mod_le (lenN v) 65536).
  rewrite !(proj2 (N.leb_le _ _)) by lia. cbn [obind]. fold w. rewrite (takeN_all _ w) by lia. reflexivity.
Qed.
Lemma set_ias_spec mac code t1 t2 l c os : is_mac mac -> uint32 (c_iaid c) -> (code = 3 \/ code = 4) -> all_addresses l -> l <> [] -> lenN l < 10000000 -> tidy c os ->
  exists c' i, set_ias (Some mac) code t1 t2 l c = Ret (c', 0) /\ identity c (Some mac) i /\ uint32 i
    /\ c' = with_sends (map stored (mkOpt code (takeN (lenN (ias_data code i t1 t2 l) mod 65536) (ias_data code i t1 t2 l)) :: other code os)) (with_iaid i (set_request code c))
    /\ tidy c' (mkOpt code (takeN (lenN (ias_data code i t1 t2 l) mod 65536) (ias_data code i t1 t2 l)) :: other code os).
Proof.
  intros HM HU HC HA HN HL T. destruct (set_request_spec code c) as (E1 & E2 & E3 & _). assert (HU' : uint32 (c_iaid (set_request code c))) by (rewrite E1; exact HU).
  destruct (put_iaid_spec mac (set_request code c) HM HU') as (i & b & EP & HI & -> & Hi). unfold set_ias. destruct l as [|x l0] eqn:EL; [congruence|]. rewrite <- EL in *. clear HN.
  replace (negb ((code =? 4) || (code =? 3))) with false by (destruct HC as [-> | ->]; reflexivity). set (len := if code =? 4 then 4 else 12). assert (Hlen : len = 4 \/ len = 12) by (unfold len; destruct (code =? 4); auto).
  rewrite (proj2 (N.leb_gt _ _)) by lia. rewrite EP. cbn [obind fst snd].
  assert (W : exists m, (let* m := wr (zeros (len + lenN l * 28)) 0 (be32 i) in let* m0 := append_all l len m in if code =? 3 then let* m1 := wr m0 4 (put32 (or_zero t1)) in wr m1 8 (put32 (or_zero t2)) else Ret m0) = Ret m /\ m = ias_data code i t1 t2 l).
  { pose proof (known_len l) as HK. destruct HC as [-> | ->]; [change len with 12; change (3 =? 3) with true|change len with 4; change (4 =? 3) with false]; cbv iota.
    - replace (12 + lenN l * 28) with (4 + (4 + (4 + lenN l * 28))) by lia. rewrite !zeros_add. rewrite (wr_start (zeros 4) _ (be32 i)) by reflexivity. cbn [obind app].
      replace (be32 i ++ zeros 4 ++ zeros 4 ++ zeros (lenN l * 28)) with ((be32 i ++ zeros 4 ++ zeros 4) ++ zeros (lenN l * 28)) by (now rewrite <- !app_assoc).
      change 12 with (lenN (be32 i ++ zeros 4 ++ zeros 4)). rewrite append_spec by (auto; lia). cbn [obind]. rewrite <- !app_assoc.
      rewrite (wr_at (be32 i) (zeros 4) _ (put32 (or_zero t1)) 4) by reflexivity. cbn [obind]. rewrite (app_assoc (be32 i)). rewrite (wr_at (be32 i ++ put32 (or_zero t1)) (zeros 4) _ (put32 (or_zero t2)) 8) by reflexivity.
      eexists. split; [reflexivity|]. unfold ias_data. change (3 =? 3) with true. cbv iota. rewrite <- !app_assoc. do 5 f_equal. lia.
    - replace (4 + lenN l * 28) with (4 + (lenN l * 28)) by lia. rewrite zeros_add. rewrite (wr_start (zeros 4) _ (be32 i)) by reflexivity. cbn [obind app]. change 4 with (lenN (be32 i)) at 1. rewrite append_spec by (auto; lia). cbn [obind].
      eexists. split; [reflexivity|]. unfold ias_data. change (4 =? 3) with false. cbn [app]. do 3 f_equal. lia. }
  destruct W as (m & W & ->).
  pose proof (ias_len code i t1 t2 l HA HC) as IL. fold len in IL.
  assert (T' : tidy (with_iaid i (set_request code c)) os) by (eapply tidy_eq; [|exact T]; exact E3).
  destruct (set_send_cut code (ias_data code i t1 t2 l) (with_iaid i (set_request code c)) os (len + lenN l * 28) T') as (c' & S1 & S2 & S3); [destruct HC as [-> | ->]; lia|now apply ias_bytes|congruence|].
  exists c', i. split.
  { destruct (wr (zeros (len + lenN l * 28)) 0 (be32 i)) as [m1| |]; cbn [obind] in W |- *; try discriminate. destruct (append_all l len m1) as [m2| |]; cbn [obind] in W |- *; try discriminate. rewrite W. cbn [obind]. rewrite S1. reflexivity. }
  split; [|auto]. unfold identity in *. rewrite E1 in HI. exact HI.
Qed.
