(** What a DHCPv6 client sends: the functions that set options. *)
From Coq Require Import ZArith Permutation.
From Verif Require Import Base Dhcp6_Spec Dhcp6Send_Model Dhcp6Send_Spec Dhcp6Send_Proofs.
From Verif Require Dhcp6_Proofs.
Local Open Scope N_scope.

Lemma mk_small code v : code < 65536 -> lenN v < 65536 -> bytes v -> small (mkOpt code v).
Proof. unfold small. auto. Qed.
Lemma times t1 t2 : uint32_if t1 -> uint32_if t2 -> put32 (or_zero t1) ++ put32 (or_zero t2) = be32 (or_zero t1) ++ be32 (or_zero t2).
Proof. intros H1 H2. now rewrite !put32_be32 by (now apply or_zero_uint). Qed.
Lemma ias_exact code i t1 t2 l : (code = 3 \/ code = 4) -> uint32_if t1 -> uint32_if t2 -> Forall address l ->
  ias_data code i t1 t2 (map Some l) = ia_data code i (or_zero t1) (or_zero t2) (map (fun a => SAddr a 0 0 []) l).
Proof.
  intros HC H1 H2 HA. unfold ias_data, ia_data. rewrite known_all, times, concat_iaaddr by assumption. unfold lenN at 1. rewrite map_length. fold (lenN l). replace (28 * (lenN l - lenN l)) with 0 by lia. change (zeros 0) with (@nil byte). rewrite app_nil_r.
  destruct HC as [-> | ->]; reflexivity.
Qed.
Lemma map_some_addr l : Forall address l -> all_addresses (map Some l).
Proof. induction 1; cbn [map]; constructor; auto. Qed.
Lemma len_map {A B} (f : A -> B) l : lenN (map f l) = lenN l.
Proof. unfold lenN. now rewrite map_length. Qed.
Lemma kept_request code c : kept c (set_request code c).
Proof. destruct (set_request_spec code c) as (_ & _ & _ & E1 & E2 & E3 & E4 & E5). repeat split; assumption. Qed.
Lemma sane_more c i a s : sane c -> uint32 i -> address a -> sane (with_sends s (with_iaid i (with_na a c))).
Proof. intros (S1 & S2 & S3) HI HA. split; [exact HI|]. split; [exact HA|exact S3]. Qed.
Lemma sane_ids c i s : sane c -> uint32 i -> sane (with_sends s (with_iaid i c)).
Proof. intros (S1 & S2) HI. split; [exact HI|exact S2]. Qed.
Lemma other_table code os : Forall table_code os -> Forall table_code (other code os).
Proof. intros H. apply Forall_forall. intros o Ho. apply filter_In in Ho. rewrite Forall_forall in H. apply H. tauto. Qed.
(** Several addresses. *)
Theorem set_ias_exact mac code t1 t2 l c os : is_mac mac -> sane c -> tidy c os -> (code = 3 \/ code = 4) -> uint32_if t1 -> uint32_if t2 -> Forall address l -> 1 <= lenN l <= 2340 ->
  exists c' i, set_ias (Some mac) code t1 t2 (map Some l) c = Ret (c', 0) /\ identity c (Some mac) i /\ c_iaid c' = i /\ kept c c' /\ asks (mkOpt code (ia_data code i (or_zero t1) (or_zero t2) (map (fun a => SAddr a 0 0 []) l))) c os c'.
Proof.
  intros HM HS T HC H1 H2 HA HL. pose proof (map_some_addr l HA) as HA'. assert (HN : map (@Some (list byte)) l <> []) by (destruct l; [exfalso; change (lenN (@nil (list byte))) with 0 in HL; lia|discriminate]).
  destruct (set_ias_spec mac code t1 t2 (map Some l) c os HM (proj1 HS) HC HA' HN) as (c' & i & E & HI & Hi & EC & T'); [rewrite len_map; lia|exact T|]. exists c', i. split; [exact E|]. split; [exact HI|].
  rewrite takeN_all in EC, T' by (rewrite N.mod_small; [lia|]; rewrite ias_len by assumption; rewrite len_map; destruct HC as [-> | ->]; [change (if 3 =? 4 then 4 else 12) with 12|change (if 4 =? 4 then 4 else 12) with 4]; lia).
  rewrite ias_exact in EC, T' by assumption. subst c'. split; [reflexivity|]. split; [apply kept_request|]. split; [exact T'|]. apply set_request_in.
Qed.
Lemma set_ias_any mac code t1 t2 l c os : is_mac mac -> sane c -> tidy c os -> code < 65536 -> all_addresses l -> lenN l < 10000000 ->
  exists c' r os', set_ias (Some mac) code t1 t2 l c = Ret (c', r) /\ sane c' /\ tidy c' os' /\ (Forall table_code os -> Forall table_code os') /\ kept c c' /\ (c_iaid c <> 0 -> c_iaid c' = c_iaid c).
Proof.
  intros HM HS T HC HA HL. destruct l as [|x l0] eqn:EL; [exists c, EINVAL, os; split; [reflexivity|]; split; [exact HS|]; split; [exact T|]; split; [auto|]; repeat split|].
  rewrite <- EL in *. assert (HN : l <> []) by (rewrite EL; discriminate).
  destruct (N.eq_dec code 3) as [E3|N3]; [|destruct (N.eq_dec code 4) as [E4|N4]].
  1,2: destruct (set_ias_spec mac code t1 t2 l c os HM (proj1 HS)) as (c' & i & E & HI & Hi & EC & T'); auto;
    exists c', 0; eexists; split; [exact E|]; split; [subst c'; apply sane_ids; [apply set_request_sane; assumption|exact Hi]|]; split; [exact T'|]; split; [intros HT; constructor; [red; cbn; subst code; auto|now apply other_table]|]; split; [subst c'; apply kept_request|];
    intros H; subst c'; cbn [with_sends with_iaid c_iaid]; destruct HI as [[_ ->] | [H0 _]]; [reflexivity|congruence].
  exists (set_request code c), EINVAL, os. unfold set_ias. rewrite EL. rewrite (proj2 (N.eqb_neq _ _) N3), (proj2 (N.eqb_neq _ _) N4). split; [reflexivity|]. split; [now apply set_request_sane|]. split; [eapply tidy_eq; [|exact T]; apply set_request_spec|]. split; [auto|]. split; [apply kept_request|].
  intros _. apply set_request_spec.
Qed.
(** One address. *)
Lemma unspecified_dec a : existsb (fun b => negb (b =? 0)) a = false <-> unspecified a.
Proof.
  unfold unspecified. rewrite Forall_forall. split.
  - intros H x Hx. destruct (N.eq_dec x 0) as [|Hn]; [assumption|]. exfalso. assert (existsb (fun b => negb (b =? 0)) a = true); [|congruence]. apply existsb_exists. exists x. split; [assumption|]. apply negb_true_iff, N.eqb_neq. assumption.
  - intros H. destruct (existsb _ a) eqn:E; [|reflexivity]. apply existsb_exists in E. destruct E as (x & Hx & E). rewrite (H x Hx) in E. discriminate.
Qed.
Theorem set_ia_na mac t1 t2 add ia_na w c os : is_mac mac -> sane c -> tidy c os -> uint32_if t1 -> uint32_if t2 -> (forall a, ia_na = Some (Some a) -> address a) -> wished c add ia_na w ->
  exists c' i, set_ia (Some mac) 3 t1 t2 add ia_na c = Ret (c', 0) /\ identity c (Some mac) i /\ c_iaid c' = i /\ kept c c' /\ sane c'
    /\ asks (mkOpt 3 (match w with Some a => ia_data 3 i (or_zero t1) (or_zero t2) [SAddr a 0 0 []] | None => ia_data 3 i 0 0 [] end)) c os c'
    /\ c_na c' = match w with Some a => a | None => c_na c end.
Proof.
  intros HM HS T H1 H2 HA HW. destruct (set_request_spec 3 c) as (E1 & E2 & E3 & _).
  assert (HR : sane (set_request 3 c)) by (apply set_request_sane; [reflexivity|exact HS]).
  unfold set_ia. change (3 =? 4) with false. change (3 =? 3) with true. cbv iota zeta. rewrite E2.
  assert (NONE : exists c' i, (let* x := put_iaid (Some mac) (set_request 3 c) in let* c0 := set_send 3 (snd x ++ zeros 8) 12 (fst x) in Ret (c0, 0)) = Ret (c', 0) /\ identity c (Some mac) i /\ c_iaid c' = i /\ kept c c' /\ sane c'
    /\ asks (mkOpt 3 (ia_data 3 i 0 0 [])) c os c' /\ c_na c' = c_na c).
  { destruct (put_iaid_spec mac (set_request 3 c) HM (proj1 HR)) as (i & b & EP & HI & -> & Hi). rewrite EP. cbn [obind fst snd].
    assert (HSm : small (mkOpt 3 (be32 i ++ zeros 8))). { apply mk_small; [lia|rewrite lenN_app, len_zeros; change (lenN (be32 i)) with 4; lia|apply bytes_app; [now apply bytes_be32|apply bytes_zeros]]. }
    destruct (set_send_spec 3 (be32 i ++ zeros 8) (with_iaid i (set_request 3 c)) os HSm) as (c' & ES & T' & EC); [eapply tidy_eq; [|exact T]; exact E3|]. change (lenN (be32 i ++ zeros 8)) with 12 in ES. rewrite ES. cbn [obind].
    exists c', i. split; [reflexivity|]. split; [unfold identity in *; rewrite E1 in HI; exact HI|]. subst c'. split; [reflexivity|]. split; [apply kept_request|]. split; [apply sane_ids; assumption|].
    split; [split; [exact T'|apply set_request_in]|exact E2]. }
  assert (SOME : forall a (c1 : client), address a -> c_na c1 = a -> c_sends c1 = c_sends c -> c_iaid c1 = c_iaid c -> kept c c1 -> sane c1 -> (forall r, In r (c_requests c1) <-> r = 3 \/ In r (c_requests c)) ->
    exists c' i, (let* x := put_iaid (Some mac) c1 in let* c0 := set_send 3 (snd x ++ put32 (or_zero t1) ++ put32 (or_zero t2) ++ iaaddr (c_na c1)) 40 (fst x) in Ret (c0, 0)) = Ret (c', 0) /\ identity c (Some mac) i /\ c_iaid c' = i /\ kept c c' /\ sane c'
    /\ asks (mkOpt 3 (ia_data 3 i (or_zero t1) (or_zero t2) [SAddr a 0 0 []])) c os c' /\ c_na c' = a).
  { intros a c1 Ha EN ES EI HK HS1 HR1. destruct (put_iaid_spec mac c1 HM (proj1 HS1)) as (i & b & EP & HI & -> & Hi). rewrite EP. cbn [obind fst snd].
    rewrite EN, (app_assoc (put32 _)), times, iaaddr_enc by (try apply Ha; assumption). replace (enc (sub_opt (SAddr a 0 0 []))) with (encs (map sub_opt [SAddr a 0 0 []])) by (cbn [map]; rewrite Dhcp6_Proofs.encs_cons; apply app_nil_r).
    change (be32 i ++ (be32 (or_zero t1) ++ be32 (or_zero t2)) ++ encs (map sub_opt [SAddr a 0 0 []])) with (ia_data 3 i (or_zero t1) (or_zero t2) [SAddr a 0 0 []]).
    set (v := ia_data 3 i (or_zero t1) (or_zero t2) [SAddr a 0 0 []]). assert (HL : lenN v = 40).
    { unfold v, ia_data. rewrite !lenN_app. change (encs (map sub_opt [SAddr a 0 0 []])) with (enc (sub_opt (SAddr a 0 0 [])) ++ []). rewrite app_nil_r, Dhcp6_Proofs.len_enc. cbn [sub_opt o_data]. rewrite !lenN_app, (proj1 Ha). reflexivity. }
    assert (HSm : small (mkOpt 3 v)). { split; [cbn; lia|]. cbn [o_data]. split; [rewrite HL; lia|]. unfold v, ia_data. apply bytes_app; [now apply bytes_be32|]. apply bytes_app; [apply bytes_app; apply bytes_be32; now apply or_zero_uint|].
      change (encs (map sub_opt [SAddr a 0 0 []])) with (enc (sub_opt (SAddr a 0 0 [])) ++ []). rewrite app_nil_r, <- iaaddr_enc by apply Ha. apply bytes_iaaddr, Ha. }
    destruct (set_send_spec 3 v (with_iaid i c1) os HSm) as (c' & ES' & T' & EC); [eapply tidy_eq; [|exact T]; exact ES|]. rewrite HL in ES'. rewrite ES'. cbn [obind]. exists c', i. split; [reflexivity|].
    split; [unfold identity in *; rewrite EI in HI; exact HI|]. subst c'. split; [reflexivity|]. split; [exact HK|]. split; [apply sane_ids; assumption|]. split; [split; [exact T'|exact HR1]|exact EN]. }
  destruct HW as [a| |a|HZ|HZ].
  - exact NONE.
  - exact NONE.
  - apply SOME; auto.
    + apply kept_request.
    + destruct HR as (S1 & S2 & S3). split; [exact S1|]. split; [auto|exact S3].
    + apply set_request_in.
  - rewrite (proj2 (unspecified_dec _) HZ). exact NONE.
  - destruct (existsb (fun b => negb (b =? 0)) (c_na c)) eqn:EX; [|exfalso; apply HZ, unspecified_dec, EX]. apply SOME; auto; [apply HS|apply kept_request|apply set_request_in].
Qed.
Theorem set_ia_ta mac t1 t2 add ia_na c os : is_mac mac -> sane c -> tidy c os ->
  exists c' i, set_ia (Some mac) 4 t1 t2 add ia_na c = Ret (c', 0) /\ identity c (Some mac) i /\ c_iaid c' = i /\ kept c c' /\ sane c' /\ asks (mkOpt 4 (ia_data 4 i 0 0 [])) c os c' /\ c_na c' = c_na c.
Proof.
  intros HM HS T. unfold set_ia. change (4 =? 4) with true. cbv iota. destruct (put_iaid_spec mac c HM (proj1 HS)) as (i & b & EP & HI & -> & Hi). rewrite EP. cbn [obind fst snd].
  destruct (set_request_spec 4 (with_iaid i c)) as (E1 & E2 & E3 & _).
  assert (HSm : small (mkOpt 4 (be32 i))) by (apply mk_small; [lia|change (lenN (be32 i)) with 4; lia|now apply bytes_be32]).
  destruct (set_send_spec 4 (be32 i) (set_request 4 (with_iaid i c)) os HSm) as (c' & ES & T' & EC); [eapply tidy_eq; [|exact T]; exact E3|]. change (lenN (be32 i)) with 4 in ES. rewrite ES. cbn [obind]. exists c', i. split; [reflexivity|]. split; [exact HI|].
  subst c'. split; [exact E1|]. split; [exact (kept_request 4 (with_iaid i c))|]. split.
  { change (sane (with_sends (map stored (mkOpt 4 (be32 i) :: other 4 os)) (with_iaid (c_iaid (set_request 4 (with_iaid i c))) (set_request 4 (with_iaid i c))))). apply sane_ids; [|rewrite E1; exact Hi].
    apply set_request_sane; [reflexivity|]. split; [exact Hi|exact (proj2 HS)]. }
  split; [split|exact E2].
  - change (ia_data 4 i 0 0 []) with (be32 i ++ []). rewrite app_nil_r. exact T'.
  - exact (proj2 (set_request_in 4 (with_iaid i c))).
Qed.
Lemma set_ia_other mac code t1 t2 add a c : code <> 3 -> code <> 4 -> set_ia mac code t1 t2 add a c = Ret (c, EINVAL).
Proof. intros H3 H4. unfold set_ia. now rewrite (proj2 (N.eqb_neq _ _) H4), (proj2 (N.eqb_neq _ _) H3). Qed.
(** Prefixes. *)
Definition prefix_sub (x : N * list byte) : sub := SPrefix 0 0 (fst x mod 256) (snd x) [].
Definition prefix_bytes (x : N * list byte) : list byte := put16 26 ++ put16 25 ++ zeros 8 ++ [fst x mod 256] ++ takeN 16 (snd x).
Lemma prefix_enc x : address (snd x) -> prefix_bytes x = enc (sub_opt (prefix_sub x)).
Proof. intros [H _]. unfold prefix_bytes, enc. cbn [prefix_sub sub_opt o_code o_data]. rewrite takeN_all by lia. rewrite app_nil_r. rewrite !lenN_app, H. reflexivity. Qed.
Lemma len_prefix x : address (snd x) -> lenN (prefix_bytes x) = 29.
Proof. intros [H _]. unfold prefix_bytes. rewrite takeN_all by lia. rewrite !lenN_app, H. reflexivity. Qed.
Lemma bytes_prefix x : address (snd x) -> bytes (prefix_bytes x).
Proof.
  intros [_ H]. unfold prefix_bytes. apply bytes_app; [apply bytes_put16|]. apply bytes_app; [apply bytes_put16|]. apply bytes_app; [apply bytes_zeros|]. apply bytes_app; [|now apply bytes_take].
  constructor; [unfold is_byte; apply N.mod_lt; lia|constructor].
Qed.
Lemma prefixes_fit l : forall pre k, Forall (fun x => address (snd x)) l -> lenN pre + k = 1452 -> lenN pre + 29 * lenN l < 1452 ->
  put_prefixes l (lenN pre) (pre ++ zeros k) = Ret (Some (lenN pre + 29 * lenN l, pre ++ concat (map prefix_bytes l) ++ zeros (k - 29 * lenN l))).
Proof.
  induction l as [|[n a] l IH]; intros pre k HA HK HF; cbn [put_prefixes map concat].
  - cbn [app]. change (lenN (@nil (N * list byte))) with 0. change (29 * 0) with 0. rewrite N.sub_0_r, N.add_0_r. reflexivity.
  - inversion HA as [|? ? Ha HA']; subst. rewrite lenN_cons in HF. rewrite (proj2 (N.leb_gt _ _)) by lia. fold (prefix_bytes (n, a)). replace k with (29 + (k - 29)) at 1 by lia. rewrite zeros_add.
    change (put16 26 ++ put16 25 ++ zeros 8 ++ [n mod 256] ++ takeN 16 a) with (prefix_bytes (n, a)). rewrite wr_mid by (rewrite len_prefix, len_zeros; auto). cbn [obind].
    replace (lenN pre + 29) with (lenN (pre ++ prefix_bytes (n, a))) by (rewrite lenN_app, len_prefix; auto). rewrite app_assoc.
    rewrite IH; [|assumption|rewrite lenN_app, len_prefix by assumption; lia|rewrite lenN_app, len_prefix by assumption; lia]. rewrite lenN_cons, !lenN_app, len_prefix by assumption. rewrite <- !app_assoc.
    replace (k - 29 - 29 * lenN l) with (k - 29 * (1 + lenN l)) by lia. replace (lenN pre + 29 + 29 * lenN l) with (lenN pre + 29 * (1 + lenN l)) by lia. reflexivity.
Qed.
Lemma prefixes_full l : forall pre k, Forall (fun x => address (snd x)) l -> lenN pre + k = 1452 -> lenN pre < 1452 -> 1452 <= lenN pre + 29 * lenN l -> put_prefixes l (lenN pre) (pre ++ zeros k) = Ret None.
Proof.
  induction l as [|[n a] l IH]; intros pre k HA HK HF HL; cbn [put_prefixes].
  - change (lenN (@nil (N * list byte))) with 0 in HL. lia.
  - inversion HA as [|? ? Ha HA']; subst. rewrite lenN_cons in HL. destruct (1452 <=? lenN pre + 29) eqn:E; [reflexivity|]. apply N.leb_gt in E. replace k with (29 + (k - 29)) at 1 by lia. rewrite zeros_add.
    change (put16 26 ++ put16 25 ++ zeros 8 ++ [n mod 256] ++ takeN 16 a) with (prefix_bytes (n, a)). rewrite wr_mid by (rewrite len_prefix, len_zeros; auto). cbn [obind].
    replace (lenN pre + 29) with (lenN (pre ++ prefix_bytes (n, a))) by (rewrite lenN_app, len_prefix; auto). rewrite app_assoc. apply IH; auto; rewrite lenN_app, len_prefix by assumption; lia.
Qed.
Lemma concat_prefix l : Forall (fun x => address (snd x)) l -> concat (map prefix_bytes l) = encs (map sub_opt (map prefix_sub l)).
Proof. induction 1 as [|x l Hx H IH]; cbn [map concat]; [reflexivity|]. rewrite Dhcp6_Proofs.encs_cons, IH, prefix_enc by assumption. reflexivity. Qed.
Lemma len_prefixes l : Forall (fun x => address (snd x)) l -> lenN (concat (map prefix_bytes l)) = 29 * lenN l.
Proof. induction 1 as [|x l Hx H IH]; cbn [map concat]; [reflexivity|]. rewrite lenN_app, IH, lenN_cons, len_prefix by assumption. lia. Qed.
Lemma bytes_prefixes l : Forall (fun x => address (snd x)) l -> bytes (concat (map prefix_bytes l)).
Proof. induction 1 as [|x l Hx H IH]; cbn [map concat]; [constructor|]. apply bytes_app; [now apply bytes_prefix|exact IH]. Qed.
Lemma pd_head i t1 t2 : exists m, (let* m := wr (zeros 1452) 0 (put32 i) in let* m := (match t1 with Some t => wr m 4 (put32 t) | None => Ret m end) in match t2 with Some t => wr m 8 (put32 t) | None => Ret m end) = Ret m
  /\ m = (put32 i ++ put32 (or_zero t1) ++ put32 (or_zero t2)) ++ zeros 1440.
Proof.
  change (zeros 1452) with (zeros (4 + (4 + (4 + 1440)))). rewrite !zeros_add. rewrite (wr_start (zeros 4) _ (put32 i)) by reflexivity. cbn [obind].
  destruct t1 as [t1|]; [rewrite (wr_at (put32 i) (zeros 4) _ (put32 t1) 4) by reflexivity; cbn [obind or_zero]|cbn [obind or_zero]; change (put32 0) with (zeros 4)].
  - destruct t2 as [t2|].
    + rewrite (app_assoc (put32 i)), (wr_at (put32 i ++ put32 t1) (zeros 4) _ (put32 t2) 8) by reflexivity. eexists. split; [reflexivity|]. now rewrite <- !app_assoc.
    + eexists. split; [reflexivity|]. now rewrite <- !app_assoc.
  - destruct t2 as [t2|].
    + rewrite (app_assoc (put32 i)), (wr_at (put32 i ++ zeros 4) (zeros 4) _ (put32 t2) 8) by reflexivity. eexists. split; [reflexivity|]. now rewrite <- !app_assoc.
    + eexists. split; [reflexivity|]. now rewrite <- !app_assoc.
Qed.
Lemma set_send_prefix code v n c : n <= lenN v -> set_send code v n c = set_send code (takeN n v) n c.
Proof.
  intros H. unfold set_send. pose proof (N.mod_le n 65536). assert (HL : lenN (takeN n v) = n) by (rewrite lenN_takeN; lia). unfold rd. rewrite HL. rewrite !(proj2 (N.leb_le _ _)) by lia. cbn [obind].
  replace (takeN (n mod 65536) (takeN n v)) with (takeN (n mod 65536) v); [reflexivity|]. unfold takeN. rewrite firstn_firstn. f_equal. lia.
Qed.
Theorem set_pd_exact t1 t2 l c os : sane c -> tidy c os -> uint32_if t1 -> uint32_if t2 -> Forall (fun x => address (snd x)) l -> lenN l <= 49 ->
  exists c', set_pd t1 t2 l c = Ret (c', 0) /\ c_iaid c' = c_iaid c /\ kept c c' /\ sane c' /\ asks (mkOpt 25 (ia_data 25 (c_iaid c) (or_zero t1) (or_zero t2) (map (fun x => SPrefix 0 0 (fst x mod 256) (snd x) []) l))) c os c'.
Proof.
  intros HS T H1 H2 HA HL. destruct (set_request_spec 25 c) as (E1 & E2 & E3 & _). unfold set_pd. rewrite E1. destruct (pd_head (c_iaid c) t1 t2) as (m & EM & ->).
  destruct (wr (zeros 1452) 0 (put32 (c_iaid c))) as [m1| |]; cbn [obind] in EM |- *; try discriminate. destruct (match t1 with Some t => wr m1 4 (put32 t) | None => Ret m1 end) as [m2| |]; cbn [obind] in EM |- *; try discriminate. rewrite EM. cbn [obind]. clear EM m1 m2.
  set (h := put32 (c_iaid c) ++ put32 (or_zero t1) ++ put32 (or_zero t2)). change 12 with (lenN h). rewrite prefixes_fit by (auto; change (lenN h) with 12; lia). cbn [obind]. change (lenN h) with 12.
  rewrite set_send_prefix by (len; rewrite len_zeros, len_prefixes by assumption; change (lenN h) with 12; lia).
  set (d := ia_data 25 (c_iaid c) (or_zero t1) (or_zero t2) (map prefix_sub l)).
  assert (HD : takeN (12 + 29 * lenN l) (h ++ concat (map prefix_bytes l) ++ zeros (1440 - 29 * lenN l)) = d).
  { rewrite app_assoc, takeN_app, takeN_all by (rewrite lenN_app, len_prefixes by assumption; change (lenN h) with 12; lia). rewrite lenN_app, len_prefixes by assumption. change (lenN h) with 12. rewrite N.sub_diag. change (takeN 0 ?x) with (@nil byte). rewrite app_nil_r.
    unfold d, ia_data. change (timed 25) with true. cbv iota. unfold h. rewrite times by assumption. rewrite put32_be32 by apply HS. rewrite concat_prefix by assumption. now rewrite <- !app_assoc. }
  assert (LD : lenN d = 12 + 29 * lenN l).
  { rewrite <- HD, lenN_takeN. len. rewrite len_zeros, len_prefixes by assumption. change (lenN h) with 12. lia. }
  rewrite HD, <- LD. assert (HSm : small (mkOpt 25 d)).
  { apply mk_small; [lia|rewrite LD; lia|]. rewrite <- HD. apply bytes_take. apply bytes_app; [unfold h; apply bytes_app; [|apply bytes_app]; apply bytes_put32|]. apply bytes_app; [now apply bytes_prefixes|apply bytes_zeros]. }
  destruct (set_send_spec 25 d (set_request 25 c) os HSm) as (c' & ES & T' & EC); [eapply tidy_eq; [|exact T]; exact E3|]. rewrite ES. cbn [obind]. exists c'. split; [reflexivity|]. subst c'. split; [exact E1|]. split; [apply kept_request|]. split.
  - exact (sane_ids (set_request 25 c) (c_iaid (set_request 25 c)) _ (set_request_sane 25 c eq_refl HS) (eq_ind_r uint32 (proj1 HS) E1)).
  - split; [exact T'|apply set_request_in].
Qed.
Theorem set_pd_many t1 t2 l c : Forall (fun x => address (snd x)) l -> 50 <= lenN l -> set_pd t1 t2 l c = Ret (set_request 25 c, EINVAL).
Proof.
  intros HA HL. destruct (set_request_spec 25 c) as (E1 & E2 & E3 & _). unfold set_pd. rewrite E1. destruct (pd_head (c_iaid c) t1 t2) as (m & EM & ->).
  destruct (wr (zeros 1452) 0 (put32 (c_iaid c))) as [m1| |]; cbn [obind] in EM |- *; try discriminate. destruct (match t1 with Some t => wr m1 4 (put32 t) | None => Ret m1 end) as [m2| |]; cbn [obind] in EM |- *; try discriminate. rewrite EM. cbn [obind]. clear EM m1 m2.
  set (h := put32 (c_iaid c) ++ put32 (or_zero t1) ++ put32 (or_zero t2)). change 12 with (lenN h). rewrite prefixes_full by (auto; change (lenN h) with 12; lia). reflexivity.
Qed.
Theorem set_pd_refused t1 t2 l c : Forall (fun x => address (snd x)) l -> 50 <= lenN l -> exists c', set_pd t1 t2 l c = Ret (c', EINVAL) /\ c_sends c' = c_sends c /\ c_iaid c' = c_iaid c /\ kept c c'.
Proof. intros HA HL. exists (set_request 25 c). split; [now apply set_pd_many|]. split; [apply set_request_spec|]. split; [apply set_request_spec|apply kept_request]. Qed.
(** Codes. *)
Lemma concat_put16 l : lenN (concat (map put16 l)) = 2 * lenN l /\ bytes (concat (map put16 l)).
Proof. induction l as [|x l [IH1 IH2]]; cbn [map concat]; [split; [reflexivity|constructor]|]. split; [rewrite lenN_app, IH1, lenN_cons; change (lenN (put16 x)) with 2; lia|]. apply bytes_app; [apply bytes_put16|exact IH2]. Qed.
Lemma concat_be16 l : Forall (fun x => x < 65536) l -> concat (map put16 l) = concat (map be16 l).
Proof. induction 1 as [|x l Hx H IH]; cbn [map concat]; [reflexivity|]. now rewrite put16_be16, IH by assumption. Qed.
Theorem set_oro_exact l c os : tidy c os -> Forall (fun x => x < 65536) l -> 1 <= lenN l <= 32767 ->
  exists c', set_oro l c = Ret (c', 0) /\ c_iaid c' = c_iaid c /\ kept c c' /\ c_requests c' = c_requests c /\ tidy c' (mkOpt 6 (concat (map be16 l)) :: other 6 os).
Proof.
  intros T HA HL. destruct (concat_put16 l) as [L B]. unfold set_oro. destruct l as [|x l0] eqn:EL; [change (lenN (@nil N)) with 0 in HL; lia|]. rewrite <- EL in *. rewrite (proj2 (N.leb_gt _ _)) by lia.
  assert (HSm : small (mkOpt 6 (concat (map put16 l)))) by (apply mk_small; [lia|lia|exact B]). destruct (set_send_spec 6 _ c os HSm T) as (c' & ES & T' & EC). rewrite L in ES. rewrite ES. cbn [obind]. exists c'. split; [reflexivity|].
  rewrite <- concat_be16 by assumption. subst c'. repeat split; try reflexivity; apply T'.
Qed.
Lemma set_oro_any l c os : sane c -> tidy c os -> exists c' r os', set_oro l c = Ret (c', r) /\ sane c' /\ tidy c' os' /\ (Forall table_code os -> Forall table_code os') /\ kept c c' /\ c_iaid c' = c_iaid c.
Proof.
  intros HS T. destruct (concat_put16 l) as [L B]. unfold set_oro. destruct l as [|x l0] eqn:EL; [exists c, ENOMEM, os; repeat split; try reflexivity; try apply HS; try apply T; auto|]. rewrite <- EL in *.
  destruct (2147483648 <=? 2 * lenN l); [exists c, ENOMEM, os; repeat split; try reflexivity; try apply HS; try apply T; auto|].
  destruct (set_send_cut 6 (concat (map put16 l)) c os (2 * lenN l) T) as (c' & ES & EC & T'); [lia|exact B|congruence|]. rewrite ES. cbn [obind]. exists c', 0. eexists. split; [reflexivity|]. split; [subst c'; exact HS|]. split; [exact T'|]. split; [intros HT; constructor; [red; cbn; auto|now apply other_table]|]. subst c'. repeat split.
Qed.
