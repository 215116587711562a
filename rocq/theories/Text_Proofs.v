(** Decimal numbers: digits, value, and reading them back. *)
From Verif Require Import Base Atoi_Model Atoi_Spec Atoi_Proofs Qstr_Model Qstr_Proofs Text.

Lemma size_bound n : n < 2 ^ N.of_nat (S (N.size_nat n)).
Proof.
  destruct n as [|p]; [reflexivity|]. rewrite Nnat.Nat2N.inj_succ, N.pow_succ_r'.
  assert (H : N.pos p < 2 ^ N.of_nat (N.size_nat (N.pos p))).
  { cbn [N.size_nat]. induction p as [p IH|p IH|]; cbn [Pos.size_nat].
    - rewrite Nnat.Nat2N.inj_succ, N.pow_succ_r'. lia.
    - rewrite Nnat.Nat2N.inj_succ, N.pow_succ_r'. lia.
    - reflexivity. }
  lia.
Qed.
(** The digit values of [n]. *)
Lemma dec_loop_spec f : forall n acc accv, n < 2 ^ N.of_nat f -> Forall2 (digit 10) acc accv ->
  exists vs, Forall2 (digit 10) (dec_loop f n acc) (vs ++ accv) /\ num 10 vs = n /\ (f <> 0%nat -> dec_loop f n acc <> []).
Proof.
  induction f as [|f IH]; intros n acc accv Hn F.
  - exists []. change (2 ^ N.of_nat 0) with 1 in Hn. split; [assumption|]. split; [cbn; lia|congruence].
  - cbn [dec_loop]. destruct (N.ltb_spec n 10) as [H|H].
    + exists [n]. split; [constructor; [constructor; lia|assumption]|]. split; [cbn [num]; rewrite lenN_nil, N.pow_0_r; lia|discriminate].
    + rewrite Nnat.Nat2N.inj_succ, N.pow_succ_r' in Hn.
      destruct (IH (n / 10) ((48 + n mod 10) :: acc) (n mod 10 :: accv)) as (vs & H1 & H2 & H3).
      * lia.
      * constructor; [constructor; lia|assumption].
      * exists (vs ++ [n mod 10]). rewrite <- app_assoc. split; [exact H1|]. split; [rewrite num_snoc; lia|].
        intros _. destruct f; [change (2 ^ N.of_nat 0) with 1 in Hn; lia|]. apply H3. discriminate.
Qed.
Lemma dec_spec n : exists vs, Forall2 (digit 10) (dec n) vs /\ num 10 vs = n /\ dec n <> [].
Proof.
  destruct (dec_loop_spec (S (N.size_nat n)) n [] [] (size_bound n)) as (vs & H1 & H2 & H3); [constructor|].
  rewrite app_nil_r in H1. exists vs. split; [exact H1|]. split; [exact H2|]. apply H3. discriminate.
Qed.
Lemma dec_nonnil n : dec n <> [].
Proof. now destruct (dec_spec n) as (vs & _ & _ & H). Qed.
Lemma digit10 c v : digit 10 c v -> 48 <= c <= 57.
Proof. intros []; lia. Qed.
Lemma dec_digits n : Forall (fun c => 48 <= c <= 57) (dec n).
Proof.
  destruct (dec_spec n) as (vs & H & _ & _). induction H; constructor; eauto using digit10.
Qed.

Lemma atoi_dec n r : n < 2 ^ 64 -> (forall c t, r = c :: t -> ~ 48 <= c <= 57) ->
  ret (atoi_ulln (dec n ++ r) 10) = Success /\ Atoi_Model.value (atoi_ulln (dec n ++ r) 10) = n
  /\ next (atoi_ulln (dec n ++ r) 10) = lenN (dec n).
Proof.
  intros Hn Hr. destruct (dec_spec n) as (vs & F & V & _).
  assert (R : run 10 (dec n ++ r) 10 [] (dec n) vs r).
  { constructor; auto. - constructor. lia. - intros c t v E D. apply digit10 in D. exact (Hr c t E D). }
  destruct (atoi_exact 10 (dec n ++ r)) as (b & pre & ds & ws & rest & R' & Nx & Ex); [lia|].
  destruct (run_unique _ _ _ _ _ _ _ _ _ _ _ _ R R') as (<- & <- & <- & <- & <-).
  rewrite V in Ex. destruct (Ex Hn) as (E1 & E2). rewrite E1, E2, Nx. auto.
Qed.
Lemma atoi_un_dec n r : n < 2 ^ 32 -> (forall c t, r = c :: t -> ~ 48 <= c <= 57) ->
  ret (atoi_un (dec n ++ r) 10) = Success /\ Atoi_Model.value (atoi_un (dec n ++ r) 10) = n
  /\ next (atoi_un (dec n ++ r) 10) = lenN (dec n).
Proof.
  intros Hn Hr. assert (E32 : 2 ^ 32 = 4294967296) by reflexivity. assert (E64 : 2 ^ 64 = 18446744073709551616) by reflexivity.
  destruct (atoi_dec n r) as (E1 & E2 & E3); [lia|assumption|].
  unfold atoi_un, narrow. cbn [ret next Atoi_Model.value]. rewrite E1, E2, E3, u32_max_val. destruct (N.ltb_spec 4294967295 n); [lia|].
  repeat split. lia.
Qed.
Lemma atoi_zn_dec n : n < 2 ^ 64 ->
  ret (atoi_zn (dec n) 10) = Success /\ Atoi_Model.value (atoi_zn (dec n) 10) = n
  /\ next (atoi_zn (dec n) 10) = lenN (dec n).
Proof.
  intros Hn. assert (E64 : 2 ^ 64 = 18446744073709551616) by reflexivity.
  destruct (atoi_dec n [] Hn) as (E1 & E2 & E3); [discriminate|]. rewrite app_nil_r in *.
  unfold atoi_zn, narrow. cbn [ret next Atoi_Model.value]. rewrite E1, E2, E3, u64_max_val. destruct (N.ltb_spec 18446744073709551615 n); [lia|].
  repeat split. lia.
Qed.

(** A single plain word is joined as it is. *)
Definition simple (s : list byte) : Prop := Forall (fun c => 33 <= c /\ c <> 34 /\ c <> 39 /\ c <> 92) s.
Lemma encode_body_simple s : Forall (fun c => c <> 34 /\ c <> 92) s -> encode_body s = s.
Proof.
  induction 1 as [|c s (H1 & H2) H IH]; [reflexivity|]. cbn. rewrite IH.
  destruct (N.eqb_spec c 92); [lia|]. destruct (N.eqb_spec c 34); [lia|]. reflexivity.
Qed.
Lemma need_quote_simple s : Forall (fun c => 33 <= c) s -> need_quote s = false.
Proof.
  induction 1 as [|c s H1 H IH]; [reflexivity|]. unfold need_quote in *. cbn [existsb]. rewrite IH.
  destruct (N.eqb_spec c 32), (N.eqb_spec c 9), (N.eqb_spec c 10), (N.eqb_spec c 11); try lia; reflexivity.
Qed.
Lemma join_one s : simple s -> join [s] = s.
Proof.
  intros H. unfold join. cbn [join_loop app]. rewrite need_quote_simple.
  - cbn. apply encode_body_simple. eapply Forall_impl; [|exact H]. cbn. tauto.
  - eapply Forall_impl; [|exact H]. cbn. tauto.
Qed.
Lemma dec_simple n : simple (dec n).
Proof. eapply Forall_impl; [|apply dec_digits]. cbn. intros; lia. Qed.
