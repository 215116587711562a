(** Proofs about numbers in settings, the tables of options and the pipeline. *)
From Coq Require Import String.
From Verif Require Import Base Text Atoi_Spec Text_Proofs Settings_Model Settings_Spec Settings_Proofs Settings_Player.
From Verif Require WpasMsg_Model WpasMsg_Proofs Cli_Proofs.
Local Open Scope list_scope.

Lemma digit_any b c v : b <= 16 -> digit b c v -> digit_of b c = Some v.
Proof.
  intros HB H. unfold digit_of. assert (hex_of c = Some v) as ->.
  { unfold hex_of, is_dec, lower. inversion H as [w H1 H2|w H1 H2|w H1 H2]; subst.
    - replace ((48 <=? 48 + v) && (48 + v <=? 57)) with true by (symmetry; lia). f_equal. lia.
    - replace ((48 <=? 97 + (v - 10)) && (97 + (v - 10) <=? 57)) with false by (symmetry; lia). replace ((65 <=? 97 + (v - 10)) && (97 + (v - 10) <=? 90)) with false by (symmetry; lia).
      replace ((97 <=? 97 + (v - 10)) && (97 + (v - 10) <=? 102)) with true by (symmetry; lia). f_equal. lia.
    - replace ((48 <=? 65 + (v - 10)) && (65 + (v - 10) <=? 57)) with false by (symmetry; lia). replace ((65 <=? 65 + (v - 10)) && (65 + (v - 10) <=? 90)) with true by (symmetry; lia).
      replace ((97 <=? 65 + (v - 10) + 32) && (65 + (v - 10) + 32 <=? 102)) with true by (symmetry; lia). f_equal. lia. }
  replace (v <? b) with true by (symmetry; inversion H; lia). reflexivity.
Qed.
Lemma number_any b s vs : b <= 16 -> Forall2 (digit b) s vs -> forall acc, number b s acc = (acc * b ^ lenN vs + num b vs, []).
Proof.
  intros HB. induction 1 as [|c v s vs D H IH]; intros acc; cbn [number num].
  - rewrite lenN_nil, N.pow_0_r. f_equal; lia.
  - rewrite (digit_any b c v HB D), IH. rewrite lenN_cons, N.add_1_l, N.pow_succ_r'. f_equal. lia.
Qed.
(** Log levels in other bases. *)
Lemma digit_byte b c v : b <= 16 -> digit b c v -> c <> 120 /\ c <> 88.
Proof. intros HB H. inversion H; lia. Qed.
Lemma no_level s : forall c, level_of levels (48 :: c :: s) = None.
Proof. intros c. reflexivity. Qed.
Lemma int_level v : v <= INT_MAX -> (if v <? 2 ^ 63 then if INT_MAX <? v then INT_MAX else v else if v <? 2 ^ 64 - 2 ^ 31 then 2 ^ 31 else v mod 2 ^ 32) = v.
Proof. unfold INT_MAX. change (2 ^ 31) with 2147483648. change (2 ^ 63) with 9223372036854775808. intros H. destruct (N.ltb_spec v 9223372036854775808); [|lia]. destruct (N.ltb_spec (2147483648 - 1) v); [lia|reflexivity]. Qed.
Lemma small_ul v : v <= INT_MAX -> (if 2 ^ 64 <=? v then 2 ^ 64 - 1 else v) = v.
Proof. unfold INT_MAX. change (2 ^ 31) with 2147483648. change (2 ^ 64) with 18446744073709551616. intros H. destruct (N.leb_spec 18446744073709551616 v); [lia|reflexivity]. Qed.
Theorem level_hex x s vs : (x = 120 \/ x = 88) -> s <> [] -> Forall2 (digit 16) s vs -> num 16 vs <= INT_MAX -> log_parse_arg (48 :: x :: s) = (num 16 vs, false).
Proof.
  intros HX HN HF HB. unfold log_parse_arg. rewrite no_level. destruct s as [|d s]; [congruence|]. inversion HF as [|? v ? vs' D HF' E1 E2]; subst.
  unfold strtoul. cbv zeta. change (WpasMsg_Model.skip_space (48 :: x :: d :: s)) with (48 :: x :: d :: s). cbv beta iota zeta. change (48 =? 45) with false. change (48 =? 43) with false. cbv beta iota zeta.
  replace (lower x =? 120) with true by (destruct HX as [-> | ->]; reflexivity). rewrite (digit_any 16 d v) by (auto; lia). cbn [andb].
  rewrite (number_any 16 (d :: s) (v :: vs')) by (auto; lia). rewrite N.mul_0_l, N.add_0_l. cbn [andb negb]. rewrite small_ul, int_level by assumption. rewrite (digit_any 16 d v) by (auto; lia). reflexivity.
Qed.
Theorem level_oct s vs : Forall2 (digit 8) s vs -> num 8 vs <= INT_MAX -> log_parse_arg (48 :: s) = (num 8 vs, false).
Proof.
  intros HF HB. unfold log_parse_arg. replace (level_of levels (48 :: s)) with (@None N) by (destruct s; reflexivity). unfold strtoul. cbv zeta. change (WpasMsg_Model.skip_space (48 :: s)) with (48 :: s). cbv beta iota zeta. change (48 =? 45) with false. change (48 =? 43) with false. cbv beta iota zeta.
  assert (X : match s with x :: d :: t => if (lower x =? 120) && match digit_of 16 d with Some _ => true | None => false end then (16, d :: t) else (8, 48 :: s) | _ => (8, 48 :: s) end = (8, 48 :: s)).
  { destruct s as [|x [|d t]]; try reflexivity. inversion HF as [|? v ? vs' D HF' E1 E2]; subst. replace (lower x =? 120) with false; [reflexivity|]. symmetry. apply N.eqb_neq. unfold lower. inversion D; subst.
    - replace ((65 <=? 48 + v) && (48 + v <=? 90)) with false by (symmetry; lia). lia. - lia. - lia. }
  destruct s as [|x [|d t]].
  - inversion HF; subst. reflexivity.
  - assert (D0 : digit 8 48 0) by (apply (DNum 8 0); lia). rewrite (number_any 8 [48; x] (0 :: vs)) by (try lia; constructor; auto). rewrite (digit_any 8 48 0) by (auto; lia). cbn [num andb negb]. rewrite !N.mul_0_l, !N.add_0_l. rewrite small_ul, int_level by assumption. reflexivity.
  - rewrite X. assert (D0 : digit 8 48 0) by (apply (DNum 8 0); lia). rewrite (number_any 8 (48 :: x :: d :: t) (0 :: vs)) by (try lia; constructor; auto). rewrite (digit_any 8 48 0) by (auto; lia). cbn [num andb negb]. rewrite !N.mul_0_l, !N.add_0_l.
    rewrite small_ul, int_level by assumption. reflexivity.
Qed.
(** Numbers of the configuration file. *)
Theorem u64_number k key n : n < 2 ^ 64 ->
  (k key = Some (dec n) -> conf_u64 k key = n) /\ (k key = Some (text "+" ++ dec n) -> conf_u64 k key = n) /\ (k key = Some (text "-" ++ dec n) -> conf_u64 k key = (2 ^ 64 - n) mod 2 ^ 64).
Proof.
  intros HB. destruct (dec_spec n) as (vs & F & V & _). pose proof (number_dec _ _ F 0) as D. rewrite V, N.mul_0_l, N.add_0_l in D. pose proof (dec_digits n) as G. destruct (dec n) as [|c t] eqn:E; [now elim (dec_nonnil n)|]. pose proof (Forall_inv G) as Hc. cbv beta in Hc.
  assert (HD : is_dec c = true) by (unfold is_dec; lia). assert (HL : (2 ^ 64 <=? n) = false) by (apply N.leb_gt; exact HB).
  unfold conf_u64. repeat split; intros ->.
  - cbn [WpasMsg_Model.skip_space]. replace (WpasMsg_Model.space c) with false by (unfold WpasMsg_Model.space; lia). replace (c =? 45) with false by (symmetry; lia). replace (c =? 43) with false by (symmetry; lia). rewrite D, HD, HL. reflexivity.
  - change (text "+" ++ c :: t) with (43 :: c :: t). change (WpasMsg_Model.skip_space (43 :: c :: t)) with (43 :: c :: t). cbv beta iota zeta. change (43 =? 45) with false. change (43 =? 43) with true. cbv beta iota zeta. rewrite D, HD, HL. reflexivity.
  - change (text "-" ++ c :: t) with (45 :: c :: t). change (WpasMsg_Model.skip_space (45 :: c :: t)) with (45 :: c :: t). cbv beta iota zeta. change (45 =? 45) with true. cbv beta iota zeta. rewrite D, HD, HL. reflexivity.
Qed.
(** The tables. *)
Lemma sink_names_ok : sink_names = sink_longs. Proof. reflexivity. Qed.
Lemma sink_letters_ok : sink_letters = sink_shorts. Proof. reflexivity. Qed.
Lemma ctl_names_ok : ctl_names = ctl_longs. Proof. reflexivity. Qed.
Lemma ctl_letters_ok : ctl_letters = ctl_shorts. Proof. reflexivity. Qed.
Lemma wifid_names_ok : wifid_names = wifid_longs. Proof. reflexivity. Qed.
Lemma wifid_letters_ok : wifid_letters = wifid_shorts. Proof. reflexivity. Qed.
Lemma auto_adds_ok k es ops : auto_adds k es ops -> auto_line k es ops.
Proof. unfold auto_adds, auto_line. rewrite sink_names_ok, sink_letters_ok. auto. Qed.
Theorem sink_starts k argv es ops aes aops :
  line sink_letters sink_names argv es ops -> auto_adds k aes aops -> conf_int k ->
  (forall e, In e (es ++ aes) -> ~ ending sink_finish e) -> ints [OPort; OAudio] (es ++ aes) ->
  exists s, sinkctl k argv = Ok (Go (s, ops ++ aops)) /\ sink_rules k (es ++ aes) s.
Proof. rewrite sink_names_ok, sink_letters_ok. intros H1 H2. apply sinkctl_started; [exact H1|now apply auto_adds_ok]. Qed.
Theorem sink_finishes k argv es ops aes aops pre e post :
  line sink_letters sink_names argv es ops -> auto_adds k aes aops -> conf_int k -> es ++ aes = pre ++ e :: post ->
  (forall x, In x pre -> ~ ending sink_finish x) -> ints [OPort; OAudio] pre -> ending sink_finish e ->
  sinkctl k argv = Ok (match e with GBad => Refuse | _ => Finish end).
Proof. rewrite sink_names_ok, sink_letters_ok. intros H1 H2. apply (sinkctl_ended k argv es ops aes aops); [exact H1|now apply auto_adds_ok]. Qed.
Theorem ctl_starts k argv es ops : line ctl_letters ctl_names argv es ops -> (forall e, In e es -> ~ ending ctl_finish e) -> exists s, wifictl k argv = Ok (Go (s, ops)) /\ ctl_rules k es s.
Proof. rewrite ctl_names_ok, ctl_letters_ok. apply ctl_started. Qed.
Theorem wifid_starts file k argv es ops : (file = false -> forall key, k key = None) -> line wifid_letters wifid_names argv es ops ->
  (forall e, In e es -> ~ ending wifid_finish e) -> ints [OIntent] es ->
  (ops = [] -> exists s, wifid file k argv = Ok (Go s) /\ wifid_rules k es s) /\ (ops <> [] -> wifid file k argv = Ok Refuse).
Proof. rewrite wifid_names_ok, wifid_letters_ok. apply wifid_started. Qed.
Theorem wifid_finishes file k argv es ops pre e post : (file = false -> forall key, k key = None) ->
  line wifid_letters wifid_names argv es ops -> es = pre ++ e :: post -> (forall x, In x pre -> ~ ending wifid_finish x) -> ints [OIntent] pre ->
  ending wifid_finish e -> wifid file k argv = Ok (match e with GBad => Refuse | _ => Finish end).
Proof. rewrite wifid_names_ok, wifid_letters_ok. apply wifid_ended. Qed.
(** The pipeline. *)
Lemma joined_app a b : a <> [] -> b <> [] -> joined (a ++ b) = joined a ++ [32] ++ joined b.
Proof.
  intros HA HB. induction a as [|w a IH]; [congruence|]. destruct a as [|w' a].
  - destruct b as [|w' b]; [congruence|]. reflexivity.
  - change (joined ((w :: w' :: a) ++ b)) with (w ++ [32] ++ joined ((w' :: a) ++ b)). rewrite IH by discriminate. change (joined (w :: w' :: a)) with (w ++ [32] ++ joined (w' :: a)). now rewrite <- !app_assoc.
Qed.
Theorem words_pipeline p : joined (gst_words p) = pipeline (if str_eq (p_debug p) (text "0") then None else Some (p_debug p)) (p_port p) (p_scale p) (p_audio p).
Proof.
  destruct p as [d a sc po r]. unfold gst_words, pipeline. cbn [p_debug p_audio p_scale p_port].
  destruct (str_eq d (text "0")); destruct a; destruct sc as [[w h]|]; rewrite ?app_nil_l, ?app_nil_r;
    repeat match goal with |- context [W ?s] => let y := eval vm_compute in (W s) in change (W s) with y end; cbn [app joined]; unfold text; cbn [list_ascii_of_string map app]; rewrite <- ?app_assoc; cbn [app]; rewrite <- ?app_assoc; reflexivity.
Qed.
