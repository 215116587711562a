(** Proofs about what gstplayer prints, and about gestures. *)
From Coq Require Import String.
From Verif Require Import Base Text Text_Proofs Uibc_Model Uibc_Spec Uibc_Proofs UibcMain_Model UibcMain_Spec UibcMain_Proofs.
From Verif Require Atoi_Spec DhcpVal_Proofs.
Local Open Scope list_scope.
Local Open Scope N_scope.

Lemma dec_num s vs : Forall2 (Atoi_Spec.digit 10) s vs -> forall acc, Uibc_Spec.dec s acc = acc * 10 ^ lenN vs + Atoi_Spec.num 10 vs.
Proof.
  induction 1 as [|c v s vs D H IH]; intros acc; cbn [Uibc_Spec.dec Atoi_Spec.num].
  - rewrite lenN_nil, N.pow_0_r. lia.
  - rewrite IH, lenN_cons, N.add_1_l, N.pow_succ_r'. inversion D; subst; nia.
Qed.
Lemma denotes_dec n rest : match rest with c :: _ => ~ Uibc_Spec.digit c | [] => True end -> denotes (Text.dec n ++ rest) n.
Proof.
  intros HR. destruct (dec_spec n) as (vs & F & V & NE). exists [], [], (Text.dec n), rest. split; [reflexivity|]. split; [constructor|]. split; [now left|]. split; [exact NE|].
  split; [exact (dec_digits n)|]. split; [|exact HR]. rewrite (dec_num _ _ F), V. lia.
Qed.
Lemma not_in_dec c n : (c < 48 \/ 57 < c) -> ~ In c (Text.dec n).
Proof. intros H X. pose proof (proj1 (Forall_forall _ _) (dec_digits n) _ X) as Y. cbv beta in Y. lia. Qed.
Lemma mouse_stands b x y : x < 2 ^ 31 -> y < 2 ^ 31 -> stands (print (Mouse b x y)) (means (Mouse b x y)).
Proof.
  intros Hx Hy. cbn [print means]. set (t := if b then 0 else 1). assert (HT : t = 0 \/ t = 1) by (unfold t; destruct b; auto).
  assert (E : Text.dec t = [48 + t]) by (destruct HT as [-> | ->]; reflexivity). rewrite E. cbn [app]. apply STouch; [lia| |reflexivity|].
  - exists [[48 + t]; [49]; [48]; Text.dec x; Text.dec y ++ [10]]. split; [reflexivity|]. split.
    + repeat constructor; unfold COMMA; intros X.
      * destruct X as [X|[]]. lia. * destruct X as [X|[]]. discriminate. * destruct X as [X|[]]. discriminate.
      * revert X. apply not_in_dec. lia. * apply in_app_or in X as [X|[X|[]]]; [revert X; apply not_in_dec; lia|discriminate].
    + unfold numbers. cbn [flat_map app]. change (lenN [(0, x, y)]) with 1. repeat constructor; try (apply (denotes_digit 1); lia); try (apply (denotes_digit 0); lia).
      * apply denotes_digit. lia. * rewrite <- (app_nil_r (Text.dec x)). now apply denotes_dec. * apply denotes_dec. unfold Uibc_Spec.digit. lia.
  - change (2 ^ 31) with 2147483648 in *. unfold numbers. cbn [flat_map app]. change (lenN [(0, x, y)]) with 1. repeat (apply Forall_cons; [lia|]). constructor.
Qed.
(** More than four digits. *)
Lemma hexn_split b : forall a n, hexn (a + b) n = hexn a (n / 16 ^ N.of_nat b) ++ hexn b n.
Proof.
  induction b as [|b IH]; intros a n; [rewrite Nat.add_0_r; change (16 ^ N.of_nat 0) with 1; rewrite N.div_1_r; cbn [hexn]; now rewrite app_nil_r|].
  rewrite Nat.add_succ_r. cbn [hexn]. rewrite IH. rewrite Nat2N.inj_succ, N.pow_succ_r', N.div_div by (try (apply N.pow_nonzero); lia). now rewrite app_assoc.
Qed.
Lemma hex4_small n : n < 65536 -> hex4 n = hexn 4 n.
Proof.
  intros H. unfold hex4. replace (Nat.max 4 (N.to_nat (N.log2 n / 4 + 1))) with 4%nat; [reflexivity|]. assert (N.log2 n < 16); [|lia].
  destruct (N.eq_dec n 0) as [-> | NZ]; [reflexivity|]. apply N.log2_lt_pow2; [lia|exact H].
Qed.
Lemma hex4_more n : 65536 <= n -> exists top k, n / 16 ^ N.of_nat k = top /\ 4096 <= top < 65536 /\ hex4 n = hexn 4 top ++ hexn k n /\ (k + 3 <= N.to_nat (N.log2 n / 4))%nat.
Proof.
  intros H. set (q := N.log2 n / 4). assert (HQ : 4 <= q). { unfold q. assert (16 <= N.log2 n) by (apply N.log2_le_pow2; [lia|exact H]). lia. }
  set (k := N.to_nat (q - 3)). exists (n / 16 ^ N.of_nat k), k. split; [reflexivity|].
  assert (P : 2 ^ N.log2 n <= n < 2 ^ N.succ (N.log2 n)) by (apply N.log2_spec; lia).
  assert (EK : 16 ^ N.of_nat k = 2 ^ (4 * (q - 3))) by (unfold k; rewrite N2Nat.id; change 16 with (2 ^ 4); now rewrite <- N.pow_mul_r).
  assert (PZ : 16 ^ N.of_nat k <> 0) by (apply N.pow_nonzero; lia).
  split; [split|split].
  - apply N.div_le_lower_bound; [exact PZ|]. rewrite EK. change 4096 with (2 ^ 12). rewrite <- N.pow_add_r. etransitivity; [|apply P]. apply N.pow_le_mono_r; [lia|]. unfold q. lia.
  - apply N.div_lt_upper_bound; [exact PZ|]. rewrite EK. change 65536 with (2 ^ 16). rewrite <- N.pow_add_r. eapply N.lt_le_trans; [apply P|]. apply N.pow_le_mono_r; [lia|]. unfold q. lia.
  - unfold hex4. fold q. replace (Nat.max 4 (N.to_nat (q + 1))) with (4 + k)%nat by (unfold k; lia). apply hexn_split.
  - unfold k. lia.
Qed.
Lemma print_key_text top rest : text "3,0x" ++ (hexn 4 top ++ rest) ++ text ",0x0000" ++ [10] = join [[51]; 48 :: 120 :: hexn 4 top ++ rest; 48 :: 120 :: hexn 4 0 ++ [10]].
Proof. reflexivity. Qed.
Lemma build_key top rest : top < 65536 -> ~ In COMMA rest -> build (text "3,0x" ++ (hexn 4 top ++ rest) ++ text ",0x0000" ++ [10]) = Ok (Some (map Some (key_message 3 top 0))).
Proof.
  intros H1 HR. rewrite print_key_text. destruct (key_ok scan (join [[51]; 48 :: 120 :: hexn 4 top ++ rest; 48 :: 120 :: hexn 4 0 ++ [10]]) [51] (48 :: 120 :: hexn 4 top ++ rest) (48 :: 120 :: hexn 4 0 ++ [10]) 3 top 0 eq_refl) as (p & E & EC & _).
  - repeat constructor; try discriminate; intros X; unfold COMMA in X.
    + destruct X as [X|[]]. discriminate.
    + destruct X as [X|[X|X]]; try discriminate. apply in_app_or in X as [X|X]; [now apply hexn_commas in X|auto].
    + destruct X as [X|[X|X]]; try discriminate. apply in_app_or in X as [X|[X|[]]]; [now apply hexn_commas in X|discriminate].
  - apply (denotes_digit 3). lia. - reflexivity. - now apply scan_hex. - now apply scan_hex.
  - change (join [[51]; 48 :: 120 :: hexn 4 top ++ rest; 48 :: 120 :: hexn 4 0 ++ [10]]) with (51 :: 44 :: join [48 :: 120 :: hexn 4 top ++ rest; 48 :: 120 :: hexn 4 0 ++ [10]]) in *. unfold build. change ((51 =? 48) || (51 =? 49)) with false. change ((51 =? 51) || (51 =? 52)) with true.
    cbv iota. rewrite E. cbn [bind packet_of]. now rewrite EC.
Qed.
(** Lines that are printed. *)
Lemma not_in_hexn c k n : (c < 48 \/ 70 < c) -> ~ In c (hexn k n).
Proof. intros H X. pose proof (proj1 (Forall_forall _ _) (hexn_digits k n) _ X) as (d & Hd & E). pose proof (hexdigit_range d Hd). lia. Qed.
Lemma text_in c s : forallb (fun x => negb (x =? c)) s = true -> ~ In c s.
Proof. intros H X. rewrite forallb_forall in H. specialize (H _ X). rewrite N.eqb_refl in H. discriminate. Qed.
Lemma print_line e : is_line (print e).
Proof.
  destruct e as [b x y|code]; cbn [print].
  - exists (Text.dec (if b then 0 else 1) ++ text ",1,0," ++ Text.dec x ++ text "," ++ Text.dec y). split; [now rewrite <- !app_assoc|].
    split; intros X; repeat (apply in_app_or in X as [X|X]); revert X; try (apply not_in_dec; lia); apply text_in; reflexivity.
  - exists (text "3,0x" ++ hex4 code ++ text ",0x0000"). split; [now rewrite <- !app_assoc|]. unfold hex4. set (k := Nat.max 4 _).
    split; intros X; repeat (apply in_app_or in X as [X|X]); revert X; try (apply not_in_hexn; lia); apply text_in; reflexivity.
Qed.
Lemma print_len e : small_event e -> lenN (print e) <= 254.
Proof.
  change (2 ^ 31) with 2147483648. destruct e as [b x y|code]; cbn [print small_event].
  - intros [Hx Hy]. rewrite !lenN_app. pose proof (DhcpVal_Proofs.dec10 x ltac:(lia)). pose proof (DhcpVal_Proofs.dec10 y ltac:(lia)). assert (lenN (Text.dec (if b then 0 else 1)) = 1) as -> by (destruct b; reflexivity).
    change (lenN (text ",1,0,")) with 5. change (lenN (text ",")) with 1. change (lenN [10]) with 1. lia.
  - intros H. rewrite !lenN_app. assert (lenN (hex4 code) <= 8).
    { destruct (N.lt_ge_cases code 65536) as [C|C]; [rewrite hex4_small by exact C; unfold lenN; rewrite hexn_len; lia|]. destruct (hex4_more code C) as (top & k & _ & _ & -> & HK). unfold lenN. rewrite app_length, !hexn_len.
      assert (N.log2 code < 32) by (apply N.log2_lt_pow2; [lia|exact H]). lia. }
    change (lenN (text "3,0x")) with 4. change (lenN (text ",0x0000")) with 7. change (lenN [10]) with 1. lia.
Qed.
Lemma event_build e : small_event e -> exists m, arrives e m /\ lenN m <= 65536 /\ build (print e) = Ok (Some (map Some m)).
Proof.
  intros H. destruct e as [b x y|code]; cbn [small_event arrives] in *.
  - eexists. split; [reflexivity|]. destruct H as [Hx Hy]. pose proof (mouse_stands b x y Hx Hy) as S. destruct (stands_build _ _ S) as (_ & L & HB).
    + apply print_len. split; assumption. + intros (s & E). destruct b; discriminate.
    + split; [exact L|]. destruct HB as [HB|[_ HB]]; [exact HB|]. destruct b; discriminate.
  - destruct (N.lt_ge_cases code 65536) as [C|C].
    + exists (means (Key code)). split; [now left|]. split; [change (lenN (means (Key code))) with 12; lia|]. cbn [print means]. rewrite hex4_small by exact C. rewrite <- (app_nil_r (hexn 4 code)). apply build_key; auto.
    + destruct (hex4_more code C) as (top & k & ET & HT & E & _). exists (key_message 3 top 0). split.
      * right. exists top, (code mod 16 ^ N.of_nat k), (N.of_nat k). assert (P : 16 ^ N.of_nat k <> 0) by (apply N.pow_nonzero; lia). split; [rewrite <- ET, N.mul_comm; now apply N.div_mod|]. split; [now apply N.mod_lt|]. auto.
      * split; [change (lenN (key_message 3 top 0)) with 12; lia|]. cbn [print]. rewrite E. apply build_key; [apply HT|apply hexn_commas].
Qed.
Lemma print_nonnil e : print e <> [].
Proof. destruct (print_line e) as (s & -> & _). destruct s; discriminate. Qed.
Lemma session_events w : takes_all w -> forall es, Forall small_event es -> exists ms, Forall2 arrives es ms /\
  forall fuel k, (List.length (concat (map print es)) < fuel)%nat -> session fuel w k (concat (map print es)) = Ret (map Some (concat ms), true).
Proof.
  intros HW. induction 1 as [|e es HE F (ms & FA & IH)].
  - exists []. split; [constructor|]. intros [|fuel] k HF; [cbn in HF; lia|]. cbn [map concat session]. assert (fgets room [] = ([], [])) as -> by reflexivity. reflexivity.
  - destruct (event_build e HE) as (m & HA & LM & EB). exists (m :: ms). split; [now constructor|]. intros fuel k HF. destruct fuel as [|fuel]; [lia|].
    destruct (print_line e) as (s & E & N1 & N0). pose proof (print_len e HE) as PL. pose proof (print_nonnil e) as NE. cbn [map concat session] in *. rewrite E in *. rewrite <- app_assoc. cbn [app].
    rewrite fgets_line; [|exact N1|unfold lenN in PL; rewrite app_length in PL; cbn [List.length] in PL; unfold room; lia].
    rewrite cstr_line by (intros X; apply in_app_or in X as [X|[X|[]]]; [contradiction|discriminate]). destruct (s ++ [10]) as [|c0 l0] eqn:EL; [congruence|].
    cbn [app List.length] in HF. rewrite app_length in HF. rewrite EB. destruct (HW k) as (n & -> & Hn). rewrite IH by lia. cbn [obind fst snd].
    rewrite takeN_all by (unfold lenN in *; rewrite map_length; change (2 ^ 16) with 65536 in Hn; lia). now rewrite map_app.
Qed.
Theorem player_input w es : takes_all w -> Forall small_event es -> exists ms, Forall2 arrives es ms /\ uibcctl w (concat (map print es)) = Ret (map Some (concat ms), true).
Proof. intros HW HE. destruct (session_events w HW es HE) as (ms & HA & H). exists ms. split; [exact HA|]. apply H. lia. Qed.

(** Gestures. *)
Theorem gesture_nothing null g s : gesture_packet null g s = UB \/ (null = true /\ exists m, gesture_packet null g s = Ok m /\ send_null m = None).
Proof.
  unfold gesture_packet. destruct (str_split s) as [fs|]; [|now left]. cbn [bind]. destruct (read_fields g 0 fs); [|now left]. cbn [bind]. destruct null; [|now left].
  right. split; [reflexivity|]. eexists. split; [reflexivity|]. destruct g; reflexivity.
Qed.
