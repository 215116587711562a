(** Proofs about log levels, the command line of the player and the configuration
    of wpa_supplicant. *)
From Coq Require Import String.
From Verif Require Import Base Text Atoi_Spec Text_Proofs Settings_Model Settings_Spec Settings_Proofs.
From Verif Require WpasMsg_Model WpasMsg_Proofs Cli_Proofs Sink_Proofs.
Local Open Scope list_scope.

(** ** Numbers as log levels *)
Lemma number_dec s vs : Forall2 (digit 10) s vs -> forall acc, number 10 s acc = (acc * 10 ^ lenN vs + num 10 vs, []).
Proof.
  induction 1 as [|c v s vs D H IH]; intros acc; cbn [number num].
  - rewrite lenN_nil, N.pow_0_r. f_equal; lia.
  - assert (Hc := digit10 c v D). rewrite (digit_dec c) by lia. rewrite IH. rewrite lenN_cons, N.add_1_l, N.pow_succ_r'. f_equal.
    assert (c - 48 = v) by (inversion D; subst; lia). subst v. lia.
Qed.
Lemma dec_loop_head f : forall n acc, 0 < n -> n < 2 ^ N.of_nat f -> exists c t, dec_loop f n acc = c :: t /\ 49 <= c <= 57.
Proof.
  induction f as [|f IH]; intros n acc P B; [change (2 ^ N.of_nat 0) with 1 in B; lia|]. cbn [dec_loop].
  destruct (N.ltb_spec n 10); [exists (48 + n), acc; split; [reflexivity|lia]|]. apply IH; [lia|].
  rewrite Nnat.Nat2N.inj_succ, N.pow_succ_r' in B. lia.
Qed.
Lemma dec_head n : 0 < n -> exists c t, dec n = c :: t /\ 49 <= c <= 57.
Proof. intros P. apply dec_loop_head; [exact P|apply size_bound]. Qed.
Lemma strtoul_dec n : strtoul (dec n) = (if 2 ^ 64 <=? n then 2 ^ 64 - 1 else n, true).
Proof.
  destruct (N.eq_dec n 0) as [->|Nz]; [reflexivity|]. destruct (dec_head n) as (c & t & E & Hc); [lia|].
  destruct (dec_spec n) as (vs & F & V & _). pose proof (number_dec _ _ F 0) as D. rewrite V, N.mul_0_l, N.add_0_l in D. rewrite E in D.
  unfold strtoul. rewrite E. cbn [WpasMsg_Model.skip_space]. replace (WpasMsg_Model.space c) with false by (unfold WpasMsg_Model.space; lia).
  replace (c =? 45) with false by (symmetry; lia). replace (c =? 43) with false by (symmetry; lia).
  assert (X : (match c :: t with
               | 48 :: x :: d :: t0 => if (lower x =? 120) && (match digit_of 16 d with Some _ => true | None => false end) then (16, d :: t0) else (8, c :: t)
               | 48 :: _ => (8, c :: t)
               | _ => (10, c :: t) end) = (10, c :: t)).
  { assert (c = 49 \/ c = 50 \/ c = 51 \/ c = 52 \/ c = 53 \/ c = 54 \/ c = 55 \/ c = 56 \/ c = 57) as O by lia.
    repeat (destruct O as [->|O]; [reflexivity|]). subst c. reflexivity. }
  rewrite X. rewrite D. rewrite (digit_dec c) by lia. reflexivity.
Qed.
Lemma no_name n : level_of levels (dec n) = None.
Proof.
  pose proof (dec_digits n) as F. destruct (dec n) as [|c t] eqn:E; [now elim (dec_nonnil n)|]. inversion F as [|? ? Hc _]; subst.
  unfold level_of, levels. unfold text. cbn [list_ascii_of_string map case_eq].
  assert (L : lower c = c) by (unfold lower; replace (65 <=? c) with false by (symmetry; lia); reflexivity). rewrite L.
  repeat match goal with |- context [c =? ?x] => let y := eval vm_compute in x in change x with y; replace (c =? y) with false by (symmetry; lia) end.
  reflexivity.
Qed.
Lemma level_number n : (n <= INT_MAX -> log_parse_arg (dec n) = (n, false)) /\ (INT_MAX < n -> INT_MAX <= level (dec n)).
Proof.
  unfold level, log_parse_arg. rewrite no_name, strtoul_dec. unfold INT_MAX. change (2 ^ 31) with 2147483648. change (2 ^ 63) with 9223372036854775808.
  change (2 ^ 64) with 18446744073709551616. change (2 ^ 32) with 4294967296. cbn [negb].
  destruct (N.leb_spec 18446744073709551616 n); split; intros H'; try lia.
  - vm_compute. congruence.
  - destruct (N.ltb_spec n 9223372036854775808); [|lia]. destruct (N.ltb_spec (2147483648 - 1) n); [lia|reflexivity].
  - cbn [fst]. destruct (N.ltb_spec n 9223372036854775808); [destruct (N.ltb_spec (2147483648 - 1) n); lia|].
    destruct (N.ltb_spec n (18446744073709551616 - 2147483648)); lia.
Qed.
Lemma level_named w n : names_level w n -> n <= INT_MAX -> log_parse_arg w = (n, false).
Proof. intros [(name & H & E)| ->] B; [now apply (level_name n name)|now apply level_number]. Qed.

(** ** The command line fits *)
Lemma print_ok s : lenN s <= 63 -> print s = Ok s.
Proof. intros H. unfold print, CHARS. now replace (lenN s + 1 <=? 64) with true by (symmetry; lia). Qed.
Definition player_of (s : settings) (e : session) : option (list byte) :=
  if c_external s then c_player s else Some (if se_uibc e then text "uibc-viewer" else text "miracle-gst").
Definition options_of (s : settings) (e : session) : list (list byte) :=
  (match c_debug s with Some d => [text "-d"; d] | None => if 7 <=? c_level s then [text "-d"; text "3"] else [] end)
  ++ (if (c_audio s =? 0)%Z then [] else [text "-a"])
  ++ (match c_scale s with Some x => [text "-s"; x] | None => [] end)
  ++ [text "-p"; dec_int (c_port s)]
  ++ (if (se_hres e =? 0)%Z || (se_vres e =? 0)%Z then [] else [text "-r"; dec_int (se_hres e) ++ text "x" ++ dec_int (se_vres e)]).
Definition uibc_of (e : session) : list (list byte) := if se_uibc e then [se_target e; dec_int (se_uibc_port e)] else [].
Lemma player_argv_is s e : in_ints s e -> exists p, player_of s e = Some p /\ player_argv s e = Ok (p :: uibc_of e ++ options_of s e).
Proof.
  intros (Hp & Hu & Hh & Hv & Hx). unfold player_argv, player_of.
  assert (exists p, (if c_external s then c_player s else Some (if se_uibc e then text "uibc-viewer" else text "miracle-gst")) = Some p
    /\ (if c_external s then match c_player s with Some p => Ok p | None => UB end
        else Ok (if se_uibc e then text "uibc-viewer" else text "miracle-gst")) = Ok p) as (p & -> & ->).
  { destruct (c_external s); [|eauto]. destruct (c_player s) as [q|]; [eauto|]. now elim (Hx eq_refl). }
  cbn [bind]. exists p. split; [reflexivity|].
  pose proof (Sink_Proofs.dec_int_len _ Hp) as L1. pose proof (Sink_Proofs.dec_int_len _ Hu) as L2.
  pose proof (Sink_Proofs.dec_int_len _ Hh) as L3. pose proof (Sink_Proofs.dec_int_len _ Hv) as L4.
  assert ((if se_uibc e then do p0 <- print (dec_int (se_uibc_port e)); Ok [se_target e; p0] else Ok []) = Ok (uibc_of e)) as ->.
  { unfold uibc_of. destruct (se_uibc e); [|reflexivity]. rewrite print_ok by lia. reflexivity. }
  cbn [bind]. rewrite (print_ok (dec_int (c_port s))) by lia. cbn [bind].
  assert ((if (se_hres e =? 0)%Z || (se_vres e =? 0)%Z then Ok []
           else do r <- print (dec_int (se_hres e) ++ text "x" ++ dec_int (se_vres e)); Ok [text "-r"; r])
          = Ok (if (se_hres e =? 0)%Z || (se_vres e =? 0)%Z then [] else [text "-r"; dec_int (se_hres e) ++ text "x" ++ dec_int (se_vres e)])) as ->.
  { destruct ((se_hres e =? 0)%Z || (se_vres e =? 0)%Z); [reflexivity|]. rewrite print_ok; [reflexivity|]. rewrite !lenN_app. change (lenN (text "x")) with 1. lia. }
  cbn [bind]. unfold options_of, uibc_of.
  match goal with |- (if ?b then _ else _) = _ => assert (b = true) as -> end; [|reflexivity].
  unfold WORDS. destruct (se_uibc e), (c_debug s), (7 <=? c_level s), (c_audio s =? 0)%Z, (c_scale s), ((se_hres e =? 0)%Z || (se_vres e =? 0)%Z);
    cbn [app]; rewrite !lenN_cons, lenN_nil; reflexivity.
Qed.
Lemma joined_snoc buf w ws : joined ((buf ++ [32] ++ w) :: ws) = joined (buf :: w :: ws).
Proof. destruct ws; cbn [joined]; rewrite <- ?app_assoc; reflexivity. Qed.
Lemma append_ok size : forall ws buf, lenN buf + 1 + command_size ws = size -> append size buf ws = Ok (joined (buf :: ws)) /\ lenN (joined (buf :: ws)) + 1 = size.
Proof.
  induction ws as [|w ws IH]; intros buf H.
  - cbn [append joined command_size fold_right] in *. split; [reflexivity|]. lia.
  - cbn [command_size fold_right] in H. fold (command_size ws) in H. cbn [append]. change (text " ") with [32].
    destruct (N.leb_spec (lenN buf + 1 + 1) size); [|lia]. rewrite lenN_app. change (lenN [32]) with 1.
    destruct (N.leb_spec (lenN buf + 1 + lenN w + 1) size); [|lia]. rewrite <- joined_snoc, app_assoc. apply IH.
    rewrite !lenN_app. change (lenN [32]) with 1. lia.
Qed.
Lemma command_ok argv : argv <> [] -> command argv = Ok (joined argv) /\ lenN (joined argv) + 1 = command_size argv.
Proof.
  destruct argv as [|w ws]; [congruence|]. intros _. unfold command.
  assert (E : lenN w + 1 + command_size ws = command_size (w :: ws)) by reflexivity.
  destruct (N.leb_spec (lenN w + 1) (command_size (w :: ws))); [|lia]. apply append_ok. exact E.
Qed.

(** ** What the player makes of it *)
Definition clean (v : list byte) : Prop := forall c, In c v -> c <> 32 /\ c <> 9 /\ c <> 10.
Lemma fields_clean v : clean v -> forall cur, cur ++ v <> [] -> fields v cur = [cur ++ v].
Proof.
  induction v as [|c v IH]; intros C cur N.
  - rewrite app_nil_r in *. cbn [fields]. destruct cur; [congruence|reflexivity].
  - cbn [fields]. assert (B : blank c = false). { unfold blank. destruct (C c) as (H1 & H2 & H3); [now left|]. lia. }
    rewrite B, IH, <- app_assoc; [reflexivity| |]. { intros x I. apply C. now right. } { rewrite <- app_assoc. exact N. }
Qed.
Lemma shell_clean v : v <> [] -> clean v -> echo_flag v = false -> shell v = v.
Proof. intros N C E. unfold shell. rewrite (fields_clean v C []) by exact N. cbn [app echoed concat]. rewrite E. apply app_nil_r. Qed.
Lemma tidy_shell v : tidy v -> shell v = v.
Proof.
  intros (N & C & D). apply shell_clean; auto. destruct v as [|c [|d r]]; try reflexivity. cbn [echo_flag].
  destruct (N.eqb_spec c 45) as [->|]; [|reflexivity]. now elim (D (d :: r)).
Qed.
Lemma int_clean z : dec_int z <> [] /\ clean (dec_int z) /\ echo_flag (dec_int z) = false /\ (forall c, In c (dec_int z) -> c = 45 \/ 48 <= c <= 57).
Proof.
  unfold Sink_Model.dec_int. assert (D : forall n c, In c (dec n) -> 48 <= c <= 57) by (intros n; apply Forall_forall, dec_digits).
  destruct (z <? 0)%Z.
  - split; [discriminate|]. split; [intros c [<-|I]; [lia|apply D in I; lia]|]. split.
    + cbn [echo_flag]. destruct (dec (Z.to_N (- z))) as [|d r] eqn:E; [reflexivity|]. cbn [forallb].
      assert (48 <= d <= 57) by (apply (D (Z.to_N (- z))); rewrite E; now left).
      replace (d =? 110) with false by (symmetry; lia). replace (d =? 101) with false by (symmetry; lia). replace (d =? 69) with false by (symmetry; lia). reflexivity.
    + intros c [<-|I]; [now left|right; eapply D; exact I].
  - split; [apply dec_nonnil|]. split; [intros c I; apply D in I; lia|]. split.
    + destruct (dec (Z.to_N z)) as [|d [|d' r]] eqn:E; try reflexivity. cbn [echo_flag].
      assert (48 <= d <= 57) by (apply (D (Z.to_N z)); rewrite E; now left). now replace (d =? 45) with false by (symmetry; lia).
    + intros c I. right. eapply D; exact I.
Qed.
Lemma int_shell z : shell (dec_int z) = dec_int z.
Proof. destruct (int_clean z) as (N & C & E & _). now apply shell_clean. Qed.
Lemma cut_scale w h : ~ In 120 w -> ~ In 120 h -> cut1 (w ++ [120] ++ h) = w /\ cut2 (w ++ [120] ++ h) = h.
Proof.
  intros Hw Hh. unfold cut1, cut2. cbn [app]. rewrite (break_some 120 w h Hw). cbn [fst snd tl]. now rewrite (break_none 120 h Hh).
Qed.
Lemma scale_shell w h : tidy w -> clean h -> shell (w ++ [120] ++ h) = w ++ [120] ++ h.
Proof.
  intros (N & C & D) H. apply shell_clean.
  - destruct w; [congruence|discriminate].
  - intros c I. apply in_app_or in I as [I|[<-|I]]; [now apply C|lia|now apply H].
  - destruct w as [|c w]; [congruence|]. cbn [app]. destruct (w ++ 120 :: h) as [|d r] eqn:E; [reflexivity|]. cbn [echo_flag].
    destruct (N.eqb_spec c 45) as [->|]; [|reflexivity]. now elim (D w).
Qed.
Lemma opt_d v r : getopts (text "-d" :: v :: r) = PArg 100 v :: getopts r. Proof. reflexivity. Qed.
Lemma opt_s v r : getopts (text "-s" :: v :: r) = PArg 115 v :: getopts r. Proof. reflexivity. Qed.
Lemma opt_p v r : getopts (text "-p" :: v :: r) = PArg 112 v :: getopts r. Proof. reflexivity. Qed.
Lemma opt_r v r : getopts (text "-r" :: v :: r) = PArg 114 v :: getopts r. Proof. reflexivity. Qed.
Lemma opt_a r : getopts (text "-a" :: r) = PFlag 97 :: getopts r. Proof. reflexivity. Qed.
Lemma loop_d v es p : player_loop (PArg 100 v :: es) p = player_loop es (mkP (shell v) (p_audio p) (p_scale p) (p_port p) (p_res p)). Proof. reflexivity. Qed.
Lemma loop_s v es p : player_loop (PArg 115 v :: es) p = player_loop es (mkP (p_debug p) (p_audio p) (Some (cut1 (shell v), cut2 (shell v))) (p_port p) (p_res p)). Proof. reflexivity. Qed.
Lemma loop_p v es p : player_loop (PArg 112 v :: es) p = player_loop es (mkP (p_debug p) (p_audio p) (p_scale p) (shell v) (p_res p)). Proof. reflexivity. Qed.
Lemma loop_r v es p : player_loop (PArg 114 v :: es) p = player_loop es (mkP (p_debug p) (p_audio p) (p_scale p) (p_port p) (shell v)). Proof. reflexivity. Qed.
Lemma loop_a es p : player_loop (PFlag 97 :: es) p = player_loop es (mkP (p_debug p) true (p_scale p) (p_port p) (p_res p)). Proof. reflexivity. Qed.
Definition scale_of (s : settings) : option (list byte * list byte) := match c_scale s with Some x => Some (cut1 x, cut2 x) | None => None end.
Lemma options_played s e a d po : tidy_settings s -> exists r,
  player_loop (getopts (options_of s e)) (mkP d a None po []) =
  Some (mkP (match c_debug s with Some d => d | None => if 7 <=? c_level s then text "3" else d end)
            (a || negb (c_audio s =? 0)%Z) (scale_of s) (dec_int (c_port s)) r).
Proof.
  intros (Td & Ts). unfold options_of, scale_of.
  assert (S : forall x, c_scale s = Some x -> shell x = x).
  { intros x E. destruct (Ts x E) as (w & h & -> & T & _ & _ & _ & C). now apply scale_shell. }
  set (res := if (se_hres e =? 0)%Z || (se_vres e =? 0)%Z then [] else [text "-r"; dec_int (se_hres e) ++ text "x" ++ dec_int (se_vres e)]).
  assert (R : forall p, exists r, player_loop (getopts res) p = Some (mkP (p_debug p) (p_audio p) (p_scale p) (p_port p) r)).
  { intros p. unfold res. destruct ((se_hres e =? 0)%Z || (se_vres e =? 0)%Z).
    - exists (p_res p). destruct p. reflexivity.
    - rewrite opt_r, loop_r. eexists. reflexivity. }
  exists (match player_loop (getopts res) (mkP [] false None [] []) with Some p => p_res p | None => [] end).
  assert (R' : forall p, p_res p = [] -> player_loop (getopts res) p = Some (mkP (p_debug p) (p_audio p) (p_scale p) (p_port p)
     (match player_loop (getopts res) (mkP [] false None [] []) with Some p => p_res p | None => [] end))).
  { intros [d' a' s' po' r'] E. cbn [p_res] in E. subst r'. unfold res. destruct ((se_hres e =? 0)%Z || (se_vres e =? 0)%Z); [reflexivity|].
    rewrite !opt_r, !loop_r. reflexivity. }
  destruct (c_debug s) as [dv|] eqn:Ed; [|destruct (7 <=? c_level s)]; destruct (c_audio s =? 0)%Z; destruct (c_scale s) as [x|] eqn:Ex; cbn [app];
    rewrite ?opt_d, ?loop_d, ?opt_a, ?loop_a, ?opt_s, ?loop_s, ?opt_p, ?loop_p, R' by reflexivity;
    cbn [p_debug p_audio p_scale p_port p_res]; rewrite ?(tidy_shell dv (Td dv eq_refl)), ?(S x eq_refl), int_shell, ?orb_false_r, ?orb_true_r; reflexivity.
Qed.
Ltac each H := repeat (destruct H as [H|H]; [try discriminate H|]).
Lemma gst_port p x : In (text "port=" ++ x) (gst_words p) <-> Some (p_port p) = Some x.
Proof.
  destruct p as [d a sc po r]. unfold gst_words. cbn [p_debug p_audio p_scale p_port]. split.
  - intros H. repeat (apply in_app_or in H as [H|H]); destruct a; try destruct (str_eq d (text "0")); try destruct sc as [[w h]|];
      try (vm_compute in H; each H; try (now destruct H); fail);
      try (destruct H as [H|[]]; [discriminate H || (apply app_inv_head in H; now subst)]).
    all: try (vm_compute in H; each H; destruct H).
    all: repeat (apply in_app_or in H as [H|H]); try (vm_compute in H; each H; destruct H).
  - intros E. inversion E; subst. apply in_or_app; right. apply in_or_app; right. apply in_or_app; right. apply in_or_app; left. now left.
Qed.
Lemma gst_debug p x : In (text "--gst-debug=" ++ x) (gst_words p) <-> (if str_eq (p_debug p) (text "0") then None else Some (p_debug p)) = Some x.
Proof.
  destruct p as [d a sc po r]. unfold gst_words. cbn [p_debug p_audio p_scale p_port]. split.
  - intros H. repeat (apply in_app_or in H as [H|H]); destruct a; try destruct (str_eq d (text "0")); try destruct sc as [[w h]|];
      try (vm_compute in H; each H; try (now destruct H); fail);
      try (destruct H as [H|[]]; [discriminate H || (apply app_inv_head in H; now subst)]).
    all: try (vm_compute in H; each H; destruct H).
    all: repeat (apply in_app_or in H as [H|H]); try (vm_compute in H; each H; destruct H).
  - intros E. destruct (str_eq d (text "0")); inversion E; subst. apply in_or_app; right. apply in_or_app; left. now left.
Qed.
Lemma gst_audio p : In (text "autoaudiosink") (gst_words p) <-> p_audio p = true.
Proof.
  destruct p as [d a sc po r]. unfold gst_words. cbn [p_debug p_audio p_scale p_port]. split.
  - intros H. destruct a; [reflexivity|]. exfalso. repeat (apply in_app_or in H as [H|H]); try destruct (str_eq d (text "0")); try destruct sc as [[w h]|];
      try (vm_compute in H; each H; try (now destruct H); fail); try (destruct H as [H|[]]; discriminate H).
    all: repeat (apply in_app_or in H as [H|H]); try (vm_compute in H; each H; destruct H).
  - intros ->. do 8 (apply in_or_app; right). vm_compute. tauto.
Qed.
Lemma comma_inj w h w' h' : ~ In 44 w -> ~ In 44 w' -> w ++ text ",height=" ++ h = w' ++ text ",height=" ++ h' -> w = w' /\ h = h'.
Proof.
  revert w'. induction w as [|c w IH]; intros [|c' w'] N N' E; cbn [app] in E.
  - split; [reflexivity|]. now apply app_inv_head in E.
  - change (text ",height=") with (44 :: text "height=") in E. cbn [app] in E. inversion E; subst. elim N'. now left.
  - change (text ",height=") with (44 :: text "height=") in E. cbn [app] in E. inversion E; subst. elim N. now left.
  - inversion E as [[E1 E2]]. subst c'. destruct (IH w') as [-> ->]; auto; intros I; [apply N|apply N']; now right.
Qed.
Lemma gst_scale p w h : ~ In 44 w -> (forall w' h', p_scale p = Some (w', h') -> ~ In 44 w') ->
  (In (text "video/x-raw,width=" ++ w ++ text ",height=" ++ h) (gst_words p) <-> p_scale p = Some (w, h)).
Proof.
  destruct p as [d a sc po r]. unfold gst_words. cbn [p_debug p_audio p_scale p_port]. intros N N'. split.
  - intros H. repeat (apply in_app_or in H as [H|H]); try destruct a; try destruct (str_eq d (text "0"));
      try (vm_compute in H; each H; try (now destruct H); fail); try (destruct H as [H|[]]; discriminate H).
    all: destruct sc as [[w' h']|]; [|destruct H].
    all: repeat (apply in_app_or in H as [H|H]); try (vm_compute in H; each H; now destruct H).
    all: destruct H as [H|[]]; apply app_inv_head in H; symmetry in H; apply comma_inj in H as [-> ->]; eauto.
  - intros ->. do 7 (apply in_or_app; right). apply in_or_app; left. apply in_or_app; right. now left.
Qed.

Lemma player_plays s e p rest : tidy_settings s -> in_ints s e -> player_argv s e = Ok (p :: rest) -> se_uibc e = false ->
  exists st, run_player rest = Some st /\ plays s (gst_words st).
Proof.
  intros T I E U. destruct (player_argv_is s e I) as (p' & _ & E'). rewrite E in E'. inversion E' as [[Ep Er]]. unfold uibc_of. rewrite U. cbn [app].
  destruct (options_played s e false (text "0") [] T) as (r & R). eexists. split; [exact R|]. unfold plays, shows.
  split; [intros x; apply gst_port|]. split; [|split].
  - intros x. rewrite gst_debug. cbn [p_debug]. destruct (c_debug s); [reflexivity|]. destruct (7 <=? c_level s); reflexivity.
  - rewrite gst_audio. cbn [p_audio orb]. destruct (Z.eqb_spec (c_audio s) 0); split; intros; auto; try discriminate; try contradiction.
  - intros w h Nw Nh Nc. rewrite gst_scale; [|exact Nc|].
    + cbn [p_scale]. unfold scale_of. destruct T as [_ T]. destruct (c_scale s) as [x|] eqn:Ex; [|split; discriminate].
      destruct (T x eq_refl) as (w0 & h0 & -> & _ & _ & N1 & N2 & _). destruct (cut_scale w0 h0 N1 N2) as [-> ->].
      split; intros H; inversion H as [[H1]]; [reflexivity|].
      assert (B : break_at 120 (w0 ++ [120] ++ h0) = break_at 120 (w ++ [120] ++ h)) by (cbn [app]; now rewrite H1).
      cbn [app] in B. rewrite (break_some 120 w0 h0 N1), (break_some 120 w h Nw) in B. inversion B. reflexivity.
    + cbn [p_scale]. unfold scale_of. destruct T as [_ T]. destruct (c_scale s) as [x|] eqn:Ex; [|discriminate].
      intros w' h' H. destruct (T x eq_refl) as (w0 & h0 & -> & _ & N0 & N1 & N2 & _). destruct (cut_scale w0 h0 N1 N2) as [E1 E2]. rewrite E1 in H. inversion H; subst. exact N0.
Qed.

(** With UIBC, uibc-viewer takes address and port off and passes the rest on. *)
Lemma fields_words ws : (forall w, In w ws -> w <> [] /\ clean w) -> concat (map (fun w => fields w []) ws) = ws.
Proof.
  induction ws as [|w ws IH]; intros H; [reflexivity|]. cbn [map concat]. destruct (H w) as [N C]; [now left|].
  rewrite (fields_clean w C []) by exact N. rewrite IH; [reflexivity|]. intros x I. apply H. now right.
Qed.
Lemma text_clean s : forallb (fun c => negb (blank c)) (text s) = true -> clean (text s).
Proof. intros H c I. rewrite forallb_forall in H. specialize (H c I). unfold blank in H. lia. Qed.
Lemma options_clean s e : tidy_settings s -> forall w, In w (options_of s e) -> w <> [] /\ clean w.
Proof.
  intros (Td & Ts) w I. unfold options_of in I.
  assert (L : forall t, t <> ""%string -> forallb (fun c => negb (blank c)) (text t) = true -> text t <> [] /\ clean (text t)).
  { intros t N B. split; [destruct t; [congruence|discriminate]|now apply text_clean]. }
  repeat (apply in_app_or in I as [I|I]).
  - destruct (c_debug s) as [d|]; [destruct I as [<-|[<-|[]]]; [now apply L|]|destruct (7 <=? c_level s); [destruct I as [<-|[<-|[]]]; now apply L|destruct I]].
    destruct (Td d eq_refl) as (N & C & _). auto.
  - destruct (c_audio s =? 0)%Z; [destruct I|destruct I as [<-|[]]; now apply L].
  - destruct (c_scale s) as [x|]; [|destruct I]. destruct I as [<-|[<-|[]]]; [now apply L|].
    destruct (Ts x eq_refl) as (a & b & -> & (N & C & _) & _ & _ & _ & D). split; [destruct a; [congruence|discriminate]|].
    intros c J. apply in_app_or in J as [J|[<-|J]]; [now apply C|lia|now apply D].
  - destruct I as [<-|[<-|[]]]; [now apply L|]. destruct (int_clean (c_port s)) as (N & C & _). auto.
  - destruct ((se_hres e =? 0)%Z || (se_vres e =? 0)%Z); [destruct I|]. destruct I as [<-|[<-|[]]]; [now apply L|].
    destruct (int_clean (se_hres e)) as (N & C & _), (int_clean (se_vres e)) as (N' & C' & _). split.
    + destruct (dec_int (se_hres e)); [congruence|discriminate].
    + intros c J. apply in_app_or in J as [J|J]; [now apply C|]. change (text "x") with [120] in J. destruct J as [<-|J]; [lia|now apply C'].
Qed.
Lemma viewer_plays s e rest : tidy_settings s -> in_ints s e -> c_external s = false -> se_uibc e = true ->
  player_argv s e = Ok (text "uibc-viewer" :: rest) ->
  exists ws st, viewer rest = (se_target e, dec_int (se_uibc_port e), ws) /\ gstplayer ws = Some st
    /\ p_port st = dec_int (c_port s) /\ p_scale st = scale_of s /\ p_audio st = true.
Proof.
  intros T I X U E. destruct (player_argv_is s e I) as (p' & _ & E'). rewrite E in E'. inversion E' as [[Ep Er]]. unfold uibc_of. rewrite U. cbn [app viewer].
  rewrite (fields_words _ (options_clean s e T)). destruct (options_played s e true (text "0") (text "7236") T) as (r & R).
  exists (options_of s e). eexists. split; [reflexivity|]. split; [exact R|]. auto.
Qed.
Lemma player_started s e : in_ints s e -> exists p rest, player_argv s e = Ok (p :: rest) /\ player_of s e = Some p
  /\ command (p :: rest) = Ok (joined (p :: rest)) /\ lenN (joined (p :: rest)) + 1 = command_size (p :: rest).
Proof.
  intros I. destruct (player_argv_is s e I) as (p & E & A). exists p. eexists. split; [exact A|]. split; [exact E|]. apply command_ok. discriminate.
Qed.

(** ** wpa_supplicant *)
Lemma lines_line w r : ~ In 10 w -> forall cur, lines (w ++ 10 :: r) cur = (cur ++ w) :: lines r [].
Proof.
  induction w as [|c w IH]; intros N cur; cbn [app lines]; [now rewrite app_nil_r|].
  destruct (N.eqb_spec c 10) as [->|]; [elim N; now left|]. rewrite IH, <- app_assoc; [reflexivity|]. intros I. apply N. now right.
Qed.
Lemma text_line s : forallb (fun c => negb (c =? 10)) (text s) = true -> ~ In 10 (text s).
Proof. intros H I. rewrite forallb_forall in H. specialize (H 10 I). discriminate. Qed.
Lemma key_line s v : forallb (fun c => negb (c =? 10)) (text s) = true -> ~ In 10 v -> ~ In 10 (text s ++ v).
Proof. intros H N I. apply in_app_or in I as [I|I]; [now apply (text_line s H)|auto]. Qed.
Lemma lines_key s v r : forallb (fun c => negb (c =? 10)) (text s) = true -> ~ In 10 v -> lines (text s ++ v ++ NL ++ r) [] = (text s ++ v) :: lines r [].
Proof. intros H N. unfold NL. rewrite app_assoc. cbn [app]. now apply (lines_line (text s ++ v) r (key_line s v H N) []). Qed.
Lemma lines_text s r : forallb (fun c => negb (c =? 10)) (text s) = true -> lines (text s ++ NL ++ r) [] = text s :: lines r [].
Proof. intros H. now apply (lines_line (text s) r (text_line s H) []). Qed.
Lemma conf_lines l : one_line (wl_name l) -> one_line (wl_methods l) -> one_line (wl_driver l) ->
  lines (wpa_conf l) [] =
  [text "# Generated configuration - DO NOT EDIT!"; text "device_name=" ++ or (wl_name l) (text "unknown"); text "device_type=" ++ text "1-0050F204-1";
   text "config_methods=" ++ or (wl_methods l) (text "pbc"); text "driver_param=" ++ or (wl_driver l) []; text "ap_scan=" ++ text "1";
   text "p2p_go_intent=" ++ dec (wl_intent l); text "# End of configuration"].
Proof.
  intros H1 H2 H3. unfold wpa_conf.
  assert (O : forall v d, one_line v -> ~ In 10 d -> ~ In 10 (or v d)) by (intros [v|] d H N; [now apply H|exact N]).
  rewrite lines_text by reflexivity.
  rewrite lines_key; [|reflexivity|apply O; [exact H1|apply text_line; reflexivity]].
  rewrite lines_key; [|reflexivity|apply text_line; reflexivity].
  rewrite lines_key; [|reflexivity|apply O; [exact H2|apply text_line; reflexivity]].
  rewrite lines_key; [|reflexivity|apply O; [exact H3|intros []]].
  rewrite lines_key; [|reflexivity|apply text_line; reflexivity].
  rewrite lines_key; [|reflexivity|intros I; pose proof (dec_digits (wl_intent l)) as F; rewrite Forall_forall in F; apply F in I; lia].
  rewrite <- (app_nil_r NL) at 1. rewrite lines_text by reflexivity. reflexivity.
Qed.
Lemma key_inj k v v' : text k ++ [61] ++ v = text (k ++ "=") ++ v' -> v = v'.
Proof.
  assert (E : text (k ++ "=") = text k ++ [61]).
  { unfold text. clear. induction k as [|a k IH]; [reflexivity|]. cbn [String.append list_ascii_of_string map app] in *. now rewrite IH. }
  rewrite E, <- app_assoc. intros H. apply app_inv_head in H. apply app_inv_head in H. exact H.
Qed.
Lemma conf_configures l : one_line (wl_name l) -> one_line (wl_methods l) -> one_line (wl_driver l) -> configures l (wpa_conf l).
Proof.
  intros H1 H2 H3 key v K. unfold assigns. rewrite (conf_lines l H1 H2 H3).
  remember (or (wl_name l) (text "unknown")) as nm. remember (or (wl_methods l) (text "pbc")) as me. remember (or (wl_driver l) []) as dr. remember (dec (wl_intent l)) as it.
  clear H1 H2 H3 Heqnm Heqme Heqdr Heqit.
  repeat (destruct K as [<-|K]; [match goal with |- _ <-> v = ?x => let y := eval cbv [String.eqb Ascii.eqb Bool.eqb] in x in change x with y end; split;
    [intros I; repeat (destruct I as [I|I]; [try discriminate I; symmetry in I; exact (key_inj _ _ _ I)|]); destruct I
    |intros ->; cbn [In]; repeat (first [left; reflexivity|right])]|]).
  destruct K.
Qed.
(** The flag of the debug level. *)
Lemma wpa_fits s b c i g : lenN (wpa_argv s b c i g) + 1 <= 64.
Proof.
  unfold wpa_argv. destruct (7 <=? w_wpa s), (6 <=? w_wpa s), (w_wpa s <? 3), (w_wpa s <? 5), (w_syslog s); cbn [app]; rewrite !lenN_cons, lenN_nil; lia.
Qed.
Lemma wpa_verbosity s b c i g : let f := nth 1 (wpa_argv s b c i g) [] in
  (f = text "-dd" <-> 7 <= w_wpa s) /\ (f = text "-d" <-> w_wpa s = 6) /\ (f = text "-c" <-> w_wpa s = 5)
  /\ (f = text "-q" <-> 3 <= w_wpa s <= 4) /\ (f = text "-qq" <-> w_wpa s < 3)
  /\ (g <> text "-s" -> (last (wpa_argv s b c i g) [] = text "-s" <-> w_syslog s = true)).
Proof.
  unfold wpa_argv. destruct (N.leb_spec 7 (w_wpa s)), (N.leb_spec 6 (w_wpa s)), (N.ltb_spec (w_wpa s) 3), (N.ltb_spec (w_wpa s) 5); try lia;
    destruct (w_syslog s); cbn [app nth last]; repeat split; intros; try lia; try discriminate; try reflexivity; try contradiction; try congruence.
Qed.
