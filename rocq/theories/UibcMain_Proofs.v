(** Proofs about miracle-uibcctl. *)
From Coq Require Import String.
From Verif Require Import Base Text Text_Proofs Uibc_Model Uibc_Spec Uibc_Proofs UibcMain_Model UibcMain_Spec.
Local Open Scope list_scope.
Local Open Scope N_scope.

(** Lines. *)
Lemma fgets_line s r : forall n, ~ In 10 s -> (List.length s < n)%nat -> fgets n (s ++ 10 :: r) = (s ++ [10], r).
Proof.
  induction s as [|c s IH]; intros [|n] H L; cbn [List.length] in L; try lia; cbn [app fgets]; [reflexivity|].
  rewrite (proj2 (N.eqb_neq c 10)) by (intros ->; apply H; now left). rewrite IH; [reflexivity|intros X; apply H; now right|lia].
Qed.
Lemma cstr_line s : ~ In 0 s -> cstr s = s.
Proof. induction s as [|c s IH]; intros H; cbn [cstr]; [reflexivity|]. rewrite (proj2 (N.eqb_neq c 0)) by (intros ->; apply H; now left). f_equal. apply IH. intros X. apply H. now right. Qed.
Lemma fgets_len n : forall s, (List.length (snd (fgets n s)) <= List.length s)%nat /\ (fst (fgets n s) <> [] -> (List.length (snd (fgets n s)) < List.length s)%nat).
Proof.
  induction n as [|n IH]; intros s; [cbn; split; [lia|congruence]|]. destruct s as [|c s]; [cbn; split; [lia|congruence]|]. cbn [fgets]. destruct (c =? 10); [cbn; split; lia|].
  specialize (IH s). destruct (fgets n s) as [l r]. cbn [fst snd List.length] in *. split; intros; lia.
Qed.
(** The end is reached. *)
Lemma session_ends w : forall fuel k s, (List.length s < fuel)%nat -> session fuel w k s <> Endless.
Proof.
  induction fuel as [|fuel IH]; intros k s L; [lia|]. cbn [session]. pose proof (proj2 (fgets_len room s)) as G. destruct (fgets room s) as [chunk rest]. cbn [fst snd] in G.
  destruct (cstr chunk) as [|c line] eqn:E; [discriminate|]. assert (HC : chunk <> []) by (intros ->; discriminate). specialize (G HC).
  destruct (build (c :: line)) as [[m|]|]; [|apply IH; lia|discriminate]. destruct (w k) as [n|]; [|discriminate].
  specialize (IH (S k) rest ltac:(lia)). destruct (session fuel w (S k) rest); cbn [obind]; congruence.
Qed.
Theorem uibcctl_ends w s : uibcctl w s <> Endless.
Proof. apply session_ends. lia. Qed.

(** Hexadecimal numbers. *)
Lemma hexdigit_of d : d < 16 -> hex_of (hexdigit d) = Some d.
Proof.
  intros H. unfold hexdigit, hex_of. destruct (N.ltb_spec d 10).
  - rewrite !(proj2 (N.leb_le _ _)) by lia. cbn [andb]. f_equal. lia.
  - rewrite (proj2 (N.leb_gt (55 + d) 57)) by lia. rewrite andb_false_r. rewrite !(proj2 (N.leb_le _ _)) by lia. cbn [andb]. f_equal. lia.
Qed.
Lemma hexn_digits k : forall n, Forall (fun c => exists d, d < 16 /\ c = hexdigit d) (hexn k n).
Proof. induction k as [|k IH]; intros n; cbn [hexn]; [constructor|]. apply Forall_app. split; [apply IH|]. repeat constructor. exists (n mod 16). split; [apply N.mod_lt; lia|reflexivity]. Qed.
Lemma hexn_len k : forall n, List.length (hexn k n) = k.
Proof. induction k as [|k IH]; intros n; cbn [hexn]; [reflexivity|]. rewrite app_length, IH. cbn. lia. Qed.
Lemma hexes_app w c s : forall a acc, (List.length a < w)%nat -> Forall (fun c => exists d, d < 16 /\ c = hexdigit d) a ->
  hexes w (a ++ c :: s) acc = match hex_of c with Some d => hexes (w - List.length a - 1) s (16 * hexes (List.length a) a acc + d) | None => hexes (List.length a) a acc end.
Proof.
  induction w as [|w IH]; intros a acc L F; [lia|]. destruct F as [|x a (d & Hd & ->) F]; cbn [app hexes List.length].
  - replace (S w - 0 - 1)%nat with w by lia. destruct (hex_of c); reflexivity.
  - rewrite hexdigit_of by exact Hd. cbn [List.length] in L. rewrite IH by (auto; lia). replace (S w - S (List.length a) - 1)%nat with (w - List.length a - 1)%nat by lia. reflexivity.
Qed.
Lemma hexes_hexn k : forall n acc, hexes k (hexn k n) acc = acc * 16 ^ N.of_nat k + n mod 16 ^ N.of_nat k.
Proof.
  induction k as [|k IH]; intros n acc; cbn [hexn]; [cbn [hexes]; change (16 ^ N.of_nat 0) with 1; rewrite N.mod_1_r; lia|].
  rewrite hexes_app by (try apply hexn_digits; rewrite hexn_len; lia). rewrite hexn_len, hexdigit_of by (apply N.mod_lt; lia). replace (S k - k - 1)%nat with 0%nat by lia. cbn [hexes]. rewrite IH.
  rewrite Nat2N.inj_succ, N.pow_succ_r'. assert (P : 16 ^ N.of_nat k <> 0) by (apply N.pow_nonzero; lia). rewrite (N.mod_mul_r n 16 (16 ^ N.of_nat k)) by (auto; lia). lia.
Qed.
(** Four digits are read, whatever follows. *)
Lemma hexes_more k : forall a s acc, List.length a = k -> Forall (fun c => exists d, d < 16 /\ c = hexdigit d) a -> hexes k (a ++ s) acc = hexes k a acc.
Proof.
  induction k as [|k IH]; intros [|x a] s acc L F; cbn [List.length] in L; try lia; [reflexivity|]. inversion F as [|? ? (d & Hd & ->) F']; subst. cbn [app hexes]. rewrite hexdigit_of by exact Hd. apply IH; auto; lia.
Qed.
Lemma hexdigit_range d : d < 16 -> (48 <= hexdigit d <= 57 \/ 65 <= hexdigit d <= 70).
Proof. unfold hexdigit. destruct (N.ltb_spec d 10); lia. Qed.
Lemma hexn_4 n : n < 65536 -> exists a b c d, hexn 4 n = [hexdigit a; hexdigit b; hexdigit c; hexdigit d] /\ a < 16 /\ b < 16 /\ c < 16 /\ d < 16 /\ n = ((a * 16 + b) * 16 + c) * 16 + d.
Proof. intros H. exists (n / 16 / 16 / 16 mod 16), (n / 16 / 16 mod 16), (n / 16 mod 16), (n mod 16). split; [reflexivity|]. repeat split; try (apply N.mod_lt; lia). lia. Qed.
Lemma scan_hex n s : n < 65536 -> scan (48 :: 120 :: hexn 4 n ++ s) = Some (Z.of_N n).
Proof.
  intros H. destruct (hexn_4 n H) as (a & b & c & d & E & Ha & Hb & Hc & Hd & En). rewrite E. unfold scan. change (skip_space (48 :: 120 :: ?t)) with (48 :: 120 :: t). change ((48 =? 48) && (120 =? 120)) with true. cbv iota.
  pose proof (hexdigit_range a Ha) as Ra. pose proof (hexdigit_range b Hb) as Rb. cbn [app skip_space]. replace (is_space (hexdigit a)) with false by (unfold is_space; lia).
  rewrite (proj2 (N.eqb_neq (hexdigit a) 45)), (proj2 (N.eqb_neq (hexdigit a) 43)) by lia. unfold field. rewrite hexdigit_of by exact Ha. replace (is_x (hexdigit b)) with false by (unfold is_x; lia). rewrite andb_false_r.
  change ((48 =? 48) && (120 =? 120)) with true. cbv iota. cbn [hexes]. rewrite !hexdigit_of by assumption. do 2 f_equal. lia.
Qed.

(** What one line gives. *)
Lemma toks_len toks vs : Forall2 denotes toks vs -> toks <> [] -> lenN toks <= lenN (join toks).
Proof.
  induction 1 as [|t v toks vs D F IH]; intros HN; [congruence|]. pose proof (denotes_nonempty _ _ D) as NE. assert (1 <= lenN t) by (destruct t; [congruence|rewrite lenN_cons; lia]).
  destruct toks as [|t' toks]; [cbn [join]; rewrite lenN_cons; change (lenN (@nil (list byte))) with 0; lia|]. change (join (t :: t' :: toks)) with (t ++ COMMA :: join (t' :: toks)). specialize (IH ltac:(discriminate)).
  rewrite lenN_app. rewrite (lenN_cons COMMA). rewrite (lenN_cons t). lia.
Qed.
Lemma describes_len s type ps : describes s type ps -> 3 * lenN ps <= lenN s.
Proof.
  intros (toks & -> & _ & F). pose proof (Forall2_lenN _ _ _ F) as L. unfold numbers in L. rewrite !lenN_cons in L. change (flat_map _ ps) with (flat_map pnums ps) in L. rewrite flat_pnums_len in L.
  assert (toks <> []) by (intros ->; change (lenN (@nil (list byte))) with 0 in L; lia). pose proof (toks_len _ _ F H). lia.
Qed.
Lemma touch_message_len type ps : lenN (touch_message type ps) <= 9 + 5 * lenN ps.
Proof.
  unfold touch_message. rewrite !lenN_app, !lenN_cons, lenN_rep. change (flat_map _ ps) with (flat_map pbytes ps). rewrite flat_pbytes_len. change (lenN (Uibc_Spec.be16 _)) with 2. change (lenN (@nil byte)) with 0.
  rewrite N2Nat.id. pose proof (N.mod_lt (7 + (1 + 5 * lenN ps)) 2). lia.
Qed.
Lemma line_touch c s type ps : c = 48 \/ c = 49 -> describes (c :: s) type ps -> 1 <= lenN ps -> lenN (c :: s) <= 254 -> Forall (fun v => v < 2 ^ 31) (numbers type ps) ->
  build (c :: s) = Ok (Some (map Some (touch_message type ps))).
Proof.
  intros HC HD HB HL HV. pose proof (describes_len _ _ _ HD) as L. destruct (touch_packet_ok (c :: s) type ps HD HB) as (p & E & _ & EC & _); [change (2 ^ 28) with 268435456; lia|exact HV|].
  unfold build. replace ((c =? 48) || (c =? 49)) with true by (symmetry; lia). rewrite E. cbn [bind packet_of]. now rewrite EC.
Qed.
Lemma denotes_digit d : d < 10 -> denotes [48 + d] d.
Proof. intros H. exists [], [], [48 + d], []. split; [reflexivity|]. split; [constructor|]. split; [now left|]. split; [discriminate|]. split; [repeat constructor; unfold digit; lia|]. split; [cbn [dec]; lia|exact I]. Qed.
Lemma hexn_commas k n : ~ In COMMA (hexn k n).
Proof. intros X. pose proof (proj1 (Forall_forall _ _) (hexn_digits k n) _ X) as (d & Hd & E). pose proof (hexdigit_range d Hd). unfold COMMA in *. lia. Qed.
Lemma key_text t k1 k2 : t = 3 \/ t = 4 -> Text.dec t ++ text ",0x" ++ hexn 4 k1 ++ text ",0x" ++ hexn 4 k2 ++ [10] = join [[48 + t]; 48 :: 120 :: hexn 4 k1; 48 :: 120 :: hexn 4 k2 ++ [10]].
Proof. intros HT. assert (Text.dec t = [48 + t]) as -> by (destruct HT as [-> | ->]; reflexivity). reflexivity. Qed.
Lemma line_key t k1 k2 : t = 3 \/ t = 4 -> k1 < 65536 -> k2 < 65536 -> build (Text.dec t ++ text ",0x" ++ hexn 4 k1 ++ text ",0x" ++ hexn 4 k2 ++ [10]) = Ok (Some (map Some (key_message t k1 k2))).
Proof.
  intros HT H1 H2. rewrite key_text by exact HT. destruct (key_ok scan (join [[48 + t]; 48 :: 120 :: hexn 4 k1; 48 :: 120 :: hexn 4 k2 ++ [10]]) [48 + t] (48 :: 120 :: hexn 4 k1) (48 :: 120 :: hexn 4 k2 ++ [10]) t k1 k2 eq_refl) as (p & E & EC & _).
  - repeat constructor; try discriminate; intros X; unfold COMMA in X.
    + destruct X as [X|[]]. lia.
    + destruct X as [X|[X|X]]; try discriminate. now apply hexn_commas in X.
    + destruct X as [X|[X|X]]; try discriminate. apply in_app_or in X as [X|[X|[]]]; [now apply hexn_commas in X|discriminate].
  - apply denotes_digit. lia. - change (2 ^ 31) with 2147483648. lia.
  - rewrite <- (app_nil_r (hexn 4 k1)). now apply scan_hex. - now apply scan_hex.
  - change (join [[48 + t]; 48 :: 120 :: hexn 4 k1; 48 :: 120 :: hexn 4 k2 ++ [10]]) with ((48 + t) :: 44 :: join [48 :: 120 :: hexn 4 k1; 48 :: 120 :: hexn 4 k2 ++ [10]]) in *. unfold build. replace ((48 + t =? 48) || (48 + t =? 49)) with false by (symmetry; lia). replace ((48 + t =? 51) || (48 + t =? 52)) with true by (symmetry; lia).
    rewrite E. cbn [bind packet_of]. now rewrite EC.
Qed.
(** Every line. *)
Lemma stands_build l m : stands l m -> lenN l <= 254 -> ~ moves l -> l <> [] /\ lenN m <= 65536 /\ (build l = Ok (Some (map Some m)) \/ (build l = Ok None /\ m = [])).
Proof.
  intros H HL HM. destruct H as [c s type ps HC HD HB HV|t k1 k2 HT H1 H2|c s HC].
  - split; [discriminate|]. split; [pose proof (describes_len _ _ _ HD); pose proof (touch_message_len type ps); lia|]. left. apply line_touch; auto. destruct HC as [-> | [-> | ->]]; auto. elim HM. now exists s.
  - split; [destruct HT as [-> | ->]; discriminate|]. split; [change (lenN (key_message t k1 k2)) with 12; lia|]. left. now apply line_key.
  - split; [discriminate|]. split; [change (lenN (@nil byte)) with 0; lia|]. right. split; [|reflexivity]. unfold build. replace ((c =? 48) || (c =? 49)) with false by (symmetry; lia). replace ((c =? 51) || (c =? 52)) with false by (symmetry; lia). reflexivity.
Qed.
Lemma session_lines w : takes_all w -> forall ls ms, Forall2 stands ls ms -> Forall is_line ls -> Forall (fun l => lenN l <= 254 /\ ~ moves l) ls ->
  forall fuel k, (List.length (concat ls) < fuel)%nat -> session fuel w k (concat ls) = Ret (map Some (concat ms), true).
Proof.
  intros HW. induction 1 as [|l m ls ms S F IH]; intros HL HB fuel k HF; destruct fuel as [|fuel]; cbn [List.length concat] in HF; try lia.
  - cbn [concat session]. assert (fgets room [] = ([], [])) as -> by reflexivity. reflexivity.
  - inversion HL as [|? ? (s & E & N1 & N0) HL']; subst. inversion HB as [|? ? [B1 B2] HB']; subst. destruct (stands_build _ _ S B1 B2) as (NE & LM & HBd).
    cbn [concat session]. rewrite <- app_assoc. cbn [app]. rewrite fgets_line; [|exact N1|unfold lenN in B1; rewrite app_length in B1; cbn [List.length] in B1; unfold room; lia].
    rewrite cstr_line by (intros X; apply in_app_or in X as [X|[X|[]]]; [contradiction|discriminate]). destruct (s ++ [10]) as [|c0 l0] eqn:EL; [congruence|].
    cbn [app List.length] in HF. rewrite app_length in HF.
    destruct HBd as [-> | [-> ->]].
    + destruct (HW k) as (n & -> & Hn). rewrite IH by (auto; lia). cbn [obind fst snd]. rewrite takeN_all by (unfold lenN in *; rewrite map_length; change (2 ^ 16) with 65536 in Hn; lia). now rewrite map_app.
    + apply IH; auto. lia.
Qed.
Theorem uibcctl_lines w ls ms : takes_all w -> Forall2 stands ls ms -> Forall is_line ls -> Forall (fun l => lenN l <= 254 /\ ~ moves l) ls -> uibcctl w (concat ls) = Ret (map Some (concat ms), true).
Proof. intros. apply session_lines; auto. Qed.
