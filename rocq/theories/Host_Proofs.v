(** Proofs about the functions of Host_Model. *)
From Coq Require Import String.
From Verif Require Import Base Text Host_Model Host_Spec.
From Verif Require Log_Model Log_Spec Log_Proofs WpasMsg_Model WpasMsg_Proofs Cli_Proofs.
Local Open Scope list_scope.
Local Open Scope N_scope.

(** ** The configuration file *)
Lemma strip_rev : forall home, no_slash_end home -> rev (strip (rev home)) = home.
Proof.
  intros home [H L]. destruct (exists_last H) as (l & x & ->). rewrite last_last in L.
  rewrite rev_app_distr. cbn [rev app strip]. unfold slash. replace (x =? 47) with false by lia.
  cbn [rev]. now rewrite rev_involutive.
Qed.
Lemma build_home : forall home es, no_slash_end home -> build home es = home ++ slash :: join es.
Proof. intros home es H. unfold build. rewrite strip_rev by exact H. destruct home; [destruct H; congruence|reflexivity]. Qed.
Lemma paths_places : forall home, no_slash_end home -> config_paths home = places home.
Proof. intros home H. unfold config_paths. rewrite !build_home by exact H. reflexivity. Qed.
Lemma load_loop_first : forall A (fs : list byte -> ini A) paths gkf r,
  load_loop fs gkf paths = Some r <->
  exists l p u c, paths = l ++ p :: u /\ fs p = Loads c /\ r = Some c /\ forall q, In q l -> forall d, fs q <> Loads d.
Proof.
  intros A fs. induction paths as [|p paths IH]; intros gkf r; cbn [load_loop].
  - split; [discriminate|]. intros ([|] & p & u & c & E & _); discriminate E.
  - destruct (fs p) as [c|c|] eqn:F; cbn [key_file_load].
    + split.
      * intros [= <-]. exists [], p, paths, c. repeat split; [exact F|]. intros q [].
      * intros (l & q & u & d & E & L & -> & N0). destruct l as [|x l].
        -- cbn in E. injection E as <- <-. congruence.
        -- cbn in E. injection E as <- ->. exfalso. eapply N0; [left; reflexivity|exact F].
    + rewrite IH. split.
      * intros (l & q & u & d & -> & L & R & N0). exists (p :: l), q, u, d. repeat split; try assumption.
        intros y [<-|I] z; [congruence|]. apply N0, I.
      * intros (l & q & u & d & E & L & R & N0). destruct l as [|x l]; cbn in E; injection E as -> ->; [congruence|].
        exists l, q, u, d. repeat split; try assumption. intros y I. apply N0. right. exact I.
    + rewrite IH. split.
      * intros (l & q & u & d & -> & L & R & N0). exists (p :: l), q, u, d. repeat split; try assumption.
        intros y [<-|I] z; [congruence|]. apply N0, I.
      * intros (l & q & u & d & E & L & R & N0). destruct l as [|x l]; cbn in E; injection E as -> ->; [congruence|].
        exists l, q, u, d. repeat split; try assumption. intros y I. apply N0. right. exact I.
Qed.
Lemma load_first : forall A (fs : list byte -> ini A) home r, no_slash_end home ->
  (load_ini_file fs home = Some r <->
   exists l p u c, places home = l ++ p :: u /\ fs p = Loads c /\ r = Some c /\ forall q, In q l -> forall d, fs q <> Loads d).
Proof. intros A fs home r H. unfold load_ini_file. rewrite paths_places by exact H. apply load_loop_first. Qed.
Lemma load_loop_none : forall A (fs : list byte -> ini A) paths gkf,
  load_loop fs gkf paths = None <-> forall p, In p paths -> forall c, fs p <> Loads c.
Proof.
  intros A fs. induction paths as [|p paths IH]; intros gkf; cbn [load_loop].
  - split; [intros _ p []|reflexivity].
  - destruct (fs p) as [c|c|] eqn:F; cbn [key_file_load].
    + split; [discriminate|]. intros H. exfalso. eapply H; [left; reflexivity|exact F].
    + rewrite IH. split; [|intros H q I; apply H; right; exact I]. intros H q [<-|I] d; [congruence|]. apply H, I.
    + rewrite IH. split; [|intros H q I; apply H; right; exact I]. intros H q [<-|I] d; [congruence|]. apply H, I.
Qed.
Lemma load_none : forall A (fs : list byte -> ini A) home, no_slash_end home ->
  (load_ini_file fs home = None <-> forall p, In p (places home) -> forall c, fs p <> Loads c).
Proof. intros A fs home H. unfold load_ini_file. rewrite paths_places by exact H. apply load_loop_none. Qed.

(** ** Interfaces *)
Lemma until_none : forall c l, ~ In c l -> until c l = l.
Proof.
  induction l as [|x l IH]; intros H; [reflexivity|]. cbn [until]. replace (x =? c) with false.
  - rewrite IH; [reflexivity|]. intros I. apply H. right. exact I.
  - symmetry. apply N.eqb_neq. intros ->. apply H. left. reflexivity.
Qed.
Lemma until_app : forall c l r, ~ In c l -> until c (l ++ c :: r) = l.
Proof.
  induction l as [|x l IH]; intros r H; cbn [until app].
  - now rewrite N.eqb_refl.
  - replace (x =? c) with false.
    + rewrite IH; [reflexivity|]. intros I. apply H. right. exact I.
    + symmetry. apply N.eqb_neq. intros ->. apply H. left. reflexivity.
Qed.
Lemma copied : forall name, lenN name <= 15 -> ~ In 0 name -> until 0 (takeN 15 (strncpy name 16)) = name.
Proof.
  intros name L Z. unfold strncpy, takeN, lenN in *. rewrite (firstn_all2 (n := N.to_nat 16) name) by lia.
  replace (N.to_nat (16 - N.of_nat (length name))) with (S (15 - length name))%nat by lia.
  cbn [repeat]. rewrite firstn_app, (firstn_all2 (n := N.to_nat 15) name) by lia.
  destruct (N.to_nat 15 - length name)%nat as [|k] eqn:E.
  - cbn [firstn]. rewrite app_nil_r. apply until_none, Z.
  - cbn [firstn]. apply until_app, Z.
Qed.
Lemma find_dev : forall (ifs : list (list byte * N)) name (i : N), NoDup (map fst ifs) ->
  (option_map snd (find (fun e => str_eq (fst e) name) ifs) = Some i <-> In (name, i) ifs).
Proof.
  induction ifs as [|[n j] ifs IH]; intros name i H; [split; [discriminate|intros []]|].
  cbn [map fst] in H. inversion H; subst. cbn [find fst]. destruct (str_eq n name) eqn:E.
  - apply Cli_Proofs.str_eq_spec in E. subst n. cbn. split.
    + intros [= ->]. left. reflexivity.
    + intros [[= ->]|I]; [reflexivity|]. destruct H2. apply in_map_iff. exists (name, i). split; [reflexivity|exact I].
  - rewrite IH by assumption. split; [right; assumption|]. intros [[= -> ->]|I]; [|exact I].
    assert (X := Cli_Proofs.str_eq_refl name). congruence.
Qed.
Lemma index_exact : forall ifs name i, netdevs ifs -> lenN name <= 15 -> ~ In 0 name -> ~ In 58 name ->
  (if_name_to_index ifs None name = Z.of_N i <-> In (name, i) ifs).
Proof.
  intros ifs name i [D V] L Z C. unfold if_name_to_index, siocgifindex, IFNAMSIZ.
  replace (16 <? lenN name) with false by lia. change (16 - 1) with 15. rewrite copied by assumption.
  rewrite until_none by exact C. split.
  - destruct (option_map snd _) as [j|] eqn:E; intros X; [|lia].
    assert (j = i) by lia. subst j. apply find_dev in E; assumption.
  - intros I. apply find_dev in I; [|exact D]. rewrite I. reflexivity.
Qed.
Lemma index_error : forall ifs sock name, netdevs ifs -> lenN name <> 16 -> ~ In 0 name -> ~ In 58 name ->
  (forall i, ~ In (name, i) ifs) -> (if_name_to_index ifs sock name < 0)%Z.
Proof.
  intros ifs sock name [D V] L Z C H. unfold if_name_to_index, siocgifindex, IFNAMSIZ.
  destruct (16 <? lenN name) eqn:G; [lia|]. destruct sock as [e|]; [lia|].
  change (16 - 1) with 15. rewrite copied by (assumption || lia). rewrite until_none by exact C.
  destruct (option_map snd _) as [j|] eqn:E; [|lia]. apply find_dev in E; [|exact D]. destruct (H j E).
Qed.
Lemma cex_long : exists ifs name i, netdevs ifs /\ (forall j, ~ In (name, j) ifs)
  /\ if_name_to_index ifs None name = Z.of_N i /\ 1 <= i /\ lenN name = 16 /\ ~ In 58 name.
Proof.
  exists [(text "p2p-wlp0s20f3u1", 7)], (text "p2p-wlp0s20f3u12"), 7. split.
  { split; [repeat constructor; intros []|]. intros n i [[= <- <-]|[]]. split; [vm_compute; split; discriminate|].
    split; [vm_compute; intuition discriminate|]. split; [vm_compute; intuition discriminate|lia]. }
  split; [intros j [[= E]|[]]|]. split; [vm_compute; reflexivity|]. split; [lia|]. split; [reflexivity|].
  vm_compute. intuition discriminate.
Qed.
Lemma cex_alias : exists ifs name i, netdevs ifs /\ (forall j, ~ In (name, j) ifs)
  /\ if_name_to_index ifs None name = Z.of_N i /\ 1 <= i /\ lenN name <= 15.
Proof.
  exists [(text "wlan0", 3)], (text "wlan0:1"), 3. split.
  { split; [repeat constructor; intros []|]. intros n i [[= <- <-]|[]]. split; [vm_compute; split; discriminate|].
    split; [vm_compute; intuition discriminate|]. split; [vm_compute; intuition discriminate|lia]. }
  split; [intros j [[= E]|[]]|]. split; [vm_compute; reflexivity|]. split; [lia|]. vm_compute. discriminate.
Qed.

(** ** The connection *)
Lemma begin_ok : forall hosts conn prog host n more a, n < 2 ^ 16 -> hosts host = Some a ->
  uibc_begin hosts true conn (prog :: host :: dec n :: more) = Ok (if conn a n then Connected a n else Exit 1).
Proof.
  intros hosts conn prog host n more a L H. unfold uibc_begin.
  rewrite WpasMsg_Proofs.atoi_back by (change (2 ^ 16) with 65536 in L; change (2 ^ 31) with 2147483648; lia).
  cbn [bind]. rewrite H. cbn [negb]. change (2 ^ 16)%Z with 65536%Z. change (2 ^ 16) with 65536 in L.
  replace (Z.to_N (Z.of_N n mod 65536)) with n by (rewrite Z.mod_small by lia; lia).
  destruct (conn a n); reflexivity.
Qed.
Lemma begin_few : forall hosts sock conn args, lenN args < 3 -> uibc_begin hosts sock conn args = Ok (Exit 1).
Proof.
  intros hosts sock conn args H. destruct args as [|a [|b [|c l]]]; try reflexivity.
  exfalso. revert H. unfold lenN. cbn [length]. lia.
Qed.
(** Whatever it is connected to, the host is the one that was given. *)
Lemma begin_host : forall hosts sock conn prog host port more a p,
  uibc_begin hosts sock conn (prog :: host :: port :: more) = Ok (Connected a p) -> hosts host = Some a /\ conn a p = true /\ p < 2 ^ 16.
Proof.
  intros hosts sock conn prog host port more a p H. unfold uibc_begin in H.
  destruct (WpasMsg_Model.atoi port) as [n|]; [|discriminate H]. cbn [bind] in H.
  destruct (hosts host) as [b|]; [|discriminate H]. destruct sock; [|discriminate H]. cbn [negb] in H.
  destruct (conn b (Z.to_N (n mod 2 ^ 16))) eqn:C; [|discriminate H]. injection H as <- <-.
  split; [reflexivity|]. split; [exact C|]. change (2 ^ 16)%Z with 65536%Z. change (2 ^ 16) with 65536. lia.
Qed.
Definition local : list byte -> option (list byte) := fun h => if str_eq h (text "localhost") then Some [127; 0; 0; 1] else None.
Lemma cex_nohost : exists hosts conn args, lenN args = 3 /\ (exists h, nth_error args 1 = Some h /\ hosts h = None)
  /\ uibc_begin hosts true conn args = Ok (Exit 0).
Proof.
  exists local, (fun _ _ => true), [text "miracle-uibcctl"; text "sink"; text "7239"]. split; [reflexivity|].
  split; [exists (text "sink"); split; vm_compute; reflexivity|]. vm_compute. reflexivity.
Qed.
Lemma cex_port : exists hosts conn n a p, 2 ^ 16 <= n /\ p <> n
  /\ uibc_begin hosts true conn [text "miracle-uibcctl"; text "localhost"; dec n] = Ok (Connected a p).
Proof.
  exists local, (fun _ _ => true), 72775, [127; 0; 0; 1], 7239. split; [vm_compute; discriminate|].
  split; [discriminate|]. vm_compute. reflexivity.
Qed.
Lemma cex_word : exists hosts conn p, uibc_begin hosts true conn [text "miracle-uibcctl"; text "localhost"; text "http"] = Ok (Connected p 0).
Proof. exists local, (fun _ _ => true), [127; 0; 0; 1]. vm_compute. reflexivity. Qed.

(** ** Binary numbers *)
Lemma bin_fold : forall l a, fold_left (fun a c => 2 * a + Z.of_N (c - 48))%Z l a = (a * 2 ^ Z.of_nat (length l) + bin_val l)%Z.
Proof.
  unfold bin_val. induction l as [|c l IH]; intros a; [cbn; lia|]. cbn [fold_left length]. rewrite IH.
  rewrite (IH (2 * 0 + _)%Z). rewrite Nat2Z.inj_succ, Z.pow_succ_r by lia. lia.
Qed.
Lemma land_pow2 : forall x n, (0 <= n)%Z -> (Z.land x (2 ^ n) =? 2 ^ n)%Z = Z.testbit x n.
Proof.
  intros x n H. destruct (Z.testbit x n) eqn:T.
  - apply Z.eqb_eq. apply Z.bits_inj'. intros m M. rewrite Z.land_spec.
    rewrite Z.pow2_bits_eqb by lia. destruct (n =? m)%Z eqn:E; [apply Z.eqb_eq in E; subst m; rewrite T; reflexivity|apply andb_false_r].
  - apply Z.eqb_neq. intros X. assert (Y := f_equal (fun z => Z.testbit z n) X). cbn beta in Y.
    rewrite Z.land_spec, T, Z.pow2_bits_eqb, Z.eqb_refl in Y by lia. discriminate Y.
Qed.
Lemma mod_step : forall x n, (0 <= n)%Z -> (x mod 2 ^ (n + 1) = (if Z.testbit x n then 2 ^ n else 0) + x mod 2 ^ n)%Z.
Proof.
  intros x n H. rewrite Z.pow_add_r, Z.rem_mul_r by lia. change (2 ^ 1)%Z with 2%Z.
  assert (T := Z.testbit_spec' x n H). destruct (Z.testbit x n); cbn [Z.b2z] in T; rewrite <- T; lia.
Qed.
Lemma bits_ok : forall n x, let b := bits (S n) x (2 ^ Z.of_nat n) in
  length b = S n /\ forallb is_bit b = true /\ bin_val b = (x mod 2 ^ (Z.of_nat n + 1))%Z.
Proof.
  induction n as [|n IH]; intros x b.
  - subst b. cbn [bits Z.of_nat]. change (2 ^ 0)%Z with 1%Z. cbn [Z.ltb Z.compare].
    assert (L := land_pow2 x 0 ltac:(lia)). change (2 ^ 0)%Z with 1%Z in L. rewrite L. change (2 ^ (0 + 1))%Z with 2%Z.
    assert (T := Z.testbit_spec' x 0 ltac:(lia)). change (2 ^ 0)%Z with 1%Z in T. rewrite Z.div_1_r in T.
    destruct (Z.testbit x 0); cbn [Z.b2z] in T; rewrite <- T; repeat split.
  - set (f := S n) in b. subst b. cbn [bits].
    replace (0 <? 2 ^ Z.of_nat f)%Z with true by (symmetry; apply Z.ltb_lt, Z.pow_pos_nonneg; lia).
    rewrite land_pow2 by lia. rewrite mod_step by lia.
    replace (Z.shiftr (2 ^ Z.of_nat f) 1) with (2 ^ Z.of_nat n)%Z.
    2: { rewrite Z.shiftr_div_pow2 by lia. unfold f. rewrite Nat2Z.inj_succ, Z.pow_succ_r by lia. change (2 ^ 1)%Z with 2%Z.
         rewrite Z.mul_comm, Z.div_mul by lia. reflexivity. }
    destruct (IH x) as (L & B & V). fold f in L, B, V.
    replace (Z.of_nat n + 1)%Z with (Z.of_nat f) in V by lia. split; [|split].
    + cbn [length]. rewrite L. reflexivity.
    + cbn [forallb]. rewrite B. destruct (Z.testbit x (Z.of_nat f)); reflexivity.
    + unfold bin_val. cbn [fold_left]. rewrite bin_fold, V, L. fold f.
      destruct (Z.testbit x (Z.of_nat f)); [change (Z.of_N (49 - 48)) with 1%Z|change (Z.of_N (48 - 48)) with 0%Z]; lia.
Qed.
Lemma width_eq : forall x padding, (0 <= width x padding)%Z ->
  (let m := if (0 <? x)%Z then Z.log2 x else 0%Z in if (padding <? m)%Z then m else padding) = width x padding.
Proof.
  intros x padding H. cbv zeta. unfold width in *. destruct (0 <? x)%Z eqn:X.
  - destruct (padding <? Z.log2 x)%Z eqn:Y; lia.
  - rewrite Z.log2_nonpos in * by lia. destruct (padding <? 0)%Z eqn:Y; lia.
Qed.
Lemma width_pos : forall x padding, (0 <= width x padding)%Z.
Proof. intros. unfold width. assert (X := Z.log2_nonneg x). lia. Qed.
Lemma int2binary_ok : forall x padding, (1 <= width x padding <= 30)%Z ->
  exists b, int2binary x padding = Ok b /\ Z.of_N (lenN b) = (width x padding + 1)%Z /\ forallb is_bit b = true
            /\ bin_val b = (x mod 2 ^ (width x padding + 1))%Z.
Proof.
  intros x padding H. unfold int2binary. assert (W := width_eq x padding ltac:(lia)). cbv zeta in W. cbv zeta. rewrite W. clear W.
  set (p := width x padding) in *. replace (31 <=? p)%Z with false by lia.
  destruct (bits_ok (Z.to_nat p) x) as (L & B & V). rewrite Z2Nat.id in L, B, V by lia.
  set (b := bits (S (Z.to_nat p)) x (2 ^ p)%Z) in *. clearbody b. unfold lenN. rewrite L.
  replace (N.of_nat (S (Z.to_nat p)) + 1 <=? 8 * Z.to_N p + 1) with true by lia.
  exists b. split; [reflexivity|]. rewrite L. split; [lia|]. split; assumption.
Qed.
Lemma int2binary_ub : forall x padding, (width x padding = 0 \/ 31 <= width x padding)%Z -> int2binary x padding = UB.
Proof.
  intros x padding H. unfold int2binary. assert (W := width_eq x padding (width_pos x padding)). cbv zeta in W. cbv zeta. rewrite W. clear W.
  set (p := width x padding) in *. destruct (31 <=? p)%Z eqn:P; [reflexivity|].
  destruct (bits_ok (Z.to_nat p) x) as (L & _). rewrite Z2Nat.id in L by lia.
  set (b := bits (S (Z.to_nat p)) x (2 ^ p)%Z) in *. clearbody b. unfold lenN. rewrite L.
  replace (N.of_nat (S (Z.to_nat p)) + 1 <=? 8 * Z.to_N p + 1) with false by lia. reflexivity.
Qed.
Lemma byte_bits : forall x, x < 256 -> exists b, int2binary (Z.of_N x) 8 = Ok b /\ shown_bits 9 x b.
Proof.
  intros x H. assert (Q : width (Z.of_N x) 8 = 8%Z).
  { unfold width. destruct (N.eq_dec x 0) as [->|D]; [reflexivity|].
    assert (X : (Z.log2 (Z.of_N x) < 8)%Z) by (apply Z.log2_lt_pow2; [lia|change (2 ^ 8)%Z with 256%Z; lia]). lia. }
  destruct (int2binary_ok (Z.of_N x) 8) as (b & E & L & B & V); [lia|]. rewrite Q in L, V.
  exists b. split; [exact E|]. split; [lia|]. split; [exact B|]. rewrite V. change (2 ^ (8 + 1))%Z with 512%Z.
  apply Z.mod_small. lia.
Qed.
Lemma byte_hex : forall x, x < 256 -> shown_hex x (hex02 x).
Proof.
  intros x H. assert (A : x / 16 < 16) by lia. assert (B : x mod 16 < 16) by lia. assert (E : x = 16 * (x / 16) + x mod 16) by lia.
  unfold shown_hex, hex02. set (q := x / 16) in *. set (r := x mod 16) in *. clearbody q r.
  assert (G : forall d, d < 16 -> is_hex (hex1 d) = true /\ (if hex1 d <=? 57 then hex1 d - 48 else hex1 d - 87) = d).
  { intros d Hd. unfold is_hex, hex1. destruct (d <? 10) eqn:D.
    - split; [lia|]. replace (48 + d <=? 57) with true by lia. lia.
    - split; [lia|]. replace (87 + d <=? 57) with false by lia. lia. }
  destruct (G q A) as [G1 G2]. destruct (G r B) as [G3 G4]. split; [reflexivity|].
  cbn [forallb]. rewrite G1, G3. split; [reflexivity|]. unfold hex_val. cbn [fold_left]. rewrite G2, G4. lia.
Qed.

(** ** Rows *)
Section dump.
Context (k : N) (item : byte -> res (list byte)) (shown : byte -> list byte -> Prop).
Context (K : 1 <= k) (Hitem : forall x, x < 256 -> exists i, item x = Ok i /\ shown x i).
Let w := 2 ^ k.
Lemma w_two : 2 <= w.
Proof. unfold w. assert (X := N.pow_le_mono_r 2 1 k ltac:(lia) K). change (2 ^ 1) with 2 in X. exact X. Qed.
Lemma land_line : forall c, N.land c (w - 1) = c mod w.
Proof. intros c. unfold w. rewrite <- N.land_ones, N.ones_equiv, N.sub_1_r. reflexivity. Qed.
Lemma offset_ok : forall off, let o := Log_Model.zeros 4 (dec off) in
  forallb Log_Spec.is_digit o = true /\ Log_Spec.value o = off /\ 4 <= lenN o /\ (off < 10000 -> lenN o = 4).
Proof.
  intros off o. destruct (Log_Proofs.zeros_ok 4 off) as (V & D & L & L'). subst o.
  split; [exact D|]. split; [exact V|]. split; [exact L|]. intros H. apply L', Log_Proofs.dec_len; [exact H|lia].
Qed.
Lemma dump_rows : forall data c, Forall (fun x => x < 256) data -> exists out, dump (w - 1) item c data = Ok out
  /\ (c mod w = 0 -> rows w shown c data out)
  /\ (c mod w <> 0 -> exists row items rest out', data = row ++ rest /\ lenN row <= w - c mod w
        /\ (rest <> [] -> lenN row = w - c mod w) /\ Forall2 shown row items /\ rows w shown (c - c mod w + w) rest out'
        /\ out = flat_map (fun i => i ++ [32]) items ++ [10] ++ out').
Proof.
  assert (W := w_two).
  induction data as [|x data IH]; intros c HD.
  - cbn [dump]. rewrite land_line. eexists. split; [reflexivity|]. split.
    + intros ->. constructor.
    + intros H. replace (c mod w =? 0) with false by lia.
      exists [], [], [], []. repeat split; [unfold lenN; cbn [length]; lia|congruence|constructor|constructor].
  - inversion HD as [|? ? Hx HD']; subst. destruct (Hitem x Hx) as (i & Ei & Si).
    destruct (IH (c + 1) HD') as (out & E & R0 & R1). cbn [dump]. rewrite Ei. cbn [bind]. rewrite E. cbn [bind].
    rewrite land_line. eexists. split; [reflexivity|].
    assert (M : c mod w < w) by (apply N.mod_lt; lia).
    assert (Dv := N.div_mod c w ltac:(lia)). set (q := c / w) in *. set (r := c mod w) in *.
    destruct (N.eq_dec r (w - 1)) as [Er|Dr].
    + assert (M1 : (c + 1) mod w = 0).
      { replace (c + 1) with ((q + 1) * w) by lia. apply N.mod_mul. lia. }
      specialize (R0 M1). replace (r =? w - 1) with true by lia. replace (r =? 0) with false by lia. split; [lia|].
      intros _. exists [x], [i], data, out. split; [reflexivity|]. split; [unfold lenN; cbn [length]; lia|].
      split; [intros _; unfold lenN; cbn [length]; lia|]. split; [repeat constructor; exact Si|].
      split; [replace (c - r + w) with (c + 1) by lia; exact R0|]. cbn [flat_map]. rewrite !app_nil_r, <- !app_assoc. reflexivity.
    + assert (M1 : (c + 1) mod w = r + 1).
      { symmetry. apply (N.mod_unique (c + 1) w q); lia. }
      destruct R1 as (row & items & rest & out' & -> & L & Lr & F & R & ->); [lia|].
      replace (r =? w - 1) with false by lia. rewrite M1 in L, Lr, R. clear R0.
      replace (c + 1 - (r + 1) + w) with (c - r + w) in R by lia. split.
      * intros Ez. rewrite Ez in *. change (0 =? 0) with true. cbn [app].
        destruct (offset_ok c) as (O1 & O2 & O3 & O4).
        assert (X := Rows_row w shown c (Log_Model.zeros 4 (dec c)) (x :: row) (i :: items) rest out').
        cbn [app flat_map] in X. rewrite <- !app_assoc in X. rewrite <- !app_assoc. cbn [app] in X |- *. apply X.
        -- discriminate.
        -- rewrite lenN_cons. lia.
        -- intros Hr. rewrite lenN_cons. specialize (Lr Hr). lia.
        -- exact O1.
        -- exact O2.
        -- exact O3.
        -- exact O4.
        -- constructor; assumption.
        -- replace (c + w) with (c - 0 + w) by lia. exact R.
      * intros Hr. replace (r =? 0) with false by lia.
        exists (x :: row), (i :: items), rest, out'. split; [reflexivity|]. rewrite lenN_cons. split; [lia|].
        split; [intros Hs; specialize (Lr Hs); lia|]. split; [constructor; assumption|]. split; [exact R|].
        cbn [flat_map app]. rewrite <- !app_assoc. reflexivity.
Qed.
End dump.
Lemma binary_rows : forall data, Forall (fun x => x < 256) data -> exists out, binarydump data = Ok out /\ rows 8 (shown_bits 9) 0 data out.
Proof.
  intros data H. destruct (dump_rows 3 (fun x => int2binary (Z.of_N x) 8) (shown_bits 9) ltac:(lia) byte_bits data 0 H) as (out & E & R & _).
  exists out. split; [exact E|]. apply R. reflexivity.
Qed.
Lemma hex_rows : forall data, Forall (fun x => x < 256) data -> exists out, hexdump data = Ok out /\ rows 16 shown_hex 0 data out.
Proof.
  intros data H. destruct (dump_rows 4 (fun x => Ok (hex02 x)) shown_hex ltac:(lia)) with (data := data) (c := 0) as (out & E & R & _).
  - intros x Hx. eexists. split; [reflexivity|apply byte_hex, Hx].
  - exact H.
  - exists out. split; [exact E|]. apply R. reflexivity.
Qed.
(** Eight digits are never printed. *)
Lemma binary_not8 : forall data out, Forall (fun x => x < 256) data -> data <> [] -> binarydump data = Ok out -> ~ rows 8 (shown_bits 8) 0 data out.
Proof.
  intros data out H N0 E R. destruct (binary_rows data H) as (out' & E' & R').
  rewrite E in E'. injection E' as <-.
  inversion R as [|off o row items d u R1 R2 R3 R4 R5 R6 R7 R8 R9 Q1 Q2 Q3]; [congruence|]. subst off.
  inversion R' as [|off o' row' items' d' u' T1 T2 T3 T4 T5 T6 T7 T8 T9 W1 W2 W3]; [subst; congruence|]. subst off.
  assert (Lo : length o = 4%nat) by (specialize (R7 ltac:(lia)); unfold lenN in R7; lia).
  assert (Lo' : length o' = 4%nat) by (specialize (T7 ltac:(lia)); unfold lenN in T7; lia).
  rewrite <- W3 in Q3. apply (f_equal (skipn 6)) in Q3.
  assert (S : forall (p : list byte) r, length p = 4%nat -> skipn 6 (p ++ text ": " ++ r) = r).
  { intros p r Lp. destruct p as [|? [|? [|? [|? [|]]]]]; try discriminate Lp. reflexivity. }
  rewrite !S in Q3 by assumption.
  destruct row as [|x row]; [congruence|]. destruct row' as [|x' row']; [congruence|].
  inversion R8 as [|? i ? is (A1 & A2 & A3) A4]; subst. inversion T8 as [|? i' ? is' (B1 & B2 & B3) B4]; subst.
  cbn [flat_map] in Q3. rewrite <- !app_assoc in Q3. apply (f_equal (fun l => nth_error l 8)) in Q3. cbn beta in Q3.
  rewrite (nth_error_app2 i) in Q3 by (unfold lenN in A1; lia). rewrite (nth_error_app1 i') in Q3 by (unfold lenN in B1; lia).
  replace (8 - length i)%nat with 0%nat in Q3 by (unfold lenN in A1; lia). symmetry in Q3. change (nth_error i' 8 = Some 32) in Q3.
  apply nth_error_In in Q3. rewrite forallb_forall in B2. specialize (B2 _ Q3). discriminate B2.
Qed.
Lemma cex_eight : exists data out, Forall (fun x => x < 256) data /\ binarydump data = Ok out /\ ~ rows 8 (shown_bits 8) 0 data out.
Proof.
  assert (F : Forall (fun x => x < 256) [5]) by (constructor; [vm_compute; reflexivity|constructor]).
  destruct (binary_rows [5] F) as (out & E & _). exists [5], out. split; [exact F|]. split; [exact E|].
  apply binary_not8; [exact F|discriminate|exact E].
Qed.
Lemma cex_small : exists x padding, is_int x /\ is_int padding /\ (0 <= x)%Z /\ (0 <= padding)%Z /\ int2binary x padding = UB.
Proof. exists 1%Z, 0%Z. repeat split; try (vm_compute; (reflexivity || discriminate)). Qed.
