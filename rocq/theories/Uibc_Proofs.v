From Verif Require Import Base Uibc_Model Uibc_Spec.

(** ** Splitting *)
Lemma fields_app t s : ~ In COMMA t -> fields (t ++ COMMA :: s) = t :: fields s.
Proof.
  induction t as [|c t IH]; intros H; cbn [app fields].
  - now rewrite N.eqb_refl.
  - replace (c =? COMMA) with false by (symmetry; apply N.eqb_neq; intros ->; apply H; now left).
    rewrite IH by (intros Hc; apply H; now right). reflexivity.
Qed.
Lemma fields_one t : ~ In COMMA t -> fields t = [t].
Proof.
  induction t as [|c t IH]; intros H; cbn [fields]; [reflexivity|].
  replace (c =? COMMA) with false by (symmetry; apply N.eqb_neq; intros ->; apply H; now left).
  rewrite IH by (intros Hc; apply H; now right). reflexivity.
Qed.
Lemma fields_join toks : toks <> [] -> Forall (fun t => ~ In COMMA t) toks -> fields (join toks) = toks.
Proof.
  induction toks as [|t toks IH]; intros Hn Hf; [congruence|]. inversion Hf as [|? ? Ht Hf']; subst.
  destruct toks as [|t2 toks].
  - cbn [join]. now apply fields_one.
  - change (join (t :: t2 :: toks)) with (t ++ COMMA :: join (t2 :: toks)).
    rewrite fields_app by exact Ht. f_equal. apply IH; [discriminate|exact Hf'].
Qed.
Lemma fields_count s : lenN (fields s) = commas s + 1.
Proof.
  unfold commas. induction s as [|c s IH]; [reflexivity|]. cbn [fields filter]. rewrite (N.eqb_sym COMMA c).
  destruct (c =? COMMA); [len; lia|]. destruct (fields s); len; lia.
Qed.
Lemma join_last toks : toks <> [] -> Forall (fun t => t <> [] /\ ~ In COMMA t) toks ->
  exists l x, join toks = l ++ [x] /\ x <> COMMA.
Proof.
  induction toks as [|t toks IH]; intros Hn Hf; [congruence|]. inversion Hf as [|? ? [Ht Hc] Hf']; subst.
  destruct toks as [|t2 toks].
  - cbn [join]. destruct (exists_last Ht) as [l [x ->]]. exists l, x. split; [reflexivity|].
    intros ->. apply Hc. apply in_or_app. right. now left.
  - destruct IH as [l [x [E Hx]]]; [discriminate|exact Hf'|].
    change (join (t :: t2 :: toks)) with (t ++ COMMA :: join (t2 :: toks)). rewrite E.
    exists (t ++ COMMA :: l), x. split; [now rewrite <- app_assoc|exact Hx].
Qed.
Lemma split_join toks : toks <> [] -> Forall (fun t => t <> [] /\ ~ In COMMA t) toks ->
  str_split (join toks) = Ok toks.
Proof.
  intros Hn Hf. unfold str_split, slots. rewrite fields_count.
  destruct (join_last toks Hn Hf) as [l [x [E Hx]]].
  replace (ends_with_comma (join toks)) with false.
  - rewrite N.leb_refl. rewrite fields_join; [reflexivity|exact Hn|].
    apply (Forall_impl _ (fun t H => proj2 H) Hf).
  - unfold ends_with_comma. rewrite E, rev_app_distr. cbn [rev app]. symmetry. now apply N.eqb_neq.
Qed.

(** ** Numbers *)
Lemma digits_dec ds rest : Forall (fun c => is_digit c = true) ds ->
  match rest with c :: _ => is_digit c = false | [] => True end ->
  forall acc, digits (ds ++ rest) acc = dec ds acc.
Proof.
  intros Hd Hr. induction Hd as [|d ds H Hd IH]; intros acc; cbn [app digits dec].
  - destruct rest as [|c rest]; [reflexivity|]. cbn [digits]. now rewrite Hr.
  - rewrite H, IH. f_equal. lia.
Qed.
Lemma atoi_denotes t v : denotes t v -> v < 2 ^ 31 -> atoi t = Ok (Z.of_N v).
Proof.
  intros [ws [sign [ds [rest [-> [Hw [Hsg [Hn [Hd [Hv Hr]]]]]]]]]] Hlt. destruct ds as [|d ds]; [congruence|].
  assert (Hd' : Forall (fun c => is_digit c = true) (d :: ds)) by (eapply Forall_impl; [|exact Hd]; unfold digit, is_digit; intros; lia).
  assert (Hr' : match rest with c :: _ => is_digit c = false | [] => True end) by (destruct rest; [exact I|]; unfold digit, is_digit in *; lia).
  clear Hd Hr. rename Hd' into Hd. rename Hr' into Hr.
  inversion Hd as [|? ? Hd1 Hd2]; subst.
  assert (Hs : skip_space (ws ++ sign ++ (d :: ds) ++ rest) = sign ++ (d :: ds) ++ rest).
  { clear - Hw Hd1 Hsg. induction Hw as [|w ws H Hw IH]; cbn [app skip_space].
    - destruct Hsg as [<-|[<-|[]]]; cbn [app skip_space]; [|reflexivity]. replace (is_space d) with false by (unfold is_space, is_digit in *; lia). reflexivity.
    - replace (is_space w) with true by (unfold blank, is_space in *; lia). exact IH. }
  unfold atoi. rewrite Hs.
  assert (Ha : match sign ++ (d :: ds) ++ rest with
               | [] => Ok 0%Z
               | c :: s' => if c =? 45 then int (- Z.of_N (digits s' 0)) else if c =? 43 then int (Z.of_N (digits s' 0)) else int (Z.of_N (digits (c :: s') 0))
               end = int (Z.of_N (digits ((d :: ds) ++ rest) 0))).
  { destruct Hsg as [<-|[<-|[]]]; cbn [app]; [|reflexivity].
    replace (d =? 45) with false by (unfold is_digit in *; lia). replace (d =? 43) with false by (unfold is_digit in *; lia). reflexivity. }
  rewrite Ha. rewrite digits_dec by (auto).
  unfold int. change (2 ^ 31)%Z with 2147483648%Z. change (2 ^ 31) with 2147483648 in Hlt.
  match goal with |- context [if ?b then _ else _] => replace b with true by lia end. reflexivity.
Qed.
Lemma denotes_nonempty t v : denotes t v -> t <> [].
Proof. intros [ws [sg [ds [rest [-> [_ [_ [Hn _]]]]]]]] E. apply app_eq_nil in E as [_ E]. apply app_eq_nil in E as [_ E]. apply app_eq_nil in E as [E _]. auto. Qed.

Lemma lo_N v : lo (Z.of_N v) = v mod 256.
Proof. unfold lo. change 256%Z with (Z.of_N 256). rewrite <- N2Z.inj_mod. apply N2Z.id. Qed.
Lemma hi_N v : hi (Z.of_N v) = v / 256 mod 256.
Proof. unfold hi. change 256%Z with (Z.of_N 256). rewrite <- N2Z.inj_div, <- N2Z.inj_mod. apply N2Z.id. Qed.

Lemma stores_app a b off : stores off (a ++ b) = stores off a ++ stores (off + lenN a) b.
Proof.
  revert off. induction a as [|x a IH]; intros off; cbn [app stores].
  - now rewrite lenN_nil, N.add_0_r.
  - rewrite IH, lenN_cons. replace (off + (1 + lenN a)) with (off + 1 + lenN a) by lia. reflexivity.
Qed.

Lemma tok_at pre t rest i : i = lenN pre -> tok (pre ++ t :: rest) i = Ok t.
Proof.
  intros ->. unfold tok. rewrite nthN_app. replace (lenN pre <? lenN pre) with false by lia.
  replace (lenN pre - lenN pre) with 0 by lia. reflexivity.
Qed.

Definition pbytes (p : pointer) : list byte := match p with (i, x, y) => i mod 256 :: be16 x ++ be16 y end.
Definition pnums (p : pointer) : list N := match p with (i, x, y) => [i; x; y] end.

Lemma points_ok ps : forall pre rest i, lenN pre = 2 + i * 3 ->
  Forall2 denotes rest (flat_map pnums ps) -> Forall (fun v => v < 2 ^ 31) (flat_map pnums ps) ->
  points (pre ++ rest) (length ps) i = Ok (stores (8 + i * 5) (flat_map pbytes ps)).
Proof.
  induction ps as [|[[id x] y] ps IH]; intros pre rest i Hp Hd Hb; cbn [length points]; [reflexivity|].
  cbn [flat_map pnums app] in Hd, Hb.
  inversion Hd as [|t0 ? r0 ? D0 Hd0]; subst. inversion Hd0 as [|t1 ? r1 ? D1 Hd1]; subst. inversion Hd1 as [|t2 ? r2 ? D2 Hd2]; subst.
  inversion Hb as [|? ? B0 Hb0]; subst. inversion Hb0 as [|? ? B1 Hb1]; subst. inversion Hb1 as [|? ? B2 Hb2]; subst.
  rewrite (tok_at pre) by lia. cbn [bind]. rewrite (atoi_denotes _ _ D0 B0). cbn [bind].
  replace (pre ++ t0 :: t1 :: t2 :: r2) with ((pre ++ [t0]) ++ t1 :: t2 :: r2) by (now rewrite <- app_assoc).
  rewrite tok_at by (len; lia). cbn [bind]. rewrite (atoi_denotes _ _ D1 B1). cbn [bind].
  replace ((pre ++ [t0]) ++ t1 :: t2 :: r2) with ((pre ++ [t0; t1]) ++ t2 :: r2) by (now rewrite <- !app_assoc).
  rewrite tok_at by (len; lia). cbn [bind]. rewrite (atoi_denotes _ _ D2 B2). cbn [bind].
  replace ((pre ++ [t0; t1]) ++ t2 :: r2) with ((pre ++ [t0; t1; t2]) ++ r2) by (now rewrite <- !app_assoc).
  rewrite (IH (pre ++ [t0; t1; t2]) r2 (i + 1)); [|len; lia|exact Hd2|exact Hb2]. cbn [bind]. f_equal.
  rewrite !lo_N, !hi_N. cbn [flat_map]. rewrite stores_app. f_equal. f_equal.
  unfold pbytes, be16. len. lia.
Qed.

Lemma flat_pbytes_len ps : lenN (flat_map pbytes ps) = 5 * lenN ps.
Proof. induction ps as [|[[i x] y] ps IH]; [reflexivity|]. cbn [flat_map]. len. rewrite IH. unfold pbytes, be16. len. lia. Qed.
Lemma flat_pnums_len ps : lenN (flat_map pnums ps) = 3 * lenN ps.
Proof. induction ps as [|[[i x] y] ps IH]; [reflexivity|]. cbn [flat_map]. len. rewrite IH. unfold pnums. len. lia. Qed.
Lemma Forall2_lenN {A B} (R : A -> B -> Prop) l l' : Forall2 R l l' -> lenN l = lenN l'.
Proof. induction 1; len; lia. Qed.

Lemma stores_outside l a : forall k, lenN a <= k -> fold_left apply_store (stores k l) a = a.
Proof.
  revert a. induction l as [|b l IH]; intros a k Hk; cbn [stores fold_left]; [reflexivity|].
  unfold apply_store at 2. cbn [fst]. replace (k <? lenN a) with false by lia. apply IH. lia.
Qed.
Lemma fold_stores l : forall a r, fold_left apply_store (stores (lenN a) l) (map Some a ++ fresh r)
  = map Some (a ++ takeN r l) ++ fresh (r - lenN l).
Proof.
  induction l as [|b l IH]; intros a r.
  - cbn [stores fold_left]. unfold takeN. rewrite firstn_nil, app_nil_r. now rewrite lenN_nil, N.sub_0_r.
  - destruct (N.eq_dec r 0) as [->|Hr].
    + rewrite stores_outside by (len; lia). rewrite takeN_0, (app_nil_r a). rewrite lenN_cons. replace (0 - (1 + lenN l)) with 0 by lia. reflexivity.
    + cbn [stores fold_left]. unfold apply_store at 2. cbn [fst snd].
      replace (lenN a <? lenN (map Some a ++ fresh r)) with true by (len; lia).
      replace (takeN (lenN a) (map Some a ++ fresh r) ++ Some b :: dropN (lenN a + 1) (map Some a ++ fresh r))
        with (map Some (a ++ [b]) ++ fresh (r - 1)).
      * replace (lenN a + 1) with (lenN (a ++ [b])) by (len; lia). rewrite IH.
        replace (takeN r (b :: l)) with (b :: takeN (r - 1) l).
        -- rewrite <- app_assoc. cbn [app]. f_equal. f_equal. len. lia.
        -- unfold takeN. replace (N.to_nat r) with (S (N.to_nat (r - 1))) by lia. reflexivity.
      * rewrite takeN_app, dropN_app. len.
        rewrite takeN_all by (len; lia). replace (lenN a - lenN a) with 0 by lia. rewrite takeN_0, app_nil_r.
        rewrite dropN_all by (len; lia). cbn [app]. rewrite map_app, <- app_assoc. cbn [map app]. do 2 f_equal.
        replace (lenN a + 1 - lenN a) with 1 by lia.
        unfold fresh, dropN. replace (N.to_nat r) with (S (N.to_nat (r - 1))) by lia. reflexivity.
Qed.

(** ** Touch messages *)
Lemma lenN_rep (x : N) k : lenN (repeat x k) = N.of_nat k.
Proof. unfold lenN. now rewrite repeat_length. Qed.
Lemma even_up_lt n : even_up n < n + 2. Proof. unfold even_up. lia. Qed.

Lemma touch_ok s type ps : describes s type ps -> 1 <= lenN ps -> lenN ps < 2 ^ 28 ->
  Forall (fun v => v < 2 ^ 31) (numbers type ps) ->
  touch s = Ok (Some (mkPacket (lenN (touch_message type ps)) (stores 0 (touch_message type ps ++ [0])))).
Proof.
  intros [toks [-> [Hc Hd]]] H1 H28 Hb.
  pose proof (Forall2_lenN _ _ _ Hd) as Hl. unfold numbers in Hl. len. fold pnums in Hl. rewrite flat_pnums_len in Hl.
  assert (Hne : Forall (fun t => t <> [] /\ ~ In COMMA t) toks).
  { clear - Hc Hd. revert Hd. generalize (numbers type ps). induction Hc as [|t toks H Hc IH]; intros ns Hd; [constructor|].
    inversion Hd; subst. constructor; [split; [eapply denotes_nonempty; eassumption|exact H]|]. eapply IH; eassumption. }
  unfold touch. rewrite split_join; [|intros ->; len; lia|exact Hne]. cbn [bind].
  replace ((lenN toks <? 5) || negb ((lenN toks - 5) mod 3 =? 0)) with false.
  2: { rewrite Hl. replace (1 + (1 + 3 * lenN ps) - 5) with ((lenN ps - 1) * 3) by lia. rewrite N.mod_mul by lia. lia. }
  unfold numbers in Hd, Hb. inversion Hd as [|t0 ? r0 ? D0 Hd0]; subst. inversion Hd0 as [|t1 ? r1 ? D1 Hd1]; subst.
  inversion Hb as [|? ? B0 Hb0]; subst. inversion Hb0 as [|? ? B1 Hb1]; subst.
  change (tok (t0 :: t1 :: r1) 0) with (Ok t0). change (tok (t0 :: t1 :: r1) 1) with (Ok t1). cbn [bind].
  rewrite (atoi_denotes _ _ D0 B0), (atoi_denotes _ _ D1 B1). cbn [bind].
  change (2 ^ 28) with 268435456 in H28.
  assert (Hint : forall z, (0 <= z < 2000000000)%Z -> int z = Ok z).
  { intros z Hz. unfold int. change (2 ^ 31)%Z with 2147483648%Z. match goal with |- context [if ?b then _ else _] => replace b with true by lia end. reflexivity. }
  set (n := lenN ps) in *.
  rewrite (Hint (Z.of_N n * 5)%Z) by lia. cbn [bind]. rewrite (Hint (Z.of_N n * 5 + 1)%Z) by lia. cbn [bind].
  rewrite (Hint (Z.of_N n * 5 + 1 + 7)%Z) by lia. cbn [bind]. cbv zeta.
  change (2 ^ 64)%Z with 18446744073709551616%Z.
  replace (Z.to_N ((Z.of_N n * 5 + 1 + 7) mod 18446744073709551616)) with (5 * n + 8) by (rewrite Z.mod_small by lia; lia).
  assert (Hbl : (if (5 * n + 8) mod 2 =? 0 then 5 * n + 8 else wrap64 (5 * n + 8 + 1)) = even_up (5 * n + 8)).
  { unfold even_up, wrap64, two64. change (2 ^ 64) with 18446744073709551616.
    destruct (N.eqb_spec ((5 * n + 8) mod 2) 0); [lia|]. rewrite N.mod_small by lia. lia. }
  rewrite Hbl. pose proof (even_up_lt (5 * n + 8)) as Hev. assert (Hge : 5 * n + 8 <= even_up (5 * n + 8)) by (unfold even_up; lia).
  set (bl := even_up (5 * n + 8)) in *.
  change (2 ^ 63) with 9223372036854775808. replace (9223372036854775808 <=? bl) with false by lia.
  rewrite (Z.shiftr_div_pow2) by lia. change (2 ^ 8)%Z with 256%Z.
  replace (Z.to_nat (Z.of_N n)) with (length ps) by (unfold n, lenN; lia).
  change (t0 :: t1 :: r1) with ([t0; t1] ++ r1). rewrite (points_ok ps [t0; t1] r1 0); [|reflexivity|exact Hd1|exact Hb1]. cbn [bind].
  replace (0 <? Z.of_N n)%Z with true by lia. replace (8 + 5 * Z.to_N (Z.of_N n)) with (8 + 5 * n) by lia.
  assert (Hlm : lenN (touch_message type ps) = bl).
  { unfold touch_message. cbv zeta. fold pbytes. fold n. len. rewrite flat_pbytes_len. fold n.
    rewrite lenN_rep. unfold be16. len. unfold bl, even_up. lia. }
  rewrite Hlm. do 3 f_equal.
  unfold touch_message. cbv zeta. fold pbytes. fold n.
  replace (7 + (1 + 5 * n)) with (5 * n + 8) by lia. fold bl.
  replace (Z.of_N n * 5 + 1)%Z with (Z.of_N (1 + 5 * n)) by lia.
  replace (lo (Z.of_N bl / 256)) with (hi (Z.of_N bl)) by (unfold lo, hi; reflexivity).
  rewrite !hi_N, !lo_N.
  match goal with |- ?H ++ stores ?o ?b ++ stores ?o2 ?z = _ =>
    replace (H ++ stores o b ++ stores o2 z) with (stores 0 ([0; 0; bl / 256 mod 256; bl mod 256; type mod 256; (1 + 5 * n) / 256 mod 256; (1 + 5 * n) mod 256; n mod 256] ++ b ++ z))
  end.
  - f_equal. unfold be16. cbn [app]. do 8 f_equal. rewrite <- app_assoc. f_equal.
    replace (N.to_nat (bl + 1 - (8 + 5 * n))) with (N.to_nat ((5 * n + 8) mod 2) + 1)%nat by (unfold bl, even_up; lia).
    rewrite repeat_app. reflexivity.
  - rewrite !stores_app. change (0 * 5) with 0. f_equal. f_equal. f_equal. rewrite flat_pbytes_len. fold n. reflexivity.
Qed.

Lemma touch_contents type ps :
  contents (mkPacket (lenN (touch_message type ps)) (stores 0 (touch_message type ps ++ [0])))
  = map Some (touch_message type ps).
Proof.
  unfold contents. cbn [pstores plen].
  pose proof (fold_stores (touch_message type ps ++ [0]) [] (lenN (touch_message type ps))) as H.
  cbn [map app] in H. change (lenN (@nil N)) with 0 in H. rewrite H.
  rewrite takeN_app, takeN_all by lia. replace (lenN (touch_message type ps) - lenN (touch_message type ps)) with 0 by lia.
  rewrite takeN_0, app_nil_r. len. replace (lenN (touch_message type ps) - (lenN (touch_message type ps) + (1 + 0))) with 0 by lia.
  now rewrite app_nil_r.
Qed.

Lemma touch_packet_ok s type ps : describes s type ps -> 1 <= lenN ps -> lenN ps < 2 ^ 28 ->
  Forall (fun v => v < 2 ^ 31) (numbers type ps) ->
  exists p, touch s = Ok (Some p) /\ plen p = lenN (touch_message type ps)
    /\ contents p = map Some (touch_message type ps) /\ N.even (plen p) = true
    /\ pstores p = stores 0 (touch_message type ps ++ [0]).
Proof.
  intros H1 H2 H3 H4. exists (mkPacket (lenN (touch_message type ps)) (stores 0 (touch_message type ps ++ [0]))).
  split; [exact (touch_ok s type ps H1 H2 H3 H4)|]. split; [reflexivity|]. split; [apply touch_contents|].
  split; [|reflexivity]. cbn [plen]. unfold touch_message. cbv zeta. fold pbytes. len. rewrite flat_pbytes_len.
  rewrite lenN_rep. unfold be16. len. generalize (lenN ps). intros n.
  match goal with |- N.even ?e = true => replace e with (2 * ((5 * n + 9) / 2)) by lia end. apply N.even_spec. now exists ((5 * n + 9) / 2).
Qed.

Lemma stores_inside l : forall k w, In w (stores k l) -> k <= fst w < k + lenN l.
Proof.
  induction l as [|b l IH]; intros k w H; cbn [stores] in H; [destruct H|]. destruct H as [<-|H].
  - cbn [fst]. len. lia.
  - apply IH in H. len. lia.
Qed.
Lemma touch_stores s type ps : describes s type ps -> 1 <= lenN ps -> lenN ps < 2 ^ 28 ->
  Forall (fun v => v < 2 ^ 31) (numbers type ps) ->
  exists p good, touch s = Ok (Some p) /\ pstores p = good ++ [(plen p, 0)] /\ Forall (fun w => fst w < plen p) good.
Proof.
  intros H1 H2 H3 H4. eexists _, (stores 0 (touch_message type ps)). split; [exact (touch_ok s type ps H1 H2 H3 H4)|]. cbn [plen pstores]. split.
  - rewrite stores_app. reflexivity.
  - apply Forall_forall. intros w Hw. apply stores_inside in Hw. lia.
Qed.

(** ** Key messages *)
Lemma key_ok scan s t0 t1 t2 type k1 k2 : s = join [t0; t1; t2] ->
  Forall (fun t => t <> [] /\ ~ In COMMA t) [t0; t1; t2] -> denotes t0 type -> type < 2 ^ 31 ->
  scan t1 = Some (Z.of_N k1) -> scan t2 = Some (Z.of_N k2) ->
  exists p, key scan s = Ok (Some p) /\
    contents p = map Some ([0; 0] ++ be16 12 ++ [type mod 256] ++ be16 5 ++ [0] ++ be16 k1 ++ be16 k2)
    /\ Forall (fun w => fst w < plen p) (pstores p).
Proof.
  intros -> Hf Hd Ht S1 S2. unfold key. rewrite split_join; [|discriminate|exact Hf]. cbn [bind].
  change (negb (lenN [t0; t1; t2] mod 3 =? 0)) with false. cbv iota.
  change (tok [t0; t1; t2] 0) with (Ok t0). change (tok [t0; t1; t2] 1) with (Ok t1). change (tok [t0; t1; t2] 2) with (Ok t2).
  cbn [bind]. rewrite (atoi_denotes _ _ Hd Ht). cbn [bind]. rewrite S1, S2. eexists. split; [reflexivity|].
  rewrite !lo_N, !hi_N. split; [reflexivity|]. cbn [plen pstores]. apply Forall_forall. intros w Hw.
  apply stores_inside in Hw. len. lia.
Qed.
