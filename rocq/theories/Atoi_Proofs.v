From Verif Require Import Base Atoi_Model Atoi_Spec.

Lemma p32 : 2 ^ 32 = 4294967296. Proof. reflexivity. Qed.
Lemma p64 : 2 ^ 64 = 18446744073709551616. Proof. reflexivity. Qed.
Lemma u32_max_val : u32_max = 4294967295. Proof. reflexivity. Qed.
Lemma u64_max_val : u64_max = 18446744073709551615. Proof. reflexivity. Qed.

Lemma ctoi_Some ch b v : ctoi ch b = Some v <-> digit b ch v.
Proof.
  unfold ctoi. split.
  - destruct ((48 <=? ch) && (ch <=? 57)) eqn:E1;
      [|destruct ((97 <=? ch) && (ch <=? 122)) eqn:E2;
        [|destruct ((65 <=? ch) && (ch <=? 90)) eqn:E3; [|discriminate]]];
      (destruct (b <=? _) eqn:E4; [discriminate|]); intros [= <-].
    + replace ch with (48 + (ch - 48)) at 1 by lia. constructor; lia.
    + replace ch with (97 + ((ch - 97 + 10) - 10)) at 1 by lia. constructor; lia.
    + replace ch with (65 + ((ch - 65 + 10) - 10)) at 1 by lia. constructor; lia.
  - intros H; destruct H as [v H1 H2|v H1 H2|v H1 H2].
    + replace ((48 <=? 48 + v) && (48 + v <=? 57)) with true by lia.
      replace (48 + v - 48) with v by lia. destruct (b <=? v) eqn:E; [lia|reflexivity].
    + replace ((48 <=? 97 + (v - 10)) && (97 + (v - 10) <=? 57)) with false by lia.
      replace ((97 <=? 97 + (v - 10)) && (97 + (v - 10) <=? 122)) with true by lia.
      replace (97 + (v - 10) - 97 + 10) with v by lia.
      destruct (b <=? v) eqn:E; [lia|reflexivity].
    + replace ((48 <=? 65 + (v - 10)) && (65 + (v - 10) <=? 57)) with false by lia.
      replace ((97 <=? 65 + (v - 10)) && (65 + (v - 10) <=? 122)) with false by lia.
      replace ((65 <=? 65 + (v - 10)) && (65 + (v - 10) <=? 90)) with true by lia.
      replace (65 + (v - 10) - 65 + 10) with v by lia.
      destruct (b <=? v) eqn:E; [lia|reflexivity].
Qed.

Lemma ctoi_None ch b : ctoi ch b = None -> forall v, ~ digit b ch v.
Proof. intros H v Hd. apply ctoi_Some in Hd. congruence. Qed.

Lemma digit_lt b c v : digit b c v -> v < b.
Proof. now intros []. Qed.

(** The value seen from the left, as the loop builds it. *)
Lemma num_snoc b vs v : num b (vs ++ [v]) = num b vs * b + v.
Proof.
  induction vs as [|w vs IH].
  - cbn [num app]. rewrite lenN_nil, N.pow_0_r. lia.
  - cbn [num app]. rewrite IH, lenN_app, lenN_cons, lenN_nil.
    replace (lenN vs + (1 + 0)) with (N.succ (lenN vs)) by lia.
    rewrite N.pow_succ_r'. lia.
Qed.

Definition Inv (b : N) (vs : list N) (st : ast) : Prop :=
  let V := num b vs in
  (huge st = false /\ bad st = false /\ val1 st = V /\ V < 4294967296)
  \/ (huge st = true /\ bad st = false /\ val2 st = V /\ V < 18446744073709551616)
  \/ (huge st = true /\ bad st = false /\ 18446744073709551616 <= V /\
      exists ws w, vs = ws ++ [w] /\ w < b /\ val2 st = num b ws * b /\
        num b ws * b < 18446744073709551616)
  \/ (bad st = true /\ exists ws w, vs = ws ++ [w] /\ 18446744073709551616 <= num b ws * b).

Lemma mult_u32_spec v f :
  v < 4294967296 -> f <= 36 ->
  mult_u32 v f = if v * f <? 4294967296 then (v * f, true) else (v, false).
Proof.
  intros Hv Hf. unfold mult_u32. rewrite u32_max_val.
  assert (v * f <= 4294967295 * 36) by (apply N.mul_le_mono; lia).
  unfold wrap64, two64. rewrite p64, N.mod_small by lia.
  destruct (v * f <=? 4294967295) eqn:E1; destruct (v * f <? 4294967296) eqn:E2; auto; lia.
Qed.

Lemma mult_ull_spec v f :
  1 <= f ->
  mult_ull v f = if v * f <? 18446744073709551616 then (v * f, true) else (v, false).
Proof.
  intros Hf. unfold mult_ull. rewrite u64_max_val.
  destruct (f =? 0) eqn:E0; [lia|]. cbn [orb].
  assert (H : (v <=? 18446744073709551615 / f) = (v * f <? 18446744073709551616)).
  { apply Bool.eq_iff_eq_true. rewrite N.leb_le, N.ltb_lt.
    pose proof (N.mul_div_le 18446744073709551615 f ltac:(lia)) as H1.
    split; intros H.
    - assert (v * f <= (18446744073709551615 / f) * f) by (apply N.mul_le_mono_r; lia).
      rewrite (N.mul_comm (_ / _)) in H0. lia.
    - apply N.div_le_lower_bound; lia. }
  rewrite H. destruct (v * f <? 18446744073709551616) eqn:E; [|reflexivity].
  unfold wrap64, two64. rewrite p64, N.mod_small by lia. reflexivity.
Qed.

Lemma step_huge b vs st c h1 :
  1 <= b <= 36 -> c < b -> huge st = true -> bad st = false ->
  val2 st = num b vs -> num b vs < 18446744073709551616 ->
  Inv b (vs ++ [c])
    (let '(m, ok) := mult_ull (val2 st) b in
      if ok && (m <=? wrap64 (m + c)) then mkAst true h1 (wrap64 (m + c)) (negb ok)
      else mkAst true h1 m (negb ok)).
Proof.
  intros Hb Hc Hh Hbad Hv Hlt. rewrite mult_ull_spec by lia. rewrite Hv.
  unfold Inv. rewrite num_snoc.
  destruct (num b vs * b <? 18446744073709551616) eqn:E; cbn [andb negb].
  - unfold wrap64, two64. rewrite p64.
    destruct (num b vs * b + c <? 18446744073709551616) eqn:E2.
    + rewrite N.mod_small by lia.
      destruct (num b vs * b <=? num b vs * b + c) eqn:E3; [|lia].
      right; left; cbn. lia.
    + assert (Hm : (num b vs * b + c) mod 18446744073709551616
                   = num b vs * b + c - 18446744073709551616).
      { symmetry. apply N.mod_unique with 1; lia. }
      rewrite Hm.
      destruct (num b vs * b <=? _) eqn:E3; [lia|].
      right; right; left; cbn. repeat split; try lia.
      exists vs, c. repeat split; try lia.
  - right; right; right; cbn. split; [reflexivity|]. exists vs, c. split; [reflexivity|lia].
Qed.

Lemma step_inv b vs st c :
  1 <= b <= 36 -> c < b -> Inv b vs st -> Inv b (vs ++ [c]) (digit_step b st c).
Proof.
  intros Hb Hc HI. unfold digit_step.
  destruct HI as [[Hh [Hbad [Hv Hlt]]]|[[Hh [Hbad [Hv Hlt]]]|[[Hh [Hbad [Hge Hx]]]|[Hbad Hx]]]].
  - rewrite Hbad, Hh. cbn [negb]. rewrite Hv. rewrite mult_u32_spec by lia.
    destruct (num b vs * b <? 4294967296) eqn:E; cbn [andb negb].
    + unfold wrap32. rewrite p32.
      destruct (num b vs * b + c <? 4294967296) eqn:E2.
      * rewrite N.mod_small by lia.
        destruct (num b vs * b <=? num b vs * b + c) eqn:E3; [|lia].
        cbn [huge]. left. rewrite num_snoc. cbn. lia.
      * assert (Hm : (num b vs * b + c) mod 4294967296 = num b vs * b + c - 4294967296).
        { symmetry. apply N.mod_unique with 1; lia. }
        rewrite Hm. destruct (num b vs * b <=? _) eqn:E3; [lia|]. cbn [huge].
        apply (step_huge b vs (mkAst true (num b vs * b) (num b vs) false) c); cbn; auto; lia.
    + cbn [huge].
      match goal with |- context [mkAst true ?x (num b vs) ?y] =>
        apply (step_huge b vs (mkAst true x (num b vs) false) c); cbn; auto; lia end.
  - rewrite Hbad, Hh. cbn [negb]. rewrite Hh. apply step_huge; auto.
  - rewrite Hbad, Hh. cbn [negb]. rewrite Hh.
    destruct Hx as [ws [w [-> [Hw [Hv Hlt]]]]].
    rewrite num_snoc in Hge. rewrite mult_ull_spec by lia.
    assert (Hb2 : 2 <= b).
    { destruct (N.eq_dec b 1) as [->|]; [|lia]. exfalso. lia. }
    assert (18446744073709551616 <= val2 st * b).
    { assert (val2 st * 2 <= val2 st * b) by (apply N.mul_le_mono_l; lia). lia. }
    destruct (val2 st * b <? 18446744073709551616) eqn:E; [lia|]. cbn [andb negb].
    right; right; right. split; [reflexivity|].
    exists (ws ++ [w]), c. split; [reflexivity|]. rewrite num_snoc.
    assert ((num b ws * b + w) * 1 <= (num b ws * b + w) * b) by (apply N.mul_le_mono_l; lia).
    lia.
  - rewrite Hbad. right; right; right. split; [exact Hbad|].
    destruct Hx as [ws [w [-> Hge]]]. exists (ws ++ [w]), c. split; [reflexivity|].
    rewrite num_snoc.
    assert ((num b ws * b + w) * 1 <= (num b ws * b + w) * b) by (apply N.mul_le_mono_l; lia).
    lia.
Qed.

Lemma loop_spec b s : forall vs st pos,
  1 <= b <= 36 -> Inv b vs st ->
  exists ds ws rest st',
    s = ds ++ rest /\ Forall2 (digit b) ds ws
    /\ (forall c t v, rest = c :: t -> ~ digit b c v)
    /\ digit_loop b s st pos = (st', pos + lenN ds) /\ Inv b (vs ++ ws) st'.
Proof.
  induction s as [|ch s IH]; intros vs st pos Hb HI; cbn [digit_loop].
  - exists [], [], [], st. rewrite lenN_nil, (app_nil_r vs), N.add_0_r.
    repeat split; auto. intros; discriminate.
  - destruct (ctoi ch b) as [c|] eqn:E.
    + assert (Hd : digit b ch c) by (apply ctoi_Some; exact E).
      pose proof (digit_lt _ _ _ Hd) as Hc.
      destruct (IH (vs ++ [c]) (digit_step b st c) (pos + 1) Hb (step_inv b vs st c Hb Hc HI))
        as [ds [ws [rest [st' [H1 [H2 [H3 [H4 H5]]]]]]]].
      exists (ch :: ds), (c :: ws), rest, st'. subst s.
      repeat split; auto.
      * rewrite H4, lenN_cons. f_equal. lia.
      * rewrite <- app_assoc in H5. exact H5.
    + exists [], [], (ch :: s), st. rewrite lenN_nil, (app_nil_r vs), N.add_0_r.
      repeat split; auto. intros c t v [= <- <-]. now apply ctoi_None.
Qed.

Lemma skip_base_spec s :
  exists pre, let '(b, off) := skip_base s in
    prefix 0 s b pre /\ lenN pre = off /\ (exists t, s = pre ++ t) /\ 1 <= b <= 36.
Proof.
  destruct s as [|c0 [|c1 s]].
  - exists []. cbn. repeat split; try lia; try (exists []; reflexivity).
    constructor; intros; discriminate.
  - exists []. cbn. repeat split; try lia; try (eexists; reflexivity).
    constructor; intros; discriminate.
  - unfold skip_base. destruct (c0 =? 48) eqn:E0.
    + assert (c0 = 48) by lia; subst c0.
      destruct (ctoi c1 8) as [v|] eqn:E1.
      * exists [48]. apply ctoi_Some in E1.
        repeat split; try lia; try (eexists; reflexivity). econstructor; eauto.
      * destruct s as [|c2 s].
        -- exists []. repeat split; try lia; try (eexists; reflexivity).
           constructor; [|intros; discriminate].
           intros c v t [= -> <-]. now apply ctoi_None.
        -- cbn [andb]. destruct (c1 =? 120) eqn:E2.
           ++ assert (c1 = 120) by lia; subst c1. destruct (ctoi c2 16) as [v|] eqn:E3.
              ** exists [48; 120]. apply ctoi_Some in E3.
                 repeat split; try lia; try (eexists; reflexivity). econstructor; eauto.
              ** exists []. repeat split; try lia; try (eexists; reflexivity).
                 constructor.
                 --- intros c v t [= <- <-]. now apply ctoi_None.
                 --- intros c v t [= -> <-]. now apply ctoi_None.
           ++ exists []. repeat split; try lia; try (eexists; reflexivity).
              constructor.
              ** intros c v t [= <- <-]. now apply ctoi_None.
              ** intros c v t [= -> H]. lia.
    + exists []. assert (Hr : (match s with
                    | [] => (10, 0)
                    | c2 :: _ =>
                      if false && (c1 =? 120)
                      then match ctoi c2 16 with Some _ => (16, 2) | None => (10, 0) end
                      else (10, 0) end) = (10, 0)) by (destruct s; reflexivity).
      rewrite Hr. repeat split; try lia; try (eexists; reflexivity).
      constructor.
      * intros c v t [= -> _]. lia.
      * intros c v t [= -> _]. lia.
Qed.

(** Everything about the 64-bit parser in one statement. *)
Lemma atoi_full base s :
  base <= 36 ->
  exists b pre ds vs rest,
    run base s b pre ds vs rest /\ 1 <= b <= 36
    /\ next (atoi_ulln s base) = lenN pre + lenN ds
    /\ exists st, Inv b vs st
       /\ ret (atoi_ulln s base) = (if bad st then Erange else Success)
       /\ value (atoi_ulln s base)
          = (if bad st then u64_max else if huge st then val2 st else val1 st).
Proof.
  intros Hb. unfold atoi_ulln. destruct (36 <? base) eqn:E; [lia|].
  set (bo := if base =? 0 then skip_base s else (base, 0)).
  assert (Hp : exists pre, let '(b, off) := bo in
      prefix base s b pre /\ lenN pre = off /\ (exists t, s = pre ++ t) /\ 1 <= b <= 36).
  { unfold bo. destruct (base =? 0) eqn:E0.
    - assert (base = 0) by lia; subst base. apply skip_base_spec.
    - exists []. split; [constructor; lia|]. split; [reflexivity|].
      split; [eexists; reflexivity|lia]. }
  destruct Hp as [pre Hp]. destruct bo as [b off].
  destruct Hp as [Hpre [Hoff [[t Ht] Hbr]]].
  assert (Hd : dropN off s = t).
  { subst s. unfold dropN. rewrite <- Hoff. unfold lenN. rewrite Nnat.Nat2N.id.
    rewrite skipn_app, skipn_all, Nat.sub_diag. reflexivity. }
  rewrite Hd.
  destruct (loop_spec b t [] (mkAst false 0 0 false) 0 Hbr) as [ds [ws [rest [st [H1 [H2 [H3 [H4 H5]]]]]]]].
  { left. cbn. lia. }
  rewrite H4. exists b, pre, ds, ws, rest. split; [|split; [exact Hbr|split]].
  - constructor; auto. subst; reflexivity.
  - cbn. lia.
  - exists st. cbn [app] in H5. auto.
Qed.

Lemma num_pos_prefix b ws w : w < b -> num b ws * b <= num b (ws ++ [w]).
Proof. rewrite num_snoc. lia. Qed.

Lemma atoi_exact base s :
  base <= 36 ->
  exists b pre ds vs rest,
    run base s b pre ds vs rest
    /\ next (atoi_ulln s base) = lenN pre + lenN ds
    /\ (num b vs < 2 ^ 64 ->
        ret (atoi_ulln s base) = Success /\ value (atoi_ulln s base) = num b vs).
Proof.
  intros Hb. destruct (atoi_full base s Hb) as [b [pre [ds [vs [rest [Hr [Hbr [Hn [st [HI [Hret Hval]]]]]]]]]]].
  exists b, pre, ds, vs, rest. split; [exact Hr|]. split; [exact Hn|].
  rewrite p64. intros Hlt. rewrite Hret, Hval.
  destruct HI as [[Hh [Hbad [Hv _]]]|[[Hh [Hbad [Hv _]]]|[[Hh [Hbad [Hge Hx]]]|[Hbad Hx]]]].
  - rewrite Hbad, Hh. auto.
  - rewrite Hbad, Hh. auto.
  - lia.
  - destruct Hx as [ws [w [-> Hge]]]. rewrite num_snoc in Hlt. lia.
Qed.

Lemma atoi_overflow base s :
  base <= 36 ->
  exists b pre ds vs rest,
    run base s b pre ds vs rest
    /\ (2 ^ 64 <= num b vs ->
        exists ws w, vs = ws ++ [w]
          /\ (2 ^ 64 <= num b ws * b ->
              ret (atoi_ulln s base) = Erange /\ value (atoi_ulln s base) = 2 ^ 64 - 1)
          /\ (num b ws * b < 2 ^ 64 ->
              ret (atoi_ulln s base) = Success /\ value (atoi_ulln s base) = num b ws * b)).
Proof.
  intros Hb. destruct (atoi_full base s Hb) as [b [pre [ds [vs [rest [Hr [Hbr [Hn [st [HI [Hret Hval]]]]]]]]]]].
  exists b, pre, ds, vs, rest. split; [exact Hr|].
  rewrite p64. intros Hge. rewrite Hret, Hval.
  destruct HI as [[Hh [Hbad [Hv ?]]]|[[Hh [Hbad [Hv ?]]]|[[Hh [Hbad [Hge' Hx]]]|[Hbad Hx]]]];
    try lia.
  - destruct Hx as [ws [w [-> [Hw [Hv Hlt]]]]]. exists ws, w. split; [reflexivity|].
    rewrite Hbad, Hh. split; [lia|auto].
  - destruct Hx as [ws [w [-> Hov]]]. exists ws, w. split; [reflexivity|].
    rewrite Hbad. split; [auto|lia].
Qed.

(** The run is unique, so the existential statements above pin it down. *)
Lemma digit_fun b c v w : digit b c v -> digit b c w -> v = w.
Proof. intros H1 H2. apply ctoi_Some in H1, H2. congruence. Qed.

Lemma prefix_fun base s b pre b' pre' :
  prefix base s b pre -> prefix base s b' pre' -> b = b' /\ pre = pre'.
Proof.
  assert (H120 : forall v, ~ digit 8 120 v).
  { intros v Hv. apply ctoi_Some in Hv. vm_compute in Hv. discriminate. }
  intros H1 H2.
  destruct H1 as [base s Hn|c v s Hd|c v s Hd|s Ha Hb]; inversion H2; subst; auto;
    try congruence;
    try (exfalso; congruence);
    try (exfalso; eapply H120; eassumption);
    exfalso;
    match goal with
    | H : (forall c v t, _ = 48 :: c :: t -> ~ digit 8 c v), Hd : digit 8 _ _ |- _ =>
        eapply H; [reflexivity|exact Hd]
    | H : (forall c v t, _ = 48 :: 120 :: c :: t -> ~ digit 16 c v), Hd : digit 16 _ _ |- _ =>
        eapply H; [reflexivity|exact Hd]
    end.
Qed.

Lemma maximal_fun b ds : forall rest ds' rest' vs vs',
  ds ++ rest = ds' ++ rest' ->
  Forall2 (digit b) ds vs -> Forall2 (digit b) ds' vs' ->
  (forall c t v, rest = c :: t -> ~ digit b c v) ->
  (forall c t v, rest' = c :: t -> ~ digit b c v) ->
  ds = ds' /\ vs = vs' /\ rest = rest'.
Proof.
  induction ds as [|d ds IH]; intros rest ds' rest' vs vs' He F1 F2 M1 M2.
  - inversion F1; subst. destruct ds' as [|d' ds'].
    + inversion F2; subst. auto.
    + inversion F2; subst. exfalso. cbn in He. eapply M1; eauto.
  - inversion F1 as [|? v ? vs0 Hd Hf]; subst. destruct ds' as [|d' ds'].
    + exfalso. cbn in He. eapply M2; eauto.
    + inversion F2 as [|? v' ? vs0' Hd' Hf']; subst. cbn in He. injection He as <- He.
      destruct (IH _ _ _ _ _ He Hf Hf' M1 M2) as [-> [-> ->]].
      rewrite (digit_fun _ _ _ _ Hd Hd'). auto.
Qed.

Lemma run_unique base s b pre ds vs rest b' pre' ds' vs' rest' :
  run base s b pre ds vs rest -> run base s b' pre' ds' vs' rest' ->
  b = b' /\ pre = pre' /\ ds = ds' /\ vs = vs' /\ rest = rest'.
Proof.
  intros [S1 P1 D1 M1] [S2 P2 D2 M2].
  destruct (prefix_fun _ _ _ _ _ _ P1 P2) as [<- <-].
  rewrite S1 in S2. apply app_inv_head in S2.
  destruct (maximal_fun _ _ _ _ _ _ _ S2 D1 D2 M1 M2) as [-> [-> ->]]. auto.
Qed.

Lemma atoi_exact_all base s b pre ds vs rest :
  base <= 36 -> run base s b pre ds vs rest ->
  next (atoi_ulln s base) = lenN pre + lenN ds
  /\ (num b vs < 2 ^ 64 ->
      ret (atoi_ulln s base) = Success /\ value (atoi_ulln s base) = num b vs).
Proof.
  intros Hb Hr. destruct (atoi_exact base s Hb) as [b' [pre' [ds' [vs' [rest' [Hr' H]]]]]].
  destruct (run_unique _ _ _ _ _ _ _ _ _ _ _ _ Hr Hr') as [-> [-> [-> [-> ->]]]]. exact H.
Qed.

Lemma atoi_run_exists base s :
  base <= 36 -> exists b pre ds vs rest, run base s b pre ds vs rest.
Proof.
  intros Hb. destruct (atoi_exact base s Hb) as [b [pre [ds [vs [rest [Hr _]]]]]]. eauto 6.
Qed.

Lemma atoi_overflow_all base s b pre ds ws w rest :
  base <= 36 -> run base s b pre ds (ws ++ [w]) rest ->
  2 ^ 64 <= num b (ws ++ [w]) ->
  (2 ^ 64 <= num b ws * b ->
     ret (atoi_ulln s base) = Erange /\ value (atoi_ulln s base) = 2 ^ 64 - 1)
  /\ (num b ws * b < 2 ^ 64 ->
     ret (atoi_ulln s base) = Success /\ value (atoi_ulln s base) = num b ws * b).
Proof.
  intros Hb Hr Hge. destruct (atoi_overflow base s Hb) as [b' [pre' [ds' [vs' [rest' [Hr' H]]]]]].
  destruct (run_unique _ _ _ _ _ _ _ _ _ _ _ _ Hr Hr') as [-> [-> [-> [<- ->]]]].
  destruct (H Hge) as [ws' [w' [He H2]]].
  apply app_inj_tail in He. destruct He as [<- <-]. exact H2.
Qed.

Lemma atoi_bad_base s base : 36 < base -> atoi_ulln s base = mkAnswer Einval 0 0.
Proof. intros H. unfold atoi_ulln. destruct (36 <? base) eqn:E; [reflexivity|lia]. Qed.

Lemma value_bound s base : value (atoi_ulln s base) < 2 ^ 64.
Proof.
  destruct (N.le_gt_cases base 36) as [Hb|Hb].
  - destruct (atoi_full base s Hb) as [b [pre [ds [vs [rest [Hr [Hbr [Hn [st [HI [_ Hval]]]]]]]]]]].
    rewrite Hval, p64. pose proof u64_max_val.
    destruct HI as [[Hh [Hbad [Hv ?]]]|[[Hh [Hbad [Hv ?]]]|[[Hh [Hbad [Hge' Hx]]]|[Hbad Hx]]]];
      rewrite Hbad; try rewrite Hh; try lia.
    destruct Hx as [ws [w [-> [Hw [Hv Hlt]]]]]. lia.
  - rewrite atoi_bad_base by assumption. reflexivity.
Qed.

Lemma narrow_spec max s base :
  max < 2 ^ 64 ->
  let w := atoi_ulln s base in let n := narrow max w in
  next n = next w
  /\ (ret n = Success -> ret w = Success /\ value n = value w /\ value n <= max)
  /\ (ret w = Success -> value w <= max -> ret n = Success)
  /\ (ret w = Success -> max < value w -> ret n = Erange /\ value n = max)
  /\ (ret w = Erange -> ret n = Erange /\ value n = max).
Proof.
  intros Hm w n. subst n. unfold narrow. cbn [ret next value].
  assert (Hev : ret w = Erange -> value w = 2 ^ 64 - 1).
  { intros H. unfold w in *. destruct (N.le_gt_cases base 36) as [Hb|Hb].
    - destruct (atoi_full base s Hb) as [b [pre [ds [vs [rest [Hr [Hbr [Hn [st [HI [Hret Hval]]]]]]]]]]].
      rewrite Hval. destruct (bad st); [reflexivity|congruence].
    - rewrite atoi_bad_base in H by assumption. discriminate. }
  rewrite p64 in *.
  split; [reflexivity|].
  destruct (ret w) eqn:E.
  - destruct (max <? value w) eqn:E2; repeat split; intros; try discriminate; try congruence; lia.
  - specialize (Hev eq_refl). repeat split; intros; try discriminate; try congruence; lia.
  - repeat split; intros; discriminate.
Qed.

Lemma atoi_empty_detectable base s b pre ds vs rest :
  base <= 36 -> run base s b pre ds vs rest ->
  (next (atoi_ulln s base) = lenN pre <-> ds = []).
Proof.
  intros Hb Hr. destruct (atoi_exact_all _ _ _ _ _ _ _ Hb Hr) as [-> _]. split.
  - intros H. apply lenN_0_nil. lia.
  - intros ->. rewrite lenN_nil. lia.
Qed.
