(** Memory safety of the buffer-level functions of Qstr_Model and Alloc_Model. *)
From Verif Require Import Base Align_Model Align_Proofs Alloc_Model Qstr_Model Qstr_Proofs.

Lemma takeN_app_exact {A} (a b : list A) : takeN (lenN a) (a ++ b) = a.
Proof. rewrite takeN_app, takeN_all, N.sub_diag, takeN_0, app_nil_r; [reflexivity|lia]. Qed.
Lemma dropN_app_exact {A} (a b : list A) : dropN (lenN a) (a ++ b) = b.
Proof. rewrite dropN_app, dropN_all, N.sub_diag, dropN_0; [reflexivity|lia]. Qed.

Lemma mem_write_mid {A} (a j r o : list A) :
  lenN o <= lenN j ->
  mem_write (a ++ j ++ r) (lenN a) o = Ok (a ++ o ++ dropN (lenN o) j ++ r).
Proof.
  intros H. unfold mem_write. len.
  destruct (lenN a + lenN o <=? lenN a + (lenN j + lenN r)) eqn:E; [|lia].
  f_equal. rewrite takeN_app_exact. do 2 f_equal.
  rewrite dropN_app, dropN_all by lia. cbn [app].
  replace (lenN a + lenN o - lenN a) with (lenN o) by lia.
  rewrite dropN_app. replace (lenN o - lenN j) with 0 by lia. rewrite dropN_0. reflexivity.
Qed.

Lemma write_all_mid o : forall a j r,
  lenN o <= lenN j ->
  write_all (a ++ j ++ r) (lenN a) o
  = Ok (a ++ map Some o ++ dropN (lenN o) j ++ r, lenN a + lenN o).
Proof.
  induction o as [|c o IH]; intros a j r H; cbn [write_all].
  - rewrite lenN_nil, dropN_0, N.add_0_r. reflexivity.
  - rewrite lenN_cons in H.
    rewrite (mem_write_mid a j r [Some c]) by (len; lia).
    cbn [bind]. rewrite lenN_cons, lenN_nil.
    assert (Ha : lenN (a ++ [Some c]) = lenN a + 1) by (len; lia).
    rewrite <- Ha. change (a ++ [Some c] ++ dropN (1 + 0) j ++ r)
      with (a ++ ([Some c] ++ (dropN (1 + 0) j ++ r))).
    rewrite (app_assoc a [Some c]).
    rewrite IH by (len; lia). rewrite Ha. f_equal. f_equal; [|len; lia].
    rewrite <- app_assoc. cbn [app map]. do 3 f_equal.
    rewrite dropN_dropN. do 2 f_equal. rewrite lenN_cons. lia.
Qed.

Lemma dec_char_len esc q c e q' o :
  dec_char esc q c = (e, q', o) ->
  (lenN o <= (if esc then 2 else 1)) /\ (e = true -> o = [] /\ esc = false).
Proof.
  unfold dec_char. destruct esc.
  - intros [= <- <- <-]. split; [|discriminate].
    destruct (negb _); [|destruct (c =? 0)]; len; lia.
  - repeat match goal with |- context [if ?b then _ else _] => match type of b with bool => destruct b end end;
      intros [= <- <- <-]; len; split; try lia; auto; discriminate.
Qed.

Lemma nthN_mid {A} (a : list A) x r : nthN (a ++ x :: r) (lenN a) = Some x.
Proof.
  rewrite nthN_app. destruct (lenN a <? lenN a) eqn:E; [lia|].
  rewrite N.sub_diag. reflexivity.
Qed.

Lemma decode_loop_ok rest : forall out junk tl esc q,
  (esc = true -> junk <> []) ->
  exists out' junk' esc',
    decode_loop (length rest) (map Some out ++ junk ++ map Some rest ++ tl)
      (lenN out + lenN junk) (lenN out) esc q
    = Ok (map Some out' ++ junk' ++ tl, lenN out', esc')
    /\ out' ++ (if esc' then [92] else []) = out ++ decode esc q rest
    /\ lenN out' + lenN junk' = lenN out + lenN junk + lenN rest
    /\ (esc' = true -> junk' <> []).
Proof.
  induction rest as [|c rest IH]; intros out junk tl esc q Hj.
  - exists out, junk, esc. cbn [map app length decode_loop decode].
    rewrite lenN_nil, N.add_0_r. repeat split; auto; try lia.
  - cbn [length decode_loop map decode].
    assert (Hn : nthN (map Some out ++ junk ++ (Some c :: map Some rest) ++ tl)
                   (lenN out + lenN junk) = Some (Some c)).
    { rewrite app_assoc. replace (lenN out + lenN junk) with (lenN (map Some out ++ junk)) by (len; lia).
      cbn [app]. apply nthN_mid. }
    cbn [app] in *. rewrite Hn.
    destruct (dec_char esc q c) as [[e q'] o] eqn:E.
    destruct (dec_char_len _ _ _ _ _ _ E) as [Hl He].
    assert (Hjl : esc = true -> 1 <= lenN junk).
    { intros H. specialize (Hj H). destruct junk; [congruence|]. rewrite lenN_cons. lia. }
    assert (Hlo : lenN o <= lenN (junk ++ [Some c])).
    { len. destruct esc; [specialize (Hjl eq_refl); lia|lia]. }
    replace (map Some out ++ junk ++ Some c :: map Some rest ++ tl)
      with (map Some out ++ (junk ++ [Some c]) ++ (map Some rest ++ tl))
      by (rewrite <- (app_assoc junk); reflexivity).
    pose proof (write_all_mid o (map Some out) (junk ++ [Some c]) (map Some rest ++ tl) Hlo) as Hw.
    rewrite lenN_map in Hw. rewrite Hw. cbn [bind fst snd].
    set (junk1 := dropN (lenN o) (junk ++ [Some c])).
    assert (Hj1 : lenN o + lenN junk1 = lenN junk + 1) by (unfold junk1; len; lia).
    assert (Hj1e : e = true -> junk1 <> []).
    { intros H. destruct (He H) as [-> _]. intros H0. rewrite H0 in Hj1. len. lia. }
    destruct (IH (out ++ o) junk1 tl e q' Hj1e) as [out' [junk' [esc' [H1 [H2 [H3 H4]]]]]].
    exists out', junk', esc'. rewrite map_app, <- app_assoc in H1.
    replace (lenN (out ++ o) + lenN junk1) with (lenN out + lenN junk + 1) in H1 by (len; lia).
    replace (lenN (out ++ o)) with (lenN out + lenN o) in H1 by (len; lia).
    split; [exact H1|]. rewrite <- app_assoc in H2. split; [exact H2|]. split; [|exact H4].
    len. lia.
Qed.

(** Decoding in place: never leaves the buffer, result is the decoded string
    with its terminator. *)
Lemma decode_n_ok s t :
  exists junk,
    decode_n (map Some s ++ [t]) (lenN s)
    = Ok (map Some (decode false 0 s) ++ Some 0 :: junk, lenN (decode false 0 s)).
Proof.
  unfold decode_n.
  destruct (decode_loop_ok s [] [] [t] false 0 ltac:(discriminate)) as [out [junk [esc [H1 [H2 [H3 H4]]]]]].
  cbn [map app] in H1. rewrite (@lenN_nil N), (@lenN_nil (option N)) in H1. change (0 + 0) with 0 in H1.
  replace (N.to_nat (lenN s)) with (length s) by (unfold lenN; lia).
  rewrite H1. cbn [bind]. cbn [app] in H2. rewrite <- H2. destruct esc.
  - destruct junk as [|x junk]; [exfalso; now apply H4|].
    pose proof (write_all_mid [92] (map Some out) (x :: junk) [t]
                  ltac:(len; lia)) as Hw.
    rewrite lenN_map in Hw. rewrite Hw. cbn [bind fst snd map].
    change (dropN (lenN [92]) (x :: junk)) with junk.
    assert (Hlen : lenN out + lenN [92] = lenN (map Some (out ++ [92]))) by (len; reflexivity).
    rewrite Hlen.
    assert (Hne : exists y r, junk ++ [t] = y :: r) by (destruct junk; eexists _, _; reflexivity).
    destruct Hne as [y [r Hyr]].
    replace (map Some out ++ [Some 92] ++ junk ++ [t]) with (map Some (out ++ [92]) ++ [y] ++ r)
      by (rewrite Hyr, map_app, <- app_assoc; reflexivity).
    rewrite mem_write_mid by (len; lia).
    cbn [bind]. exists r. rewrite lenN_map. reflexivity.
  - cbn [bind fst snd]. rewrite app_nil_r.
    assert (Hne : exists y r, junk ++ [t] = y :: r) by (destruct junk; eexists _, _; reflexivity).
    destruct Hne as [y [r Hyr]]. rewrite Hyr.
    pose proof (mem_write_mid (map Some out) [y] r [Some 0]
                  ltac:(len; lia)) as Hw.
    rewrite lenN_map in Hw. cbn [app] in Hw. rewrite Hw. cbn [bind].
    exists r. reflexivity.
Qed.

(** ** Growing allocations *)
Lemma wrap_small n : n < 2 ^ 64 -> wrap64 n = n.
Proof. intros; unfold wrap64, two64; apply N.mod_small; assumption. Qed.

Lemma lenN_realloc m n : lenN (realloc m n) = n.
Proof. unfold realloc. len. lia. Qed.

Lemma greedy_bytes m size need ok :
  lenN m = size -> need <= 2 ^ 63 ->
  (size < need -> ok = true) ->
  exists m' size', greedy_realloc_t m size need 1 ok = Ok (Some (m', size'))
    /\ lenN m' = size' /\ need <= size' /\ size <= size' /\ takeN size m' = m
    /\ (need <= size -> size' = size).
Proof.
  intros Hm Hn Hok. unfold greedy_realloc_t.
  destruct (need <=? size) eqn:E.
  - exists m, size. repeat split; try lia. apply takeN_all. lia.
  - change (1 =? 0) with false. cbn iota.
    assert (H64 : 1 <= N.max 64 need <= 2 ^ 63).
    { change (2 ^ 63) with 9223372036854775808 in *. lia. }
    destruct (align_power2_correct _ H64) as [p [Hp [[_ [Hge _]] Hp63]]].
    rewrite Hp. cbn [bind]. destruct (p =? 0) eqn:E0; [lia|].
    rewrite Hok by lia. exists (realloc m (wrap64 (p * 1))), p.
    change (2 ^ 63) with 9223372036854775808 in *.
    rewrite N.mul_1_r, wrap_small by (change (2 ^ 64) with 18446744073709551616; lia).
    rewrite lenN_realloc. repeat split; try lia.
    unfold realloc. rewrite takeN_app, takeN_takeN.
    replace (size - lenN (takeN p m)) with 0 by (len; lia).
    rewrite takeN_0, app_nil_r. apply takeN_all. lia.
Qed.

(** ** join *)
Lemma encode_body_len s : lenN (encode_body s) <= 2 * lenN s.
Proof.
  induction s as [|c s IH]; cbn [encode_body]; [len; lia|].
  destruct (_ || _); rewrite !lenN_cons; lia.
Qed.
Lemma encode_len s b : lenN (encode s b) <= 2 * lenN s + 2.
Proof.
  pose proof (encode_body_len s). unfold encode.
  destruct b; [rewrite !lenN_app, !lenN_cons, lenN_nil|]; lia.
Qed.

Definition total (ss : list (list byte)) : N := lenN (concat ss) + lenN ss.

Lemma write_all_at o b pos line :
  takeN pos b = map Some line -> lenN line = pos -> pos + lenN o <= lenN b ->
  exists b', write_all b pos o = Ok (b', pos + lenN o)
    /\ lenN b' = lenN b /\ takeN (pos + lenN o) b' = map Some (line ++ o).
Proof.
  intros Ht Hl Hb.
  assert (Hsplit : b = map Some line ++ takeN (lenN o) (dropN pos b) ++ dropN (pos + lenN o) b).
  { rewrite <- Ht. rewrite <- (takeN_dropN pos b) at 1. f_equal.
    rewrite <- (takeN_dropN (lenN o) (dropN pos b)) at 1. f_equal. apply dropN_dropN. }
  pose proof (write_all_mid o (map Some line) (takeN (lenN o) (dropN pos b))
                (dropN (pos + lenN o) b) ltac:(len; lia)) as Hw.
  rewrite <- Hsplit, lenN_map, Hl in Hw.
  eexists. split; [exact Hw|].
  rewrite (dropN_all (lenN o)) by (len; lia). cbn [app]. split.
  - len. lia.
  - rewrite app_assoc, <- map_app.
    replace (pos + lenN o) with (lenN (map Some (line ++ o))) at 1 by (len; lia).
    apply takeN_app_exact.
Qed.

Lemma join_buf_loop_ok ss : forall b size line,
  lenN b = size -> takeN (lenN line) b = map Some line -> lenN line < size ->
  lenN line + 4 * total ss <= 2 ^ 62 ->
  exists b' , join_buf_loop b size (lenN line) ss true
     = Ok (Some (b', lenN (join_loop line ss)))
    /\ takeN (lenN (join_loop line ss)) b' = map Some (join_loop line ss)
    /\ lenN (join_loop line ss) < lenN b'.
Proof.
  assert (P62 : 2 ^ 62 = 4611686018427387904) by reflexivity.
  assert (P63 : 2 ^ 63 = 9223372036854775808) by reflexivity.
  assert (P64 : 2 ^ 64 = 18446744073709551616) by reflexivity.
  induction ss as [|s ss IH]; intros b size line Hb Ht Hlt Hbound; cbn [join_buf_loop join_loop].
  - exists b. repeat split; auto. lia.
  - unfold total in Hbound. cbn [concat] in Hbound. rewrite lenN_app, lenN_cons in Hbound.
    rewrite (wrap_small (lenN s * 2)) by lia.
    destruct (lenN s * 2 <? lenN s) eqn:E1; [lia|].
    rewrite (wrap_small (lenN s * 2 + lenN line)) by lia.
    destruct (lenN s * 2 + lenN line <? lenN s * 2) eqn:E2; [lia|].
    rewrite (wrap_small (lenN s * 2 + lenN line + 4)) by lia.
    destruct (lenN s * 2 + lenN line + 4 <? lenN line) eqn:E3; [lia|].
    destruct (greedy_bytes b size (lenN s * 2 + lenN line + 4) true Hb ltac:(lia) ltac:(auto))
      as [m [sz [Hg [Hm [Hn [Hs [Hpre _]]]]]]].
    rewrite Hg. cbn [bind].
    assert (Htm : takeN (lenN line) m = map Some line).
    { rewrite <- Ht, <- Hpre, takeN_takeN. f_equal. lia. }
    set (sep := match line with [] => [] | _ => [32] end).
    assert (Hsep : exists m1, (if 0 <? lenN line then write_all m (lenN line) [32] else Ok (m, lenN line))
        = Ok (m1, lenN (line ++ sep)) /\ lenN m1 = lenN m
          /\ takeN (lenN (line ++ sep)) m1 = map Some (line ++ sep)).
    { unfold sep. destruct line as [|x line].
      - exists m. cbn. auto.
      - rewrite lenN_cons in *. destruct (0 <? 1 + lenN line) eqn:E; [|lia].
        rewrite <- lenN_cons with (x := x) in *.
        destruct (write_all_at [32] m (lenN (x :: line)) (x :: line) Htm eq_refl)
          as [m1 [Hw [Hl Hc]]]; [len; lia|].
        exists m1. rewrite lenN_app. auto. }
    destruct Hsep as [m1 [-> [Hl1 Ht1]]]. cbn [bind fst snd].
    pose proof (encode_len s (need_quote s)) as Hel.
    assert (Hsl : lenN sep <= 1) by (unfold sep; destruct line; len; lia).
    destruct (write_all_at (encode s (need_quote s)) m1 (lenN (line ++ sep)) (line ++ sep) Ht1 eq_refl)
      as [m2 [Hw2 [Hl2 Ht2]]]; [len; lia|].
    rewrite Hw2. cbn [bind fst snd]. rewrite <- lenN_app, <- app_assoc in *.
    apply IH; try lia.
    + rewrite <- Ht2. reflexivity.
    + rewrite !lenN_app. lia.
    + unfold total. rewrite !lenN_app in *. lia.
Qed.

Lemma join_buf_ok ss :
  4 * total ss <= 2 ^ 62 ->
  exists r, join_buf ss true = Ok r /\
    ((r = None /\ 2 ^ 31 <= lenN (join ss))
     \/ exists b, r = Some (b, lenN (join ss)) /\ lenN (join ss) < 2 ^ 31
          /\ takeN (lenN (join ss) + 1) b = map Some (join ss ++ [0])).
Proof.
  intros Hb. unfold join_buf.
  destruct (greedy_bytes [] 0 1 true eq_refl ltac:(discriminate) ltac:(auto))
    as [m [sz [Hg [Hm [Hn [Hs [Hpre _]]]]]]].
  rewrite Hg. cbn [bind]. unfold mem_write at 1.
  destruct (0 + lenN [Some 0] <=? lenN m) eqn:E; [|len; lia].
  cbn [bind]. set (m1 := takeN 0 m ++ [Some 0] ++ dropN (0 + lenN [Some 0]) m).
  assert (Hm1 : lenN m1 = sz) by (unfold m1; len; lia).
  destruct (join_buf_loop_ok ss m1 sz [] Hm1 ltac:(reflexivity) ltac:(rewrite lenN_nil; lia)
              ltac:(rewrite lenN_nil; lia)) as [b [Hj [Ht Hl]]].
  rewrite lenN_nil in Hj. rewrite Hj. cbn [bind]. fold (join ss) in *.
  destruct (2 ^ 31 <=? lenN (join ss)) eqn:E2.
  - eexists. split; [reflexivity|]. left. split; [reflexivity|lia].
  - destruct (write_all_at [0] b (lenN (join ss)) (join ss) Ht eq_refl)
      as [b' [Hw [Hl' Ht']]]; [len; lia|].
    cbn [write_all] in Hw.
    destruct (mem_write b (lenN (join ss)) [Some 0]) as [b2|] eqn:Ew; [|discriminate].
    cbn [bind] in Hw |- *. injection Hw as ->.
    eexists. split; [reflexivity|]. right. exists b'. split; [reflexivity|].
    split; [lia|exact Ht'].
Qed.

(** ** greedy_realloc *)
Lemma greedy_realloc_ok m size need ok :
  lenN m = size -> need <= 2 ^ 63 ->
  (exists m' size', greedy_realloc0 m size need ok = Ok (Some (m', size'))
    /\ lenN m' = size' /\ need <= size' /\ size <= size'
    /\ takeN size m' = m /\ dropN size m' = repeat (Some 0) (N.to_nat (size' - size)))
  \/ (greedy_realloc0 m size need ok = Ok None /\ ok = false /\ size < need).
Proof.
  intros Hm Hn. subst size. unfold greedy_realloc0, greedy_realloc.
  destruct (need <=? lenN m) eqn:E.
  - left. cbn [bind]. destruct (lenN m <? lenN m) eqn:E1; [lia|]. exists m, (lenN m).
    repeat split; try lia; [apply takeN_all; lia|].
    rewrite dropN_all, N.sub_diag by lia. reflexivity.
  - assert (H64 : 1 <= N.max 64 need <= 2 ^ 63).
    { change (2 ^ 63) with 9223372036854775808 in *. lia. }
    destruct (align_power2_correct _ H64) as [p [Hp [[_ [Hge _]] Hp63]]].
    rewrite Hp. cbn [bind]. destruct (p =? 0) eqn:E0; [lia|].
    destruct ok.
    + left. cbn [bind]. destruct (lenN m <? p) eqn:E1; [|lia].
      assert (Hrl : lenN (repeat (Some 0) (N.to_nat (p - lenN m))) = p - lenN m).
      { unfold lenN. rewrite repeat_length. lia. }
      assert (Hre : realloc m p = m ++ fresh (p - lenN m) ++ []).
      { unfold realloc. rewrite takeN_all by lia. rewrite app_nil_r. reflexivity. }
      rewrite Hre.
      rewrite mem_write_mid by (rewrite Hrl; len; lia).
      cbn [bind]. rewrite dropN_all by (rewrite Hrl; len; lia). rewrite !app_nil_r.
      eexists _, p. split; [reflexivity|]. rewrite lenN_app, Hrl.
      split; [lia|]. split; [lia|]. split; [lia|].
      rewrite takeN_app_exact, dropN_app_exact. auto.
    + right. cbn [bind]. repeat split; lia.
Qed.

Lemma greedy_realloc_t_fits m cnt need ts ok :
  lenN m = cnt * ts -> 0 < ts -> 1 <= need ->
  2 * N.max 64 need * ts <= 2 ^ 63 ->
  (exists m' cnt', greedy_realloc_t m cnt need ts ok = Ok (Some (m', cnt'))
    /\ lenN m' = cnt' * ts /\ need <= cnt' /\ takeN (cnt * ts) m' = m /\ (cnt' = cnt \/ cnt' * ts <= 2 ^ 63))
  \/ (greedy_realloc_t m cnt need ts ok = Ok None /\ ok = false /\ cnt < need).
Proof.
  intros Hm Hts Hn Hb. unfold greedy_realloc_t.
  assert (P63 : 2 ^ 63 = 9223372036854775808) by reflexivity.
  assert (P64 : 2 ^ 64 = 18446744073709551616) by reflexivity.
  destruct (need <=? cnt) eqn:E.
  - left. exists m, cnt. repeat split; auto; try lia. apply takeN_all. lia.
  - destruct (ts =? 0) eqn:E0; [lia|].
    set (u := N.max 64 need) in *.
    assert (Hu : u * 1 <= u * ts) by (apply N.mul_le_mono_l; lia).
    assert (Hu64 : 64 <= u /\ need <= u) by (unfold u; lia).
    assert (H64 : 1 <= u <= 2 ^ 63) by lia.
    destruct (align_power2_correct _ H64) as [p [Hp [[[k Hk] [Hge Hleast]] Hp63]]].
    rewrite Hp. cbn [bind]. destruct (p =? 0) eqn:E1; [lia|].
    assert (Hp2 : p <= 2 * u).
    { destruct (N.eq_dec k 0) as [->|Hk0]; [rewrite N.pow_0_r in Hk; lia|].
      destruct (N.le_gt_cases p (2 * u)) as [|Hgt]; [assumption|exfalso].
      assert (Hk' : p = 2 * 2 ^ (k - 1)).
      { rewrite Hk. rewrite <- N.pow_succ_r'. f_equal. lia. }
      assert (p <= 2 ^ (k - 1)) by (apply Hleast; [eexists; reflexivity|lia]). lia. }
    assert (Hpt : p * ts <= 2 * u * ts) by (apply N.mul_le_mono_r; exact Hp2).
    assert (Hct : cnt * ts <= p * ts) by (apply N.mul_le_mono_r; lia).
    destruct ok.
    + left. eexists _, p. split; [reflexivity|]. rewrite wrap_small by lia.
      rewrite lenN_realloc. repeat split; auto; try lia.
      unfold realloc. rewrite takeN_app, takeN_takeN.
      replace (cnt * ts - lenN (takeN (p * ts) m)) with 0 by (len; lia).
      rewrite takeN_0, app_nil_r. apply takeN_all. lia.
    + right. repeat split; lia.
Qed.
Lemma greedy_realloc_t_ok m cnt need ts ok :
  lenN m = cnt * ts -> 0 < ts -> 1 <= need ->
  2 * N.max 64 need * ts <= 2 ^ 63 ->
  (exists m' cnt', greedy_realloc_t m cnt need ts ok = Ok (Some (m', cnt'))
    /\ lenN m' = cnt' * ts /\ need <= cnt' /\ takeN (cnt * ts) m' = m)
  \/ (greedy_realloc_t m cnt need ts ok = Ok None /\ ok = false /\ cnt < need).
Proof.
  intros Hm Hts Hn Hb. destruct (greedy_realloc_t_fits m cnt need ts ok Hm Hts Hn Hb) as [(m' & cnt' & H1 & H2 & H3 & H4 & _)|H]; [left|right; exact H]. exists m', cnt'. auto.
Qed.
Lemma greedy_realloc0_t_ok m cnt need ts ok :
  lenN m = cnt * ts -> 0 < ts -> 1 <= need ->
  2 * N.max 64 need * ts <= 2 ^ 63 ->
  (exists cnt', greedy_realloc0_t m cnt need ts ok = Ok (Some (m ++ repeat (Some 0) (N.to_nat ((cnt' - cnt) * ts)), cnt'))
    /\ need <= cnt' /\ cnt <= cnt')
  \/ (greedy_realloc0_t m cnt need ts ok = Ok None /\ ok = false /\ cnt < need).
Proof.
  intros Hm Hts Hn Hb. unfold greedy_realloc0_t. assert (P63 : 2 ^ 63 = 9223372036854775808) by reflexivity.
  assert (P64 : 2 ^ 64 = 18446744073709551616) by reflexivity.
  destruct (greedy_realloc_t_fits m cnt need ts ok Hm Hts Hn Hb) as [(m' & cnt' & H1 & H2 & H3 & H4 & H5)|(H1 & H2 & H3)]; rewrite H1; cbn [bind].
  2:{ right. auto. }
  left. exists cnt'. destruct (N.ltb_spec cnt cnt') as [Hlt|Hge].
  - destruct H5 as [->|H5]; [lia|]. assert (Hc : cnt * ts <= cnt' * ts) by (apply N.mul_le_mono_r; lia). assert (Hd : (cnt' - cnt) * ts = cnt' * ts - cnt * ts) by (apply N.mul_sub_distr_r).
    rewrite !wrap_small by lia.
    assert (Hs : m' = m ++ dropN (cnt * ts) m' ++ []) by (rewrite <- H4 at 1; rewrite app_nil_r; symmetry; apply takeN_dropN).
    assert (Hl : lenN (dropN (cnt * ts) m') = (cnt' - cnt) * ts) by (rewrite lenN_dropN; lia).
    set (z := repeat (Some 0) (N.to_nat ((cnt' - cnt) * ts)) : list cell).
    assert (Hz : lenN z = (cnt' - cnt) * ts) by (unfold z, lenN; rewrite repeat_length; lia). clearbody z.
    set (d := dropN (cnt * ts) m') in *. clearbody d. rewrite Hs, <- Hm, mem_write_mid by lia. cbn [bind]. rewrite !app_nil_r, dropN_all by lia.
    rewrite app_nil_r. split; [reflexivity|lia].
  - destruct H5 as [->|H5].
    + rewrite N.sub_diag, N.mul_0_l. cbn [N.to_nat repeat]. rewrite app_nil_r. split; [|lia]. rewrite <- H4, takeN_all by lia. reflexivity.
    + assert (cnt * ts <= lenN m'). { rewrite <- H4 in Hm. rewrite lenN_takeN in Hm. lia. }
      assert (cnt' = cnt). { rewrite H2 in H. apply N.mul_le_mono_pos_r in H; lia. } subst cnt'.
      rewrite N.sub_diag, N.mul_0_l. cbn [N.to_nat repeat]. rewrite app_nil_r. split; [|lia]. rewrite <- H4, takeN_all by lia. reflexivity.
Qed.
Lemma greedy_typed_counterexample :
  exists m cnt need ts, need <= 2 ^ 63 /\ lenN m = cnt * ts /\
    greedy_realloc_t m cnt need ts true = Ok (Some ([], 2 ^ 62)) /\ need <= 2 ^ 62.
Proof.
  exists [], 0, (2 ^ 61 + 1), 8. split; [now vm_compute|]. split; [reflexivity|].
  split; [now vm_compute|now vm_compute].
Qed.
