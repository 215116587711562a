From Verif Require Import Base Checksum_Model Checksum_Spec Checksum_Proofs DhcpRaw_Model DhcpRaw_Spec.

Lemma word_stored le a b c : a < 256 -> b < 256 -> c <= 65535 -> (word le a b = c <-> [a; b] = stored le c).
Proof.
  intros Ha Hb Hc. unfold word, stored. destruct le; split; intros H.
  - subst. f_equal; [|f_equal]; lia.
  - inversion H. lia.
  - subst. f_equal; [|f_equal]; lia.
  - inversion H. lia.
Qed.
Lemma stored_bytes le c : c <= 65535 -> bytes (stored le c).
Proof. intros H. unfold stored. destruct le; repeat constructor; lia. Qed.
Lemma even_4 {A} (l1 l2 : list A) : N.even (lenN l1) = true -> N.even (lenN (l1 ++ l2)) = N.even (lenN l2).
Proof. intros H. len. rewrite N.even_add, H. destruct (N.even (lenN l2)); reflexivity. Qed.
Lemma be_sum_mid l1 a b l2 : N.even (lenN l1) = true -> be_sum (l1 ++ [a; b] ++ l2) = be_sum (l1 ++ [0; 0] ++ l2) + (256 * a + b).
Proof. intros H. rewrite (be_sum_app l1 ([a; b] ++ l2)), (be_sum_app l1 ([0; 0] ++ l2)) by exact H. cbn [app be_sum]. lia. Qed.

(** The test made by the receiver. *)
Lemma check_iff le l1 l2 a b : bytes l1 -> bytes l2 -> N.even (lenN l1) = true -> lenN l1 + lenN l2 <= 65000 ->
  a < 256 -> b < 256 -> be_sum (l1 ++ [0; 0] ++ l2) <> 0 ->
  exists c, checksum le (l1 ++ [0; 0] ++ l2) = Ok (Some c) /\
    (word le a b = c <-> sums_up (l1 ++ [a; b] ++ l2) /\ [a; b] <> [255; 255]).
Proof.
  intros B1 B2 Hev Hl Ha Hb Hnz.
  destruct (checksum_ok le (l1 ++ [0; 0] ++ l2)) as (c & Ec & Hc & (Hs & Hm & Hz) & Hst).
  { unfold bytes in *. apply Forall_app; split; [exact B1|]. repeat constructor; auto; lia. }
  { len. lia. }
  exists c. split; [exact Ec|]. rewrite (word_stored le a b c Ha Hb) by lia.
  unfold sums_up. rewrite be_sum_mid by exact Hev.
  assert (Sb := stored_bytes le c ltac:(lia)). destruct (stored le c) as [|x [|y [|z t]]] eqn:Es; try (unfold stored in Es; destruct le; discriminate).
  try unfold net in *; cbn [be_sum] in *. set (S := be_sum (l1 ++ [0; 0] ++ l2)) in *. inversion Sb as [|? ? Hx Sb']; subst. inversion Sb' as [|? ? Hy _]; subst.
  split.
  - intros E. inversion E; subst. split; [lia|]. intros E'. inversion E'; subst. lia.
  - intros [Hsum Hne]. assert (256 * a + b <> 65535) by (intros Hab; apply Hne; f_equal; [|f_equal]; lia).
    assert (256 * x + y <> 65535) by lia.
    assert (256 * a + b = 256 * x + y) by lia. f_equal; [|f_equal]; lia.
Qed.
Ltac dcons g n := match n with O => idtac | S ?m => let b := fresh "b" in destruct g as [|b g]; [exfalso; len; lia|]; dcons g m end.
Lemma bytes_cons x l : bytes (x :: l) -> x < 256 /\ bytes l.
Proof. intros H. inversion H; auto. Qed.

(** ** The copy and the cookie *)
Definition finish (data : list byte) (tot : N) : res recvd :=
  let n := (tot + two64 - 28) mod two64 in
  do d <- mem_read (map Some data) 0 n;
  do pkt <- mem_write (fresh 628) 0 d;
  do cookie <- mem_read pkt 236 4;
  match cookie with
  | [Some a; Some b; Some c; Some d] =>
      if (a =? 0x63) && (b =? 0x82) && (c =? 0x53) && (d =? 0x63) then Ok (Accepted pkt n) else Ok Dropped
  | _ => UB
  end.
Lemma fresh_app a b : fresh (a + b) = fresh a ++ fresh b.
Proof. unfold fresh. rewrite N2Nat.inj_add. apply repeat_app. Qed.
Lemma dropN_fresh a b : dropN a (fresh b) = fresh (b - a).
Proof.
  destruct (N.le_gt_cases a b).
  - replace b with (a + (b - a)) at 1 by lia. rewrite fresh_app, dropN_app, lenN_fresh, N.sub_diag, dropN_0, dropN_all; [reflexivity|]. rewrite lenN_fresh; lia.
  - rewrite dropN_all by (rewrite lenN_fresh; lia). replace (b - a) with 0 by lia. reflexivity.
Qed.
Lemma split_at (l : list N) a b : a + b <= lenN l -> exists x y z, l = x ++ y ++ z /\ lenN x = a /\ lenN y = b.
Proof.
  intros H. exists (takeN a l), (takeN b (dropN a l)), (dropN b (dropN a l)). split; [|split; len; lia].
  rewrite !takeN_dropN. reflexivity.
Qed.
Lemma finish_eq data tot : lenN data = 628 -> tot <= 656 ->
  (tot < 268 -> finish data tot = UB) /\
  (268 <= tot -> exists payload trailer, data = payload ++ trailer /\ lenN payload = tot - 28 /\
     ((dhcp_message payload /\ finish data tot = Ok (Accepted (map Some payload ++ fresh (656 - tot)) (tot - 28))) \/
      (~ dhcp_message payload /\ finish data tot = Ok Dropped))).
Proof.
  intros Hd Ht. assert (E64 : two64 = 18446744073709551616) by reflexivity.
  destruct (N.lt_ge_cases tot 28) as [H28|H28].
  { split; [|lia]. intros _. unfold finish. unfold mem_read at 1. len. replace (0 + (tot + two64 - 28) mod two64 <=? lenN data) with false by lia. reflexivity. }
  destruct (split_at data (tot - 28) 0 ltac:(lia)) as (pl & y & tr & Edata & Lp & Ly). apply lenN_0_nil in Ly. subst y. cbn [app] in Edata.
  assert (F : finish data tot = match takeN 4 (dropN 236 (map Some pl ++ fresh (656 - tot))) with
    | [Some a; Some b; Some c; Some d] =>
      if (a =? 0x63) && (b =? 0x82) && (c =? 0x53) && (d =? 0x63) then Ok (Accepted (map Some pl ++ fresh (656 - tot)) (tot - 28)) else Ok Dropped
    | _ => UB end).
  { unfold finish. replace ((tot + two64 - 28) mod two64) with (tot - 28) by lia.
    unfold mem_read at 1. len. replace (0 + (tot - 28) <=? lenN data) with true by lia. cbn [bind]. rewrite dropN_0.
    rewrite takeN_map. replace (takeN (tot - 28) data) with pl by (rewrite Edata, takeN_app, takeN_all by lia; replace (tot - 28 - lenN pl) with 0 by lia; rewrite takeN_0, app_nil_r; reflexivity).
    unfold mem_write. len. rewrite Lp. replace (0 + (tot - 28) <=? 628) with true by lia. cbn [bind]. rewrite takeN_0, dropN_fresh. cbn [app].
    replace (628 - (0 + (tot - 28))) with (656 - tot) by lia. unfold mem_read. len. replace (236 + 4 <=? lenN pl + (656 - tot)) with true by lia. reflexivity. }
  rewrite F. clear F. split; intros H.
  - (* an uninitialised byte of the cookie *)
    assert (L : lenN (takeN 4 (dropN 236 (map Some pl ++ fresh (656 - tot)))) = 4) by (len; lia).
    assert (X : nthN (takeN 4 (dropN 236 (map Some pl ++ fresh (656 - tot)))) 3 = Some None).
    { rewrite nthN_takeN, nthN_dropN, nthN_app. len. replace (236 + 3 <? lenN pl) with false by lia. cbn.
      unfold nthN, fresh. apply nth_error_repeat. lia. }
    destruct (takeN 4 _) as [|a [|b [|c [|d [|e t]]]]]; unfold nthN in X; try discriminate X; [|cbn in L; unfold lenN in L; cbn [length] in L; lia].
    cbn in X. inversion X; subst. destruct a, b, c; reflexivity.
  - exists pl, tr. split; [exact Edata|]. split; [exact Lp|].
    destruct (split_at pl 236 4 ltac:(lia)) as (h & k & o & Epl & Lh & Lk).
    replace (takeN 4 (dropN 236 (map Some pl ++ fresh (656 - tot)))) with (map Some k).
    2:{ rewrite Epl, !map_app, <- !app_assoc, dropN_app, (dropN_all 236 (map Some h)) by (len; lia). len. rewrite Lh. cbn [app]. rewrite dropN_0, takeN_app, takeN_all by (len; lia). len. rewrite Lk, takeN_0, app_nil_r. reflexivity. }
    destruct k as [|a [|b [|c [|d [|e t]]]]]; unfold lenN in Lk; cbn [length] in Lk; try lia. cbn [map].
    destruct ((a =? 99) && (b =? 130) && (c =? 83) && (d =? 99)) eqn:Ck.
    + left. split; [|reflexivity]. exists h, o. split; [|exact Lh]. rewrite Epl. f_equal. f_equal. f_equal; [|f_equal; [|f_equal; [|f_equal]]]; lia.
    + right. split; [|reflexivity]. intros (h' & o' & E' & Lh'). rewrite Epl in E'. assert (Eh := f_equal (dropN 236) E').
      rewrite !dropN_app, (dropN_all 236 h), (dropN_all 236 h') in Eh by lia. rewrite Lh, Lh' in Eh. cbn [app] in Eh. change (236 - 236) with 0 in Eh. rewrite !dropN_0 in Eh. inversion Eh; subst. lia.
Qed.

(** ** The tests *)
Lemma version vi : (N.shiftr vi 4 =? 4) && (N.land vi 15 =? 5) = (vi =? 0x45).
Proof. rewrite N.shiftr_div_pow2. change 15 with (N.ones 4). rewrite N.land_ones. change (2 ^ 4) with 16. lia. Qed.
Lemma bytes_firstn n l : bytes l -> bytes (takeN n l).
Proof. unfold bytes, takeN. intros H. rewrite <- (firstn_skipn (N.to_nat n) l) in H. apply Forall_app in H. apply H. Qed.
Lemma accept_eq le vi tos t0 t1 i0 i1 f0 f1 ttl pr c0 c1 s0 s1 s2 s3 d0 d1 d2 d3 p0 p1 q0 q1 l0 l1 u0 u1 data tot :
  let buf := vi :: tos :: t0 :: t1 :: i0 :: i1 :: f0 :: f1 :: ttl :: pr :: c0 :: c1 :: s0 :: s1 :: s2 :: s3 :: d0 :: d1 :: d2 :: d3
    :: p0 :: p1 :: q0 :: q1 :: l0 :: l1 :: u0 :: u1 :: data in
  bytes buf -> lenN data = 628 -> tot <= 656 ->
  let C := pr = 17 /\ vi = 0x45 /\ 256 * q0 + q1 = 68 /\ 256 * l0 + l1 = (tot + two64 - 20) mod 65536
    /\ (sums_up [vi; tos; t0; t1; i0; i1; f0; f1; ttl; pr; c0; c1; s0; s1; s2; s3; d0; d1; d2; d3] /\ [c0; c1] <> [255; 255])
    /\ (28 <= tot -> [u0; u1] = [0; 0] \/
        (sums_up ([0; 0; l0; l1; 0; 0; 0; 0; 0; pr; 0; 0; s0; s1; s2; s3; d0; d1; d2; d3; p0; p1; q0; q1; l0; l1] ++ [u0; u1] ++ takeN (tot - 28) data)
         /\ [u0; u1] <> [255; 255])) in
  (C /\ accept le (fresh 628) buf tot = (do r <- finish data tot; Ok (Some r)))
  \/ ((28 <= tot -> ~ C) /\ accept le (fresh 628) buf tot = Ok (Some Dropped)).
Proof.
  intros buf B Ld Ht C.
  assert (E64 : two64 = 18446744073709551616) by reflexivity.
  unfold buf in B. repeat (match goal with H : bytes (_ :: _) |- _ => apply bytes_cons in H; destruct H end).
  destruct (pr =? 17) eqn:T1; [|right; split; [intros _ HC; unfold C in HC; lia|unfold accept, buf; rewrite T1; reflexivity]].
  destruct (vi =? 0x45) eqn:T2; [|right; split; [intros _ HC; unfold C in HC; lia|]].
  2:{ unfold accept, buf. rewrite T1. cbn [negb]. rewrite <- version in T2. destruct (N.shiftr vi 4 =? 4); [|reflexivity]. cbn [negb]. cbn [andb] in T2. rewrite T2. reflexivity. }
  destruct (256 * q0 + q1 =? 68) eqn:T3; [|right; split; [intros _ HC; unfold C in HC; lia|]].
  2:{ unfold accept, buf. rewrite T1. rewrite <- version in T2. apply andb_prop in T2. destruct T2 as [-> ->]. cbn [negb]. rewrite T3. reflexivity. }
  destruct (256 * l0 + l1 =? (tot + two64 - 20) mod 65536) eqn:T4; [|right; split; [intros _ (_ & _ & _ & HC & _); lia|]].
  2:{ unfold accept, buf. rewrite T1. rewrite <- version in T2. apply andb_prop in T2. destruct T2 as [-> ->]. cbn [negb]. rewrite T3. cbn [negb]. rewrite T4. reflexivity. }
  destruct (check_iff le [vi; tos; t0; t1; i0; i1; f0; f1; ttl; pr] [s0; s1; s2; s3; d0; d1; d2; d3] c0 c1) as (h & Eh & Ih); auto.
  { repeat constructor; auto. } { repeat constructor; auto. } { unfold lenN. cbn [length]. lia. } { cbn [app be_sum]. lia. }
  cbn [app] in Eh, Ih.
  assert (EA : accept le (fresh 628) buf tot = if negb (word le c0 c1 =? h) then Ok (Some Dropped)
        else
          do u <- (if word le u0 u1 =? 0 then Ok (Some 0)
                   else checksum le (takeN tot ([0; 0; l0; l1; 0; 0; 0; 0; 0; pr; 0; 0; s0; s1; s2; s3; d0; d1; d2; d3; p0; p1; q0; q1; l0; l1; 0; 0] ++ data)));
          match u with None => Ok None | Some u =>
          if negb (word le u0 u1 =? 0) && negb (word le u0 u1 =? u) then Ok (Some Dropped)
          else do r <- finish data tot; Ok (Some r) end).
  { assert (T2' := T2). rewrite <- version in T2'. apply andb_prop in T2'. destruct T2' as [V1 V2]. unfold accept, buf. rewrite T1, V1, V2, T3, T4. cbn [negb]. rewrite Eh. cbn [bind].
    destruct (negb (word le c0 c1 =? h)); [reflexivity|].
    match goal with |- bind ?x _ = _ => destruct x as [[u|]|] end; cbn [bind]; try reflexivity.
    destruct (negb (word le u0 u1 =? 0) && negb (word le u0 u1 =? u)); [reflexivity|].
    unfold finish. destruct (mem_read (map Some data) 0 _) as [dd|]; [|reflexivity]. cbn [bind].
    destruct (mem_write (fresh 628) 0 dd) as [pkt|]; [|reflexivity]. cbn [bind].
    destruct (mem_read pkt 236 4) as [[|[a|] [|[b|] [|[c|] [|[d|] [|]]]]]|]; try reflexivity. cbn [bind].
    destruct ((a =? 99) && (b =? 130) && (c =? 83) && (d =? 99)); reflexivity. }
  rewrite EA. clear EA.
  destruct (word le c0 c1 =? h) eqn:T5; cbn [negb]; [|right; split; [|reflexivity]].
  2:{ intros _ (_ & _ & _ & _ & HC & _). apply Ih in HC. lia. }
  assert (HC5 : sums_up [vi; tos; t0; t1; i0; i1; f0; f1; ttl; pr; c0; c1; s0; s1; s2; s3; d0; d1; d2; d3] /\ [c0; c1] <> [255; 255]) by (apply Ih; lia).
  assert (W0 : word le u0 u1 = 0 <-> [u0; u1] = [0; 0]).
  { rewrite (word_stored le u0 u1 0) by (auto; lia). unfold stored. change (0 mod 256) with 0. change (0 / 256) with 0. destruct le; reflexivity. }
  destruct (word le u0 u1 =? 0) eqn:T6.
  { cbn [bind negb andb]. left. split; [|reflexivity]. unfold C. repeat split; try lia; try apply HC5. intros _. left. apply W0. lia. }
  cbn [negb andb].
  destruct (N.lt_ge_cases tot 28) as [H28|H28].
  - assert (exists u, checksum le (takeN tot ([0; 0; l0; l1; 0; 0; 0; 0; 0; pr; 0; 0; s0; s1; s2; s3; d0; d1; d2; d3; p0; p1; q0; q1; l0; l1; 0; 0] ++ data)) = Ok (Some u)) as [u ->].
    { destruct (checksum_ok le (takeN tot ([0; 0; l0; l1; 0; 0; 0; 0; 0; pr; 0; 0; s0; s1; s2; s3; d0; d1; d2; d3; p0; p1; q0; q1; l0; l1; 0; 0] ++ data))) as (u & Eu & _).
      - apply bytes_firstn. unfold bytes. repeat (apply Forall_cons; [lia|]). assumption.
      - rewrite lenN_takeN. lia.
      - eauto. }
    cbn [bind]. destruct (negb (word le u0 u1 =? u)); [right|left]; (split; [|reflexivity]); [lia|].
    unfold C. repeat split; try lia; apply HC5.
  - replace (takeN tot ([0; 0; l0; l1; 0; 0; 0; 0; 0; pr; 0; 0; s0; s1; s2; s3; d0; d1; d2; d3; p0; p1; q0; q1; l0; l1; 0; 0] ++ data))
      with ([0; 0; l0; l1; 0; 0; 0; 0; 0; pr; 0; 0; s0; s1; s2; s3; d0; d1; d2; d3; p0; p1; q0; q1; l0; l1] ++ [0; 0] ++ takeN (tot - 28) data).
    2:{ rewrite takeN_app, (takeN_all tot [_; _; _; _; _; _; _; _; _; _; _; _; _; _; _; _; _; _; _; _; _; _; _; _; _; _; _; _]) by (unfold lenN; cbn [length]; lia). reflexivity. }
    destruct (check_iff le [0; 0; l0; l1; 0; 0; 0; 0; 0; pr; 0; 0; s0; s1; s2; s3; d0; d1; d2; d3; p0; p1; q0; q1; l0; l1] (takeN (tot - 28) data) u0 u1) as (u & Eu & Iu); auto.
    { unfold bytes. repeat (apply Forall_cons; [lia|]). constructor. } { apply bytes_firstn. assumption. }
    { rewrite lenN_takeN. unfold lenN at 1. cbn [length]. lia. } { cbn [app be_sum]. lia. }
    rewrite Eu. cbn [bind]. destruct (word le u0 u1 =? u) eqn:T7; cbn [negb]; [left|right]; (split; [|reflexivity]).
    + unfold C. repeat split; try lia; try apply HC5. intros _. right. apply Iu. lia.
    + intros _ (_ & _ & _ & _ & _ & HC). destruct (HC H28) as [HC1|HC1]; [apply W0 in HC1; lia|]. apply Iu in HC1. lia.
Qed.

(** ** The receiver *)
Definition total (g : list byte) : N := match g with _ :: _ :: a :: b :: _ => 256 * a + b | _ => 0 end.
Lemma prefix_of (pl tr rest z : list N) : pl ++ tr = rest ++ z -> lenN pl <= lenN rest -> exists t, rest = pl ++ t.
Proof.
  revert rest. induction pl as [|x pl IH]; intros rest E H; [exists rest; reflexivity|].
  destruct rest as [|y rest]; [len; lia|]. cbn [app] in E. inversion E; subst. len. destruct (IH rest) as [t ->]; [assumption|lia|]. exists t. reflexivity.
Qed.
Lemma zeros_bytes n : bytes (repeat 0 n).
Proof. unfold bytes. induction n; simpl; constructor; auto; lia. Qed.
Lemma net16_eq a b n : a < 256 -> b < 256 -> 256 * a + b = n -> [a; b] = net16 n.
Proof. intros. unfold net16. f_equal; [|f_equal]; lia. Qed.

Lemma recv_cases le g : bytes g -> lenN g <= 656 ->
  (recv le (fresh 628) (Some g) = Ok (Some Dropped) /\
     (268 <= total g -> ~ exists hc uc payload, ip_udp g (total g) hc uc payload /\ dhcp_message payload /\ hc <> [255; 255] /\ uc <> [255; 255]))
  \/ (total g < 268 /\ 28 <= lenN g /\ recv le (fresh 628) (Some g) = UB)
  \/ (exists hc uc payload, ip_udp g (total g) hc uc payload /\ dhcp_message payload
      /\ recv le (fresh 628) (Some g) = Ok (Some (Accepted (map Some payload ++ fresh (656 - total g)) (total g - 28)))).
Proof.
  intros B L. unfold recv.
  assert (E64 : two64 = 18446744073709551616) by reflexivity.
  destruct (lenN g <? 28) eqn:L28.
  { left. split; [reflexivity|]. intros H (hc & uc & pl & (tos & id & ttl & src & dst & sport & tr & E & ? & ? & ? & ? & ? & ? & ? & ?) & _).
    rewrite E in L28. len. lia. }
  do 28 (let b := fresh "b" in destruct g as [|b g]; [exfalso; len; lia|]).
  rename b into vi, b0 into tos, b1 into t0, b2 into t1, b3 into i0, b4 into i1, b5 into f0, b6 into f1, b7 into ttl, b8 into pr, b9 into c0, b10 into c1,
    b11 into s0, b12 into s1, b13 into s2, b14 into s3, b15 into d0, b16 into d1, b17 into d2, b18 into d3, b19 into p0, b20 into p1, b21 into q0, b22 into q1, b23 into l0, b24 into l1, b25 into u0, b26 into u1.
  cbn [app total]. set (tot := 256 * t0 + t1).
  assert (Lg : lenN (vi :: tos :: t0 :: t1 :: i0 :: i1 :: f0 :: f1 :: ttl :: pr :: c0 :: c1 :: s0 :: s1 :: s2 :: s3 :: d0 :: d1 :: d2 :: d3
    :: p0 :: p1 :: q0 :: q1 :: l0 :: l1 :: u0 :: u1 :: g) = 28 + lenN g) by (len; lia).
  rewrite Lg in *.
  destruct (28 + lenN g <? tot) eqn:Lt.
  { left. split; [reflexivity|]. intros H (hc & uc & pl & (tos' & id & ttl' & src & dst & sport & tr & E & ? & ? & ? & ? & ? & ? & ? & ?) & _).
    assert (El := f_equal lenN E). rewrite Lg in El. unfold net16 in El. len. lia. }
  set (z := repeat 0 (N.to_nat (656 - (28 + lenN g)))).
  assert (Lz : lenN z = 628 - lenN g) by (unfold z, lenN; rewrite repeat_length; lia).
  assert (Bz : bytes z) by apply zeros_bytes.
  assert (Ld : lenN (g ++ z) = 628) by (len; lia).
  assert (Bb : bytes (vi :: tos :: t0 :: t1 :: i0 :: i1 :: f0 :: f1 :: ttl :: pr :: c0 :: c1 :: s0 :: s1 :: s2 :: s3 :: d0 :: d1 :: d2 :: d3
    :: p0 :: p1 :: q0 :: q1 :: l0 :: l1 :: u0 :: u1 :: g ++ z)).
  { change (bytes ((vi :: tos :: t0 :: t1 :: i0 :: i1 :: f0 :: f1 :: ttl :: pr :: c0 :: c1 :: s0 :: s1 :: s2 :: s3 :: d0 :: d1 :: d2 :: d3
    :: p0 :: p1 :: q0 :: q1 :: l0 :: l1 :: u0 :: u1 :: g) ++ z)). apply Forall_app. split; assumption. }
  destruct (finish_eq (g ++ z) tot Ld ltac:(lia)) as [F1 F2].
  destruct (accept_eq le vi tos t0 t1 i0 i1 f0 f1 ttl pr c0 c1 s0 s1 s2 s3 d0 d1 d2 d3 p0 p1 q0 q1 l0 l1 u0 u1 (g ++ z) tot Bb Ld ltac:(lia)) as [[C EA]|[C EA]].
  - destruct C as (-> & -> & Hq & Hl & (Hh & Hh') & Hu).
    destruct (N.lt_ge_cases tot 268) as [H|H].
    { right. left. split; [exact H|]. split; [lia|]. rewrite EA, F1 by exact H. reflexivity. }
    destruct (F2 H) as (pl & tr & Ed & Lp & Fin). destruct (prefix_of pl tr g z (eq_sym Ed) ltac:(lia)) as [t Et].
    unfold bytes in B. repeat (match goal with H : Forall _ (_ :: _) |- _ => apply bytes_cons in H; unfold bytes in H; destruct H end).
    assert (IP : ip_udp (69 :: tos :: t0 :: t1 :: i0 :: i1 :: f0 :: f1 :: ttl :: 17 :: c0 :: c1 :: s0 :: s1 :: s2 :: s3 :: d0 :: d1 :: d2 :: d3
      :: p0 :: p1 :: q0 :: q1 :: l0 :: l1 :: u0 :: u1 :: g) tot [c0; c1] [u0; u1] pl).
    { exists tos, [i0; i1; f0; f1], ttl, [s0; s1; s2; s3], [d0; d1; d2; d3], [p0; p1], t.
      rewrite <- (net16_eq t0 t1 tot), <- (net16_eq q0 q1 68), <- (net16_eq l0 l1 (tot - 20)) by (auto; lia).
      split; [rewrite Et; reflexivity|]. do 6 (split; [reflexivity|]). split; [lia|]. split; [lia|]. split; [exact Hh|].
      destruct (Hu ltac:(lia)) as [Hz|[Hs _]]; [left; exact Hz|right].
      unfold sums_up in *. rewrite Ed, takeN_app, takeN_all in Hs by lia. replace (tot - 28 - lenN pl) with 0 in Hs by lia. rewrite takeN_0, app_nil_r in Hs.
      cbn [app be_sum] in *. replace (256 * s0 + s1 + _) with (256 * 0 + 0 + (256 * l0 + l1 + (256 * 0 + 0 + (256 * 0 + 0 + (256 * 0 + 17 + (256 * 0 + 0 + (256 * s0 + s1 + (256 * s2 + s3 + (256 * d0 + d1 + (256 * d2 + d3 + (256 * p0 + p1 + (256 * q0 + q1 + (256 * l0 + l1 + (256 * u0 + u1 + be_sum pl)))))))))))))); [exact Hs|lia]. }
    destruct Fin as [[Dm Ef]|[Dm Ef]].
    + right. right. exists [c0; c1], [u0; u1], pl. split; [exact IP|]. split; [exact Dm|]. rewrite EA, Ef. reflexivity.
    + left. split; [rewrite EA, Ef; reflexivity|]. intros _ (hc & uc & pl' & IP' & Dm' & _). apply Dm.
      destruct IP' as (tos' & id & ttl' & src & dst & sport & tr' & E & I1 & I2 & I3 & I4 & I5 & I6 & I7 & _).
      assert (E' := f_equal (dropN 28) E). change (dropN 28 (69 :: tos :: t0 :: t1 :: i0 :: i1 :: f0 :: f1 :: ttl :: 17 :: c0 :: c1 :: s0 :: s1 :: s2 :: s3 :: d0 :: d1 :: d2 :: d3
        :: p0 :: p1 :: q0 :: q1 :: l0 :: l1 :: u0 :: u1 :: g)) with g in E'.
      replace ([69; tos'] ++ net16 tot ++ id ++ [ttl'; 17] ++ hc ++ src ++ dst ++ sport ++ net16 68 ++ net16 (tot - 20) ++ uc ++ pl' ++ tr')
        with (([69; tos'] ++ net16 tot ++ id ++ [ttl'; 17] ++ hc ++ src ++ dst ++ sport ++ net16 68 ++ net16 (tot - 20) ++ uc) ++ pl' ++ tr') in E' by (now rewrite <- !app_assoc).
      rewrite dropN_app, dropN_all in E' by (unfold net16; len; lia).
      replace (28 - lenN ([69; tos'] ++ net16 tot ++ id ++ [ttl'; 17] ++ hc ++ src ++ dst ++ sport ++ net16 68 ++ net16 (tot - 20) ++ uc)) with 0 in E' by (unfold net16; len; lia).
      rewrite dropN_0 in E'. cbn [app] in E'. rewrite Et in E'. assert (E2 := f_equal (takeN (tot - 28)) E').
      rewrite !takeN_app, (takeN_all _ pl), (takeN_all _ pl') in E2 by lia. replace (tot - 28 - lenN pl) with 0 in E2 by lia. replace (tot - 28 - lenN pl') with 0 in E2 by lia.
      rewrite !takeN_0, !app_nil_r in E2. rewrite E2. exact Dm'.
  - left. split; [exact EA|]. intros H (hc & uc & pl & IP & Dm & Hhc & Huc). apply C; [lia|].
    destruct IP as (tos' & id & ttl' & src & dst & sport & tr & E & I1 & I2 & I3 & I4 & I5 & I6 & I7 & I8 & Sh & Su).
    destruct id as [|a0 [|a1 [|a2 [|a3 [|]]]]]; unfold lenN in I1; cbn [length] in I1; try lia.
    destruct hc as [|h0 [|h1 [|]]]; unfold lenN in I2; cbn [length] in I2; try lia.
    destruct src as [|x0 [|x1 [|x2 [|x3 [|]]]]]; unfold lenN in I3; cbn [length] in I3; try lia.
    destruct dst as [|y0 [|y1 [|y2 [|y3 [|]]]]]; unfold lenN in I4; cbn [length] in I4; try lia.
    destruct sport as [|z0 [|z1 [|]]]; unfold lenN in I5; cbn [length] in I5; try lia.
    destruct uc as [|v0 [|v1 [|]]]; unfold lenN in I6; cbn [length] in I6; try lia.
    unfold net16 in E. cbn [app] in E. inversion E. subst vi tos' i0 i1 f0 f1 ttl' pr c0 c1 s0 s1 s2 s3 d0 d1 d2 d3 p0 p1 q0 q1 l0 l1 u0 u1.
    repeat split; try assumption.
    + lia.
    + intros _. destruct Su as [Su|Su]; [left; exact Su|right]. split; [|exact Huc]. unfold sums_up in *. unfold net16 in Su.
      rewrite <- app_assoc, takeN_app, takeN_all by lia. replace (tot - 28 - lenN pl) with 0 by lia. rewrite takeN_0, app_nil_r.
      cbn [app be_sum] in *.
      match goal with |- ?a mod _ = 0 => match type of Su with ?b mod _ = 0 => replace a with b; [exact Su|lia] end end.
Qed.
Lemma ip_udp_total g n hc uc pl : ip_udp g n hc uc pl -> total g = n.
Proof. intros (tos & id & ttl & src & dst & sport & tr & -> & H). unfold net16. cbn [app total]. lia. Qed.
Lemma same_payload g n hc uc pl hc' uc' pl' : ip_udp g n hc uc pl -> ip_udp g n hc' uc' pl' -> pl = pl'.
Proof.
  assert (X : forall hc uc pl, ip_udp g n hc uc pl -> takeN (n - 28) (dropN 28 g) = pl).
  { clear. intros hc uc pl (tos & id & ttl & src & dst & sport & tr & -> & I1 & I2 & I3 & I4 & I5 & I6 & I7 & _).
    replace ([69; tos] ++ net16 n ++ id ++ [ttl; 17] ++ hc ++ src ++ dst ++ sport ++ net16 68 ++ net16 (n - 20) ++ uc ++ pl ++ tr)
      with (([69; tos] ++ net16 n ++ id ++ [ttl; 17] ++ hc ++ src ++ dst ++ sport ++ net16 68 ++ net16 (n - 20) ++ uc) ++ pl ++ tr) by (now rewrite <- !app_assoc).
    rewrite dropN_app, dropN_all by (unfold net16; len; lia).
    replace (28 - lenN _) with 0 by (unfold net16; len; lia). rewrite dropN_0. cbn [app]. rewrite takeN_app, takeN_all by lia. replace (n - 28 - lenN pl) with 0 by lia. rewrite takeN_0, app_nil_r. reflexivity. }
  intros A A'. rewrite <- (X _ _ _ A). apply (X _ _ _ A').
Qed.
Lemma recv_sound le g pkt n : bytes g -> lenN g <= 656 -> recv le (fresh 628) (Some g) = Ok (Some (Accepted pkt n)) ->
  exists hc uc payload, ip_udp g (28 + n) hc uc payload /\ dhcp_message payload /\ pkt = map Some payload ++ fresh (628 - n).
Proof.
  intros B L H. destruct (recv_cases le g B L) as [[E _]|[(_ & _ & E)|(hc & uc & pl & IP & Dm & E)]]; rewrite H in E; try discriminate. inversion E; subst. clear E.
  assert (I := IP). destruct I as (_ & _ & _ & _ & _ & _ & _ & _ & _ & _ & _ & _ & _ & _ & I7 & I8 & _).
  exists hc, uc, pl. replace (28 + (total g - 28)) with (total g) by lia. replace (628 - (total g - 28)) with (656 - total g) by lia. auto.
Qed.
Lemma recv_complete le g n hc uc payload : bytes g -> lenN g <= 656 -> ip_udp g n hc uc payload -> dhcp_message payload ->
  hc <> [255; 255] -> uc <> [255; 255] -> recv le (fresh 628) (Some g) = Ok (Some (Accepted (map Some payload ++ fresh (656 - n)) (n - 28))).
Proof.
  intros B L IP Dm Hh Hu. assert (Et := ip_udp_total _ _ _ _ _ IP). subst n.
  assert (I := IP). destruct I as (_ & _ & _ & _ & _ & _ & _ & _ & _ & _ & _ & _ & _ & _ & I7 & I8 & _).
  destruct Dm as (h & o & Ep & Lh). assert (240 <= lenN payload) by (rewrite Ep; len; lia).
  destruct (recv_cases le g B L) as [[E C]|[(Ht & _)|(hc' & uc' & pl' & IP' & _ & E)]].
  - exfalso. apply C; [lia|]. exists hc, uc, payload. repeat split; auto. exists h, o. auto.
  - lia.
  - rewrite (same_payload _ _ _ _ _ _ _ _ IP IP'). exact E.
Qed.
Lemma recv_defined le g : bytes g -> lenN g <= 656 -> 268 <= total g -> exists r, recv le (fresh 628) (Some g) = Ok (Some r).
Proof. intros B L H. destruct (recv_cases le g B L) as [[E _]|[(Ht & _)|(hc' & uc' & pl' & _ & _ & E)]]; [eauto|lia|eauto]. Qed.
(** Which frames are fatal. *)
Lemma fatal le g : bytes g -> lenN g <= 656 -> recv le (fresh 628) (Some g) = UB -> 28 <= lenN g /\ total g < 268.
Proof. intros B L H. destruct (recv_cases le g B L) as [[E _]|[(Ht & Hl & _)|(hc' & uc' & pl' & _ & _ & E)]]; [congruence|auto|congruence]. Qed.

(** ** The sender *)
Lemma set_broadcast_bytes p : bytes p -> bytes (set_broadcast p).
Proof.
  intros B. unfold set_broadcast. rewrite <- (takeN_dropN 10 p) in B. apply Forall_app in B. destruct B as [B1 B2]. apply Forall_app. split; [exact B1|].
  destruct (dropN 10 p) as [|f r]; [constructor|]. inversion B2; subst. constructor; [|assumption].
  destruct (N.eq_dec (N.lor f 128) 0) as [->|E]; [lia|]. apply N.log2_lt_pow2 with (b := 8); [lia|]. rewrite N.log2_lor. apply N.max_lub_lt; [|reflexivity].
  destruct (N.eq_dec f 0) as [->|]; [reflexivity|]. apply N.log2_lt_pow2; [lia|exact H1].
Qed.
Lemma set_broadcast_len p : lenN (set_broadcast p) = lenN p.
Proof. unfold set_broadcast. rewrite <- (takeN_dropN 10 p) at 3. destruct (dropN 10 p); len; lia. Qed.
Lemma takeN_bytes n p : bytes p -> bytes (takeN n p).
Proof. apply bytes_firstn. Qed.
Lemma broadcast_message p : lenN p = 628 -> dhcp_message p -> dhcp_message (takeN 548 (set_broadcast p)).
Proof.
  intros L (h & o & -> & Lh). destruct (split_at h 10 1 ltac:(lia)) as (x & y & z & -> & Lx & Ly). destruct y as [|f [|]]; unfold lenN in Ly; cbn [length] in Ly; try lia.
  unfold set_broadcast. len. rewrite <- !app_assoc, (takeN_app 10 x), (takeN_all 10 x), (dropN_app 10 x), (dropN_all 10 x) by lia. replace (10 - lenN x) with 0 by lia. rewrite takeN_0, dropN_0, app_nil_r. cbn [app].
  exists (x ++ N.lor f 128 :: z), (takeN 308 o). split; [|len; lia].
  rewrite <- !app_assoc. cbn [app]. rewrite (takeN_app 548 x), takeN_all by lia. replace (548 - lenN x) with 538 by lia. f_equal.
  change (takeN 538 (N.lor f 128 :: z ++ 99 :: 130 :: 83 :: 99 :: o)) with (N.lor f 128 :: takeN 537 (z ++ [99; 130; 83; 99] ++ o)). f_equal.
  rewrite (takeN_app 537 z), (takeN_all 537 z) by lia. rewrite (takeN_app _ [99; 130; 83; 99]), (takeN_all _ [99; 130; 83; 99]) by (len; lia). replace (537 - lenN z - lenN [99; 130; 83; 99]) with 308 by (len; lia). reflexivity.
Qed.
Lemma sent_sum le l1 l2 : bytes l1 -> bytes l2 -> N.even (lenN l1) = true -> lenN l1 + lenN l2 <= 65000 -> be_sum (l1 ++ [0; 0] ++ l2) <> 0 ->
  exists c, checksum le (l1 ++ [0; 0] ++ l2) = Ok (Some c) /\ sums_up (l1 ++ stored le c ++ l2) /\ stored le c <> [255; 255] /\ bytes (stored le c) /\ lenN (stored le c) = 2.
Proof.
  intros B1 B2 Ev Hl Hnz.
  destruct (checksum_ok le (l1 ++ [0; 0] ++ l2)) as (c & Ec & Hc & _).
  { apply Forall_app; split; [exact B1|]. repeat constructor; auto; lia. } { len. lia. }
  exists c. split; [exact Ec|]. assert (Sb := stored_bytes le c ltac:(lia)).
  destruct (stored le c) as [|x [|y [|z t]]] eqn:Es; try (unfold stored in Es; destruct le; discriminate).
  assert (Sb' := Sb). apply bytes_cons in Sb. destruct Sb as [Hx Sb]. apply bytes_cons in Sb. destruct Sb as [Hy _].
  destruct (check_iff le l1 l2 x y B1 B2 Ev Hl Hx Hy Hnz) as (c' & Ec' & I). rewrite Ec in Ec'. inversion Ec'; subst c'.
  destruct I as [I _]. rewrite word_stored in I by (auto; lia). rewrite <- Es in I. destruct (I eq_refl) as [I1 I2]. rewrite Es in *. auto.
Qed.
Lemma raw_ok le src dst sport p : bytes src -> bytes dst -> bytes p -> lenN src = 4 -> lenN dst = 4 -> sport < 65536 -> lenN p = 628 ->
  exists g hc uc, raw le src dst sport 68 p = Ok (Some g) /\ bytes g /\ lenN g = 576
    /\ ip_udp g 576 hc uc (takeN 548 (set_broadcast p)) /\ hc <> [255; 255] /\ uc <> [255; 255].
Proof.
  intros Bs Bd Bp Ls Ld Hsp Lp.
  set (data := takeN 548 (set_broadcast p)).
  assert (Bdata : bytes data) by (apply takeN_bytes, set_broadcast_bytes, Bp).
  assert (Ldata : lenN data = 548) by (unfold data; rewrite lenN_takeN, set_broadcast_len; lia).
  destruct src as [|s0 [|s1 [|s2 [|s3 [|]]]]]; unfold lenN in Ls; cbn [length] in Ls; try lia.
  destruct dst as [|d0 [|d1 [|d2 [|d3 [|]]]]]; unfold lenN in Ld; cbn [length] in Ld; try lia.
  repeat (match goal with H : bytes (_ :: _) |- _ => apply bytes_cons in H; destruct H end).
  set (P := [0; 0; UDP_SIZE / 256 mod 256; UDP_SIZE mod 256; 0; 0; 0; 0; 0; 17; 0; 0; s0; s1; s2; s3; d0; d1; d2; d3; sport / 256 mod 256; sport mod 256; 68 / 256 mod 256; 68 mod 256; UDP_SIZE / 256 mod 256; UDP_SIZE mod 256]).
  destruct (sent_sum le P data) as (c & Ec & Sc & Nc & Bc & Lc).
  { unfold P, bytes. repeat (apply Forall_cons; [lia|]). constructor. } { exact Bdata. } { reflexivity. } { rewrite Ldata. unfold P, lenN. cbn [length]. lia. }
  { unfold P. cbn [app be_sum]. lia. }
  set (Hip := [0x45; 0; FULL / 256 mod 256; FULL mod 256; 0; 0; 0; 0; 64; 17]).
  destruct (sent_sum le Hip [s0; s1; s2; s3; d0; d1; d2; d3]) as (d & Ed & Sd & Nd & Bdd & Ldd).
  { unfold Hip, bytes. repeat (apply Forall_cons; [reflexivity|]). constructor. } { repeat (apply Forall_cons; [assumption|]). constructor. } { reflexivity. } { unfold Hip, lenN. cbn [length]. lia. }
  { unfold Hip. cbn [app be_sum]. lia. }
  exists (ip_header (stored le d) [s0; s1; s2; s3] [d0; d1; d2; d3] ++ udp_header sport 68 (stored le c) ++ data), (stored le d), (stored le c).
  split.
  { unfold raw. fold data. unfold udp_header at 1, be16 at 1 2 3 4, ip_header at 1, be16 at 1. cbn [app]. unfold P in Ec. cbn [app] in Ec. rewrite Ec. cbn [bind].
    unfold Hip in Ed. cbn [app] in Ed. rewrite Ed. reflexivity. }
  assert (Lst : forall c, lenN (stored le c) = 2) by (intros; unfold stored; destruct le; reflexivity).
  split.
  { unfold ip_header, udp_header, be16. cbn [app]. unfold bytes in *. repeat (apply Forall_cons; [lia|]).
    repeat (first [apply Forall_app; split | apply Forall_cons; [lia|] | exact Bdd | exact Bc | exact Bdata | apply Forall_nil]). }
  split. { unfold ip_header, udp_header, be16. len. lia. }
  split; [|auto].
  exists 0, [0; 0; 0; 0], 64, [s0; s1; s2; s3], [d0; d1; d2; d3], (be16 sport), [].
  split. { unfold ip_header, udp_header, be16, net16. rewrite app_nil_r. repeat (rewrite <- app_assoc; cbn [app]). reflexivity. }
  do 6 (split; [first [reflexivity|apply Lst]|]). split; [lia|]. split; [lia|].
  split. { unfold Hip in Sd. cbn [app] in Sd. unfold net16. cbn [app]. exact Sd. }
  right. unfold P in Sc. unfold sums_up in *. destruct (stored le c) as [|x [|y [|]]]; unfold lenN in Lc; cbn [length] in Lc; try lia.
  cbn [app be_sum] in Sc. unfold net16, be16. cbn [app be_sum]. change (UDP_SIZE / 256 mod 256) with ((576 - 20) / 256) in Sc. change (UDP_SIZE mod 256) with ((576 - 20) mod 256) in Sc.
  change (68 / 256 mod 256) with (68 / 256) in Sc.
  match goal with |- ?a mod _ = 0 => match type of Sc with ?b mod _ = 0 => replace a with b; [exact Sc|lia] end end.
Qed.
Lemma roundtrip le le' src dst sport p : bytes src -> bytes dst -> bytes p -> lenN src = 4 -> lenN dst = 4 -> sport < 65536 -> lenN p = 628 -> dhcp_message p ->
  exists g, raw le src dst sport 68 p = Ok (Some g) /\ lenN g = 576
    /\ recv le' (fresh 628) (Some g) = Ok (Some (Accepted (map Some (takeN 548 (set_broadcast p)) ++ fresh 80) 548)).
Proof.
  intros Bs Bd Bp Ls Ld Hsp Lp Dm. destruct (raw_ok le src dst sport p Bs Bd Bp Ls Ld Hsp Lp) as (g & hc & uc & E & Bg & Lg & IP & Hh & Hu).
  exists g. split; [exact E|]. split; [exact Lg|]. exact (recv_complete le' g 576 hc uc _ Bg ltac:(lia) IP (broadcast_message p Lp Dm) Hh Hu).
Qed.
