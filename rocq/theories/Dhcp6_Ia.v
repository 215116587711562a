(** Proofs about the identity associations and lists of DHCPv6. *)
From Verif Require Import Base Dhcp6_Model Dhcp6_Spec Dhcp6_Proofs.
Local Open Scope list_scope.

Definition eff (x : ia) (s : sub) : ia :=
  match s with
  | SAddr a p v _ => mkIa (i_st x) a p v (i_count x + 1) (i_list x) (i_prefixes x) (i_short x) (i_status x)
  | SStatus c _ => mkIa c (i_addr x) (i_pref x) (i_valid x) (i_count x) (i_list x) (i_prefixes x) (i_short x) c
  | SPrefix p v n a _ =>
      if p <? v then mkIa (i_st x) a p v (i_count x) (VPrefix a n p v :: i_list x) (i_prefixes x + 1) (if v <? i_short x then v else i_short x) (i_status x)
      else mkIa (i_st x) a p v (i_count x) (i_list x) (i_prefixes x) (i_short x) (i_status x)
  | SOther _ _ => x
  end.
Lemma strndup_safe : forall n m, N.of_nat n <= lenN m -> exists s, strndup n m = Ret s.
Proof.
  induction n as [|n IH]; intros m L; [eexists; reflexivity|]. destruct m as [|c m]; [rewrite lenN_nil in L; lia|]. cbn [strndup].
  destruct (c =? 0); [eauto|]. destruct (IH m) as [s ->]; [rewrite lenN_cons in L; lia|]. cbn [obind]. eauto.
Qed.
Lemma take_app_exact {A} (a b : list A) n : n = lenN a -> takeN n (a ++ b) = a.
Proof. intros ->. rewrite takeN_app, takeN_all by lia. rewrite N.sub_diag. cbn. apply app_nil_r. Qed.
Lemma drop_app_exact {A} (a b : list A) n : n = lenN a -> dropN n (a ++ b) = b.
Proof. intros ->. rewrite dropN_app, dropN_all by lia. now rewrite N.sub_diag. Qed.
Lemma rd_app a b n : n = lenN a -> rd (a ++ b) n = Ret a.
Proof. intros E. unfold rd. len. replace (n <=? _) with true by lia. now rewrite take_app_exact. Qed.
Lemma switch_sub s x r : sub_ok s -> ia_switch (o_code (sub_opt s)) (lenN (o_data (sub_opt s))) (o_data (sub_opt s) ++ r) x = Ret (eff x s).
Proof.
  intros [OK H]. destruct s as [a p v more|c t|p v n a more|c d]; cbn [sub_opt o_code o_data eff] in *; unfold ia_switch.
  - destruct H as (HA & HP & HV). rewrite N.eqb_refl.
    replace ((a ++ be32 p ++ be32 v ++ more) ++ r) with ((a ++ be32 p ++ be32 v) ++ more ++ r) by now rewrite <- !app_assoc.
    rewrite rd_app by (len; rewrite !len_be32; lia). cbn [obind]. rewrite take_app_exact by lia.
    rewrite (drop_app_exact a) by lia. rewrite take_app_exact by now rewrite len_be32.
    rewrite (app_assoc a), (drop_app_exact (a ++ be32 p)) by (len; rewrite len_be32; lia). now rewrite !be32_be.
  - change (13 =? 5) with false. change (13 =? 13) with true. cbv iota. rewrite <- app_assoc. rewrite rd_app by reflexivity. cbn [obind].
    rewrite (drop_app_exact (be16 c)) by reflexivity. rewrite be16_be by exact H. rewrite lenN_app, len_be16.
    destruct (2 <? 2 + lenN t); [|reflexivity]. destruct (strndup_safe (N.to_nat (2 + lenN t - 2)) (t ++ r)) as [s ->]; [len; lia|]. reflexivity.
  - destruct H as (HA & HP & HV & HN). change (26 =? 5) with false. change (26 =? 13) with false. change (26 =? 26) with true. cbv iota.
    replace ((be32 p ++ be32 v ++ [n] ++ a ++ more) ++ r) with ((be32 p ++ be32 v ++ [n] ++ a) ++ more ++ r) by now rewrite <- !app_assoc.
    rewrite rd_app by (len; rewrite !len_be32; lia). cbn [obind]. rewrite take_app_exact by now rewrite len_be32.
    rewrite (drop_app_exact (be32 p)) by now rewrite len_be32. rewrite take_app_exact by now rewrite len_be32.
    replace (dropN 9 (be32 p ++ be32 v ++ [n] ++ a)) with a.
    2:{ replace (be32 p ++ be32 v ++ [n] ++ a) with ((be32 p ++ be32 v ++ [n]) ++ a) by now rewrite <- !app_assoc. now rewrite drop_app_exact. }
    replace (takeN 1 (dropN 8 (be32 p ++ be32 v ++ [n] ++ a))) with [n].
    2:{ rewrite (app_assoc (be32 p)), drop_app_exact by reflexivity. reflexivity. }
    rewrite !be32_be by assumption. change (be [n]) with (256 * 0 + n). rewrite N.add_0_l. destruct (p <? v); reflexivity.
  - destruct H as (H1 & H2 & H3). replace (c =? 5) with false by lia. replace (c =? 13) with false by lia. replace (c =? 26) with false by lia. reflexivity.
Qed.
Lemma sub_enc s t : sub_ok s -> exists a b c d, enc (sub_opt s) ++ t = a :: b :: c :: d :: o_data (sub_opt s) ++ t /\ be [a; b] = o_code (sub_opt s) /\ be [c; d] = lenN (o_data (sub_opt s)).
Proof.
  intros [(HC & HL & _) _]. do 4 eexists. split; [unfold enc, be16; rewrite <- !app_assoc; cbn [app]; reflexivity|].
  split; [exact (be16_be _ HC)|]. apply be16_be. lia.
Qed.
Lemma loop_subs r : forall ss fuel pos len max_len x, Forall sub_ok ss -> ss <> [] -> pos + lenN (encs (map sub_opt ss)) = len -> lenN (encs (map sub_opt ss)) <= max_len ->
  (List.length ss <= fuel)%nat -> ia_loop fuel (encs (map sub_opt ss) ++ r) pos len max_len x = Ret (fold_left eff ss x).
Proof.
  induction ss as [|s ss IH]; intros fuel pos ln max_len x H N E M L; [contradiction|]. inversion H as [|? ? H1 H2]; subst.
  cbn [List.length map fold_left] in *. destruct fuel as [|fuel]; [lia|]. cbn [ia_loop]. rewrite encs_cons in *. rewrite lenN_app, len_enc in *.
  destruct (sub_enc s (encs (map sub_opt ss) ++ r) H1) as (a & b & c & d & Q & QC & QL).
  unfold get_sub_option. rewrite <- app_assoc.
  destruct (N.leb_spec max_len 4) as [K|K].
  { cbn [obind]. assert (Z : lenN (o_data (sub_opt s)) = 0 /\ ss = []).
    { destruct ss as [|s2 ss]; [split; [lia|reflexivity]|]. cbn [map] in M. rewrite encs_cons, lenN_app, len_enc in M. lia. }
    destruct Z as [Z ->]. destruct s; cbn [sub_opt o_data eff] in *; try (autorewrite with lenN in Z; rewrite ?len_be32, ?len_be16 in Z; lia). reflexivity. }
  rewrite Q at 1. rewrite QC, QL. replace (max_len - 4 <? _) with false by lia. cbn [obind].
  replace (_ <=? pos) with false by lia. rewrite (switch_sub s x _ H1). cbn [obind].
  rewrite (drop_app_exact (enc (sub_opt s))) by now rewrite len_enc.
  destruct ss as [|s2 ss].
  - cbn [map encs concat fold_left]. rewrite lenN_nil. replace (_ <? _) with false by lia. reflexivity.
  - replace (_ <? _) with true.
    2:{ symmetry. apply N.ltb_lt. cbn [map]. rewrite encs_cons, lenN_app, len_enc. lia. }
    apply IH; [exact H2|discriminate|lia|lia|lia].
Qed.

(** What the loop collects. *)
Lemma last_cons {A} (x : A) l d : or_else (last_of (x :: l)) d = or_else (last_of l) x.
Proof. unfold last_of. cbn [rev]. destruct (rev l); reflexivity. Qed.
Lemma fold_status ss : forall x, i_st (fold_left eff ss x) = or_else (last_of (statuses ss)) (i_st x) /\ i_status (fold_left eff ss x) = or_else (last_of (statuses ss)) (i_status x).
Proof.
  induction ss as [|s ss IH]; intros x; [split; reflexivity|]. cbn [fold_left statuses flat_map]. destruct (IH (eff x s)) as [-> ->]. fold (statuses ss).
  destruct s as [a p v m|c t|p v n a m|c d]; cbn [eff app]; try (split; reflexivity); [rewrite !last_cons; split; reflexivity|destruct (p <? v); split; reflexivity].
Qed.
Lemma fold_addrs ss : prefixes ss = [] -> forall x, i_count (fold_left eff ss x) = i_count x + lenN (addresses ss)
  /\ (i_addr (fold_left eff ss x), i_pref (fold_left eff ss x), i_valid (fold_left eff ss x)) = or_else (last_of (addresses ss)) (i_addr x, i_pref x, i_valid x)
  /\ i_list (fold_left eff ss x) = i_list x /\ i_prefixes (fold_left eff ss x) = i_prefixes x.
Proof.
  induction ss as [|s ss IH]; intros P x; [cbn [fold_left addresses flat_map]; len; repeat split; lia|].
  destruct s as [a p v m|c t|p v n a m|c d]; cbn [prefixes flat_map app] in P; try discriminate P; cbn [fold_left addresses flat_map app]; fold (addresses ss);
    destruct (IH P (eff x (SAddr a p v m))) as (E1 & E2 & E3 & E4) || destruct (IH P (eff x (SStatus c t))) as (E1 & E2 & E3 & E4) || destruct (IH P (eff x (SOther c d))) as (E1 & E2 & E3 & E4);
    rewrite E1, E2, E3, E4; cbn [eff i_count i_addr i_pref i_valid i_list i_prefixes].
  - rewrite last_cons, lenN_cons. repeat split. lia.
  - repeat split.
  - repeat split.
Qed.
Lemma fold_prefs ss : addresses ss = [] -> forall x, i_count (fold_left eff ss x) = i_count x
  /\ i_list (fold_left eff ss x) = rev (map prefix_value (live (prefixes ss))) ++ i_list x
  /\ i_prefixes (fold_left eff ss x) = i_prefixes x + lenN (live (prefixes ss))
  /\ (i_short x = 0 -> i_short (fold_left eff ss x) = 0).
Proof.
  induction ss as [|s ss IH]; intros P x; [cbn [fold_left prefixes flat_map live filter map rev app]; len; repeat split; auto; lia|].
  cbn [addresses flat_map] in P. cbn [fold_left prefixes flat_map]. fold (prefixes ss).
  destruct s as [a p v m|c t|p v n a m|c d]; cbn [app] in P; try discriminate P.
  - destruct (IH P (eff x (SStatus c t))) as (E1 & E2 & E3 & E4). rewrite E1, E2, E3. repeat split. exact E4.
  - destruct (IH P (eff x (SPrefix p v n a m))) as (E1 & E2 & E3 & E4). rewrite E1, E2, E3. cbn [app live filter fst snd]. fold (live (prefixes ss)).
    cbn [eff] in *. destruct (p <? v); cbn [i_count i_list i_prefixes i_short map rev prefix_value] in *.
    + split; [reflexivity|]. split; [now rewrite <- app_assoc|]. split; [len; lia|]. intros Z. apply E4. rewrite Z. now destruct v.
    + repeat split. exact E4.
  - destruct (IH P (eff x (SOther c d))) as (E1 & E2 & E3 & E4). rewrite E1, E2, E3. repeat split. exact E4.
Qed.

Lemma drop_times a b c : dropN 8 (be32 a ++ be32 b ++ be32 c) = be32 c.
Proof. rewrite app_assoc. now apply drop_app_exact. Qed.
Definition the_loop (code status : N) (ss : list sub) : ia := fold_left eff ss (mkIa 0 [] 0 0 0 [] 0 0 status).
(** get_addresses up to the end of the loop. *)
Definition finish (b : bindings) (code T1 T2 : N) (x : ia) : oc (list value * bindings * N) :=
  let one := (0 <? i_count x) && (i_st x =? 0) in
  if one && (i_valid x <? i_pref x) then Ret ([], b, i_status x)
  else
    let '(l, b) :=
      if one then
        (i_list x ++ [VAddr (i_addr x)],
         mkBind (b_iaid b) T1 T2 (if b_expire b <? i_valid x then i_valid x else b_expire b)
                (if code =? 3 then i_addr x else b_na b) (if code =? 3 then b_ta b else i_addr x))
      else (i_list x, b) in
    let '(l, b) :=
      if (0 <? i_prefixes x) && (0 <? lenN l) then (rev l, mkBind (b_iaid b) T1 T2 (i_short x) (b_na b) (b_ta b)) else (l, b) in
    Ret (l, b, i_status x).
Lemma addresses_read b code iaid t1 t2 ss r status : b_iaid b = iaid -> iaid < 2 ^ 32 -> t1 < 2 ^ 32 -> t2 < 2 ^ 32 -> Forall sub_ok ss -> (timed code = true -> t1 <= t2) ->
  get_addresses b code (lenN (ia_data code iaid t1 t2 ss)) (ia_data code iaid t1 t2 ss ++ r) status
  = finish b code (if timed code then t1 else 0) (if timed code then t2 else 0) (the_loop code status ss).
Proof.
  intros HI LI L1 L2 H T. unfold get_addresses, ia_data. set (h := if timed code then be32 t1 ++ be32 t2 else []).
  assert (LH : lenN h = if timed code then 8 else 0) by (unfold h; destruct (timed code); reflexivity).
  set (s := encs (map sub_opt ss)). assert (LL : lenN (be32 iaid ++ h ++ s) = 4 + lenN h + lenN s) by (len; rewrite len_be32; lia). rewrite LL.
  replace (_ <? 4) with false by lia. replace ((be32 iaid ++ h ++ s) ++ r) with (be32 iaid ++ h ++ s ++ r) by now rewrite <- !app_assoc.
  rewrite rd_app by reflexivity. cbn [obind]. rewrite be32_be by exact LI. replace (b_iaid b =? iaid) with true by lia. cbn [negb]. fold (timed code).
  assert (LP : forall fuel pos max x, (List.length ss <= fuel)%nat -> pos = 4 + lenN h -> max = lenN s -> ss <> [] ->
     ia_loop fuel (dropN pos (be32 iaid ++ h ++ s ++ r)) pos (4 + lenN h + lenN s) max x = Ret (fold_left eff ss x)).
  { intros fuel pos max x F -> -> N. rewrite app_assoc, drop_app_exact by (len; rewrite len_be32; lia). now apply loop_subs. }
  assert (LN : ss = [] -> the_loop code status ss = mkIa 0 [] 0 0 0 [] 0 0 status) by now intros ->.
  assert (LF : (List.length ss <= S (N.to_nat (4 + lenN h + lenN s)))%nat).
  { pose proof (len_encs (map sub_opt ss)) as Q. fold s in Q. rewrite lenN_map in Q. unfold lenN in *. lia. }
  destruct (timed code) eqn:TC.
  - rewrite app_assoc, rd_app by (len; rewrite LH; reflexivity). cbn [obind].
    assert (R1 : be (takeN 4 (dropN 4 (be32 iaid ++ h))) = t1) by (unfold h; rewrite (drop_app_exact (be32 iaid) _ 4), take_app_exact by reflexivity; now apply be32_be).
    assert (R2 : be (dropN 8 (be32 iaid ++ h)) = t2) by (unfold h; rewrite drop_times; now apply be32_be). rewrite R1, R2.
    replace (t2 <? t1) with false by (symmetry; apply N.ltb_ge; auto). cbn [andb]. rewrite <- app_assoc.
    destruct ss as [|s0 ss0].
    + replace (_ <=? 12) with true; [rewrite (LN eq_refl); reflexivity|]. symmetry. apply N.leb_le. change (lenN s) with (lenN (@nil N)). rewrite (@lenN_nil N). lia.
    + assert (12 < 4 + lenN h + lenN s). { unfold s. cbn [map]. rewrite encs_cons, lenN_app, len_enc. lia. }
      replace (_ <=? 12) with false by lia. rewrite LP; [reflexivity|exact LF|lia|lia|discriminate].
  - cbn [obind andb]. destruct ss as [|s0 ss0].
    + replace (_ <=? 4) with true; [rewrite (LN eq_refl); reflexivity|]. symmetry. apply N.leb_le. change (lenN s) with (lenN (@nil N)). rewrite (@lenN_nil N). lia.
    + assert (4 < 4 + lenN h + lenN s). { unfold s. cbn [map]. rewrite encs_cons, lenN_app, len_enc. lia. }
      replace (_ <=? 4) with false by lia. rewrite LP; [reflexivity|exact LF|lia|lia|discriminate].
Qed.
(** An IA_NA or IA_TA. *)
Theorem ia_address b code iaid t1 t2 ss r status : code = 3 \/ code = 4 ->
  b_iaid b = iaid -> iaid < 2 ^ 32 -> t1 < 2 ^ 32 -> t2 < 2 ^ 32 -> Forall sub_ok ss -> prefixes ss = [] -> (code = 3 -> t1 <= t2) ->
  get_addresses b code (lenN (ia_data code iaid t1 t2 ss)) (ia_data code iaid t1 t2 ss ++ r) status
  = Ret (match last_of (addresses ss), or_else (last_of (statuses ss)) 0 =? 0 with
         | Some (a, p, v), true =>
             if p <=? v then
               ([VAddr a], mkBind iaid (if code =? 3 then t1 else 0) (if code =? 3 then t2 else 0) (N.max (b_expire b) v)
                                  (if code =? 3 then a else b_na b) (if code =? 3 then b_ta b else a))
             else ([], b)
         | _, _ => ([], b)
         end, or_else (last_of (statuses ss)) status).
Proof.
  intros C HI LI L1 L2 H P T.
  rewrite (addresses_read b code iaid t1 t2 ss r status HI LI L1 L2 H).
  2:{ intros X. apply T. destruct C as [-> | ->]; [reflexivity|discriminate X]. }
  assert (TC : timed code = (code =? 3)) by (destruct C as [-> | ->]; reflexivity). rewrite TC.
  unfold finish, the_loop. destruct (fold_status ss (mkIa 0 [] 0 0 0 [] 0 0 status)) as [E1 E2].
  destruct (fold_addrs ss P (mkIa 0 [] 0 0 0 [] 0 0 status)) as (E3 & E4 & E5 & E6). set (x := fold_left eff ss _) in *. clearbody x.
  cbn [i_st i_status i_count i_addr i_pref i_valid i_list i_prefixes] in *. rewrite E1, E2, E3, E5, E6.
  assert (Z : last_of (addresses ss) = None <-> lenN (addresses ss) = 0).
  { unfold last_of. rewrite <- (lenN_rev (addresses ss)). destruct (rev (addresses ss)); [split; auto|]. rewrite lenN_cons. split; [discriminate|lia]. }
  destruct (last_of (addresses ss)) as [[[a p] v]|].
  - assert (lenN (addresses ss) <> 0) by (intros X; apply Z in X; discriminate). replace (0 <? 0 + _) with true by lia. cbn [andb or_else] in *.
    injection E4 as -> -> ->. destruct (_ =? 0); cbn [andb]; [|reflexivity].
    replace (p <=? v) with (negb (v <? p)) by lia. destruct (v <? p); cbn [negb]; [reflexivity|]. change (0 <? 0) with false. cbn [andb]. rewrite HI.
    replace (if b_expire b <? v then v else b_expire b) with (N.max (b_expire b) v) by (destruct (N.ltb_spec (b_expire b) v); lia). reflexivity.
  - replace (0 <? 0 + _) with false; [reflexivity|]. symmetry. apply N.ltb_ge. rewrite (proj1 Z eq_refl). lia.
Qed.
(** An IA_PD. *)
Theorem ia_prefixes b iaid t1 t2 ss r status :
  b_iaid b = iaid -> iaid < 2 ^ 32 -> t1 <= t2 -> t2 < 2 ^ 32 -> Forall sub_ok ss -> addresses ss = [] ->
  get_addresses b 25 (lenN (ia_data 25 iaid t1 t2 ss)) (ia_data 25 iaid t1 t2 ss ++ r) status
  = Ret (map prefix_value (live (prefixes ss)), match live (prefixes ss) with [] => b | _ => mkBind iaid t1 t2 0 (b_na b) (b_ta b) end, or_else (last_of (statuses ss)) status).
Proof.
  intros HI LI T L2 H P. rewrite (addresses_read b 25 iaid t1 t2 ss r status HI LI) by (trivial; lia). change (timed 25) with true. cbv iota.
  unfold finish, the_loop. destruct (fold_status ss (mkIa 0 [] 0 0 0 [] 0 0 status)) as [E1 E2].
  destruct (fold_prefs ss P (mkIa 0 [] 0 0 0 [] 0 0 status)) as (E3 & E4 & E5 & E6). set (x := fold_left eff ss _) in *. clearbody x.
  cbn [i_st i_status i_count i_addr i_pref i_valid i_list i_prefixes i_short] in *. rewrite E2, E3, E4, E5, (E6 eq_refl). rewrite app_nil_r.
  change (0 <? 0) with false. cbn [andb]. rewrite lenN_rev, lenN_map, HI, rev_involutive. destruct (live (prefixes ss)) as [|y l]; [reflexivity|].
  rewrite lenN_cons. replace (0 <? 0 + (1 + lenN l)) with true by lia. replace (0 <? 1 + lenN l) with true by lia. reflexivity.
Qed.
(** Another client's, or with times that are out of order. *)
Theorem ia_ignored b code iaid t1 t2 ss r status : (b_iaid b <> iaid \/ (timed code = true /\ t2 < t1)) -> iaid < 2 ^ 32 -> t1 < 2 ^ 32 -> t2 < 2 ^ 32 ->
  get_addresses b code (lenN (ia_data code iaid t1 t2 ss)) (ia_data code iaid t1 t2 ss ++ r) status = Ret ([], b, status).
Proof.
  intros D LI L1 L2. unfold get_addresses, ia_data. set (h := if timed code then be32 t1 ++ be32 t2 else []). set (s := encs (map sub_opt ss)).
  replace (_ <? 4) with false by (symmetry; apply N.ltb_ge; len; rewrite len_be32; lia).
  replace ((be32 iaid ++ h ++ s) ++ r) with (be32 iaid ++ h ++ s ++ r) by now rewrite <- !app_assoc.
  rewrite rd_app by reflexivity. cbn [obind]. rewrite be32_be by exact LI. destruct (N.eqb_spec (b_iaid b) iaid) as [E|E]; [|reflexivity]. cbn [negb]. fold (timed code).
  destruct D as [D|[TC D]]; [contradiction|]. unfold h. rewrite TC. rewrite app_assoc, rd_app by reflexivity. cbn [obind].
  rewrite (drop_app_exact (be32 iaid) _ 4) by reflexivity. rewrite take_app_exact by reflexivity. rewrite drop_times, !be32_be by assumption.
  replace (t2 <? t1) with true by lia. reflexivity.
Qed.
