(** Proofs about the options and identity associations of DHCPv6. *)
From Verif Require Import Base Dhcp6_Model Dhcp6_Spec.
Local Open Scope list_scope.

Lemma be16_be n : n < 65536 -> be (be16 n) = n.
Proof. intros H. unfold be, be16. cbn [fold_left]. lia. Qed.
Lemma be32_be n : n < 2 ^ 32 -> be (be32 n) = n.
Proof. change (2 ^ 32) with 4294967296. intros H. unfold be, be32. cbn [fold_left]. lia. Qed.
Lemma len_be16 n : lenN (be16 n) = 2. Proof. reflexivity. Qed.
Lemma len_be32 n : lenN (be32 n) = 4. Proof. reflexivity. Qed.
Lemma len_enc o : lenN (enc o) = 4 + lenN (o_data o).
Proof. unfold enc. len. rewrite !len_be16. lia. Qed.
Lemma encs_cons o os : encs (o :: os) = enc o ++ encs os. Proof. reflexivity. Qed.
Lemma encs_app a b : encs (a ++ b) = encs a ++ encs b.
Proof. unfold encs. now rewrite map_app, concat_app. Qed.
Lemma len_encs os : 4 * lenN os <= lenN (encs os).
Proof. induction os as [|o os IH]; [reflexivity|]. rewrite encs_cons. len. rewrite len_enc. lia. Qed.

(** ** Options *)
Fixpoint scan (code : N) (os : list option6) (t : list byte) (f : option (list byte * N)) (n : N) : option (list byte * N) * N :=
  match os with
  | [] => (f, n)
  | o :: os => if o_code o =? code then scan code os t (Some (o_data o ++ encs os ++ t, lenN (o_data o))) (n + 1) else scan code os t f n
  end.
Lemma step_opt fuel o t code f n : opt_ok o ->
  opt_loop (S fuel) (enc o ++ t) (lenN (enc o ++ t)) code f n
  = (let '(f, n) := if o_code o =? code then (Some (o_data o ++ t, lenN (o_data o)), n + 1) else (f, n) in
     if lenN t =? 0 then Ret (f, n) else opt_loop fuel t (lenN t) code f n).
Proof.
  intros (HC & HL & _). assert (E : enc o ++ t = o_code o / 256 :: o_code o mod 256 :: lenN (o_data o) / 256 :: lenN (o_data o) mod 256 :: o_data o ++ t).
  { unfold enc, be16. now rewrite <- !app_assoc. }
  cbn [opt_loop]. rewrite E at 1. cbv iota beta.
  change [o_code o / 256; o_code o mod 256] with (be16 (o_code o)). change [lenN (o_data o) / 256; lenN (o_data o) mod 256] with (be16 (lenN (o_data o))).
  rewrite !be16_be by lia. cbv zeta. rewrite N.mod_small by lia.
  replace (lenN (o_data o) + 4 <? 4) with false by lia. rewrite lenN_app, len_enc.
  replace (4 + lenN (o_data o) + lenN t <? lenN (o_data o) + 4) with false by lia.
  replace (4 + lenN (o_data o) + lenN t - (lenN (o_data o) + 4)) with (lenN t) by lia.
  replace (dropN (lenN (o_data o) + 4) (enc o ++ t)) with t.
  2:{ rewrite dropN_app, dropN_all by (rewrite len_enc; lia). rewrite len_enc. replace (_ - _) with 0 by lia. reflexivity. }
  destruct (o_code o =? code); reflexivity.
Qed.
Lemma loop_opts code t : t <> [] -> forall os fuel f n, Forall opt_ok os ->
  opt_loop (List.length os + fuel) (encs os ++ t) (lenN (encs os ++ t)) code f n
  = opt_loop fuel t (lenN t) code (fst (scan code os t f n)) (snd (scan code os t f n)).
Proof.
  intros T. induction os as [|o os IH]; intros fuel f n H; [reflexivity|]. inversion H as [|? ? H1 H2]; subst.
  cbn [List.length Nat.add]. rewrite encs_cons, <- app_assoc, (step_opt _ o _ code f n H1). cbn [scan].
  assert (Z : lenN (encs os ++ t) =? 0 = false). { apply N.eqb_neq. len. destruct t; [contradiction|]. rewrite lenN_cons. lia. }
  destruct (o_code o =? code); rewrite Z; now apply IH.
Qed.
Lemma loop_end code : forall os fuel f n, Forall opt_ok os -> os <> [] -> (List.length os <= fuel)%nat ->
  opt_loop fuel (encs os) (lenN (encs os)) code f n = Ret (scan code os [] f n).
Proof.
  induction os as [|o os IH]; intros fuel f n H E L; [contradiction|]. inversion H as [|? ? H1 H2]; subst.
  cbn [List.length] in L. destruct fuel as [|fuel]; [lia|]. rewrite encs_cons, (step_opt _ o _ code f n H1). cbn [scan]. rewrite app_nil_r.
  destruct os as [|o2 os].
  - cbn [encs map concat scan]. destruct (o_code o =? code); reflexivity.
  - assert (Z : lenN (encs (o2 :: os)) =? 0 = false). { apply N.eqb_neq. rewrite encs_cons. len. rewrite len_enc. lia. }
    destruct (o_code o =? code); rewrite Z; (apply IH; [exact H2|discriminate|lia]).
Qed.
Lemma scan_spec code t : forall os f n, exists f', scan code os t f n = (f', n + lenN (with_code code os))
  /\ match last_of (with_code code os) with None => f' = f | Some o => exists r, f' = Some (o_data o ++ r, lenN (o_data o)) end.
Proof.
  induction os as [|o os IH]; intros f n.
  - exists f. split; [cbn [scan with_code filter]; len; f_equal; lia|reflexivity].
  - cbn [scan with_code filter]. destruct (o_code o =? code).
    + destruct (IH (Some (o_data o ++ encs os ++ t, lenN (o_data o))) (n + 1)) as (f' & E & F). exists f'. split.
      * rewrite E. unfold with_code. len. f_equal. lia.
      * unfold last_of, with_code in *. cbn [rev]. destruct (rev (filter _ os)) as [|x l]; cbn [app]; [|exact F]. eauto.
    + apply IH.
Qed.

Lemma finds_scan code os t : exists f, scan code os t None 0 = (f, lenN (with_code code os)) /\ finds code os f.
Proof. destruct (scan_spec code t os None 0) as (f & E & F). exists f. split; [exact E|]. exact F. Qed.
Lemma drop4 (t : byte) (xid x : list byte) : lenN xid = 3 -> dropN 4 (t :: xid ++ x) = x.
Proof. intros X. change (t :: xid ++ x) with ((t :: xid) ++ x). rewrite dropN_app, dropN_all by (len; lia). len. replace (4 - _) with 0 by lia. reflexivity. Qed.
Theorem option_found t xid os r code : lenN xid = 3 -> Forall opt_ok os -> rest_ok r ->
  outcome code os r (get_option (message t xid os ++ rest_bytes r) code).
Proof.
  intros X H R. unfold get_option, message. cbn [app]. rewrite <- app_assoc, drop4 by exact X.
  assert (L : lenN (t :: xid ++ encs os ++ rest_bytes r) = 4 + lenN (encs os) + lenN (rest_bytes r)) by (len; lia). rewrite L.
  assert (LL : (List.length os < S (List.length (t :: xid ++ encs os ++ rest_bytes r)))%nat). { pose proof (len_encs os). unfold lenN in *. lia. }
  set (fuel := S (List.length _)) in *. clearbody fuel.
  replace (4 + lenN (encs os) + lenN (rest_bytes r) - 4) with (lenN (encs os ++ rest_bytes r)) by (len; lia).
  destruct (finds_scan code os (rest_bytes r)) as (f & E & F).
  assert (K : rest_bytes r <> [] -> exists k, opt_loop fuel (encs os ++ rest_bytes r) (lenN (encs os ++ rest_bytes r)) code None 0 = opt_loop (S k) (rest_bytes r) (lenN (rest_bytes r)) code f (lenN (with_code code os))).
  { intros N. exists (fuel - List.length os - 1)%nat. replace fuel with (List.length os + S (fuel - List.length os - 1))%nat at 1 by lia.
    rewrite (loop_opts code _ N os _ None 0 H), E. reflexivity. }
  destruct r as [|s|c l s|c l s]; cbn [outcome rest_bytes rest_ok] in *.
  - rewrite app_nil_r, lenN_nil in *. destruct os as [|o os].
    + cbn [encs map concat]. replace (_ <=? 4) with true by (symmetry; apply N.leb_le; rewrite lenN_nil; lia). exists None. split; reflexivity.
    + pose proof (len_enc o). replace (_ <=? 4) with false by (symmetry; apply N.leb_gt; rewrite encs_cons; len; lia).
      rewrite (loop_end code (o :: os)); [|exact H|discriminate|lia]. rewrite E. eauto.
  - replace (_ <=? 4) with false by lia. destruct K as [k ->]; [destruct s; [rewrite lenN_nil in R; lia|discriminate]|].
    cbn [opt_loop]. destruct s as [|a [|b [|d [|e s]]]]; try reflexivity. len. lia.
  - assert (B : be16 c ++ be16 l ++ s <> []) by discriminate. destruct K as [k ->]; [exact B|].
    replace (_ <=? 4) with false by (symmetry; apply N.leb_gt; len; rewrite !len_be16; lia).
    cbn [opt_loop be16 app]. change [l / 256; l mod 256] with (be16 l). rewrite be16_be by lia. cbv zeta. rewrite N.mod_small by lia.
    replace (l + 4 <? 4) with false by lia. len. replace (_ <? l + 4) with true by lia. eauto.
  - assert (B : be16 c ++ be16 l ++ s <> []) by discriminate. destruct K as [k ->]; [exact B|].
    replace (_ <=? 4) with false by (symmetry; apply N.leb_gt; len; rewrite !len_be16; lia).
    cbn [opt_loop be16 app]. change [l / 256; l mod 256] with (be16 l). rewrite be16_be by lia. cbv zeta.
    replace ((l + 4) mod 65536 <? 4) with true; [reflexivity|]. symmetry. apply N.ltb_lt. replace (l + 4) with (l + 4 - 65536 + 1 * 65536) by lia. rewrite N.mod_add by discriminate. rewrite N.mod_small; lia.
Qed.
(** Every packet is such a message. *)
Lemma be16_of a b : a < 256 -> b < 256 -> be16 (256 * a + b) = [a; b] /\ 256 * a + b < 65536.
Proof. intros A B. unfold be16. split; [|lia]. f_equal; [|f_equal]; lia. Qed.
Lemma parse_rest : forall n m, (List.length m <= n)%nat -> bytes m -> exists os r, m = encs os ++ rest_bytes r /\ Forall opt_ok os /\ rest_ok r.
Proof.
  induction n as [|n IH]; intros m L B.
  { exists [], RNone. destruct m; [|cbn in L; lia]. repeat split; constructor. }
  destruct m as [|a [|b [|c [|d m]]]].
  1: { exists [], RNone. repeat split; constructor. }
  1,2,3: eexists [], (RStub _); split; [reflexivity|split; [constructor|cbn [rest_ok]; len; lia]].
  inversion B as [|? ? Ba B1]; subst. inversion B1 as [|? ? Bb B2]; subst. inversion B2 as [|? ? Bc B3]; subst. inversion B3 as [|? ? Bd B4]; subst.
  destruct (be16_of a b Ba Bb) as [E1 L1]. destruct (be16_of c d Bc Bd) as [E2 L2].
  destruct (N.le_gt_cases 65532 (256 * c + d)) as [H|H].
  { exists [], (RHuge (256 * a + b) (256 * c + d) m). cbn [rest_bytes]. rewrite E1, E2. split; [reflexivity|]. split; [constructor|]. cbn [rest_ok]. lia. }
  destruct (N.lt_ge_cases (lenN m) (256 * c + d)) as [S|S].
  { exists [], (RShort (256 * a + b) (256 * c + d) m). cbn [rest_bytes]. rewrite E1, E2. split; [reflexivity|]. split; [constructor|]. cbn [rest_ok]. lia. }
  set (l := 256 * c + d) in *. destruct (IH (dropN l m)) as (os & r & E & F & G).
  - cbn [List.length] in L. unfold dropN. rewrite skipn_length. lia.
  - apply Forall_forall. intros x I. unfold bytes in B4. rewrite Forall_forall in B4. apply B4. rewrite <- (takeN_dropN l m). apply in_or_app. now right.
  - exists (mkOpt (256 * a + b) (takeN l m) :: os), r.
    assert (T : lenN (takeN l m) = l) by (len; lia). split; [|split; [constructor; [|exact F]|exact G]].
    + rewrite encs_cons, <- app_assoc. unfold enc. cbn [o_code o_data]. rewrite T, E1, E2, <- E. cbn [app]. now rewrite takeN_dropN.
    + unfold opt_ok. cbn [o_code o_data]. rewrite T. split; [lia|]. split; [lia|].
      apply Forall_forall. intros x I. unfold bytes in B4. rewrite Forall_forall in B4. apply B4. rewrite <- (takeN_dropN l m). apply in_or_app. now left.
Qed.
Theorem every_message p : bytes p -> 4 <= lenN p -> exists t xid os r, p = message t xid os ++ rest_bytes r /\ lenN xid = 3 /\ Forall opt_ok os /\ rest_ok r.
Proof.
  intros B L. destruct p as [|t [|x [|y [|z m]]]]; try (len; lia). exists t, [x; y; z].
  assert (BM : bytes m) by (unfold bytes in *; repeat (match goal with H : Forall _ (_ :: _) |- _ => apply Forall_inv_tail in H end); assumption).
  destruct (parse_rest (List.length m) m (le_n _) BM) as (os & r & -> & F & G). exists os, r. auto.
Qed.
