From Coq Require Import String.
From Verif Require Import Base Text Log_Model Log_Spec.
Local Open Scope list_scope.
Local Open Scope N_scope.

(** ** Numbers *)
Definition val (a : N) (l : list byte) : N := fold_left (fun a d => a * 10 + (d - 48)) l a.
Lemma val_app a l l' : val a (l ++ l') = val (val a l) l'.
Proof. apply fold_left_app. Qed.
Lemma size_bound n : n < 2 ^ N.of_nat (N.size_nat n).
Proof.
  destruct n as [|p]; [reflexivity|]. cbn [N.size_nat]. induction p as [p IH|p IH|]; cbn [Pos.size_nat]; [| |reflexivity];
    rewrite Nnat.Nat2N.inj_succ, N.pow_succ_r'; lia.
Qed.
Lemma dec_loop_val fuel : forall n acc, n < 10 ^ N.of_nat fuel -> forallb is_digit acc = true ->
  val 0 (dec_loop fuel n acc) = val n acc /\ forallb is_digit (dec_loop fuel n acc) = true.
Proof.
  induction fuel as [|fuel IH]; intros n acc H D.
  - cbn [dec_loop]. change (10 ^ N.of_nat 0) with 1 in H. assert (n = 0) as -> by lia. auto.
  - cbn [dec_loop]. rewrite Nnat.Nat2N.inj_succ, N.pow_succ_r' in H. destruct (N.ltb_spec n 10) as [L|L].
    + split; [unfold val; cbn [fold_left]; f_equal; lia|]. cbn [forallb]. rewrite D. unfold is_digit. lia.
    + assert (M := N.mod_lt n 10 ltac:(lia)). assert (E := N.div_mod n 10 ltac:(lia)). destruct (IH (n / 10) ((48 + n mod 10) :: acc)) as (V & F).
      * apply N.div_lt_upper_bound; lia.
      * cbn [forallb]. rewrite D. unfold is_digit. lia.
      * split; [|exact F]. rewrite V. unfold val. cbn [fold_left]. f_equal. lia.
Qed.
Lemma dec_fuel n : n < 10 ^ N.of_nat (S (N.size_nat n)).
Proof.
  rewrite Nnat.Nat2N.inj_succ, N.pow_succ_r'. assert (B := size_bound n).
  assert (2 ^ N.of_nat (N.size_nat n) <= 10 ^ N.of_nat (N.size_nat n)) by (apply N.pow_le_mono_l; lia). lia.
Qed.
Lemma dec_val n : val 0 (dec n) = n /\ forallb is_digit (dec n) = true.
Proof. unfold dec. destruct (dec_loop_val _ n [] (dec_fuel n) eq_refl) as (V & F). split; [exact V|exact F]. Qed.
Lemma val_zeros k : val 0 (repeat 48 k) = 0.
Proof. induction k as [|k IH]; [reflexivity|]. exact IH. Qed.
Lemma digits_zeros k : forallb is_digit (repeat 48 k) = true.
Proof. induction k as [|k IH]; [reflexivity|exact IH]. Qed.
Lemma zeros_ok k n : val 0 (zeros k (dec n)) = n /\ forallb is_digit (zeros k (dec n)) = true /\ k <= lenN (zeros k (dec n)) /\ (lenN (dec n) <= k -> lenN (zeros k (dec n)) = k).
Proof.
  unfold zeros. destruct (dec_val n) as (V & F). rewrite val_app, val_zeros, forallb_app, digits_zeros. split; [exact V|]. split; [exact F|].
  assert (L : lenN (repeat 48 (N.to_nat (k - lenN (dec n)))) = k - lenN (dec n)) by (unfold lenN; rewrite repeat_length; lia).
  rewrite lenN_app, L. split; lia.
Qed.
Lemma dec_loop_len fuel : forall n acc k, n < 10 ^ k -> 1 <= k -> lenN (dec_loop fuel n acc) <= lenN acc + k.
Proof.
  induction fuel as [|fuel IH]; intros n acc k H K; cbn [dec_loop]; [lia|]. destruct (N.ltb_spec n 10) as [L|L]; [len; lia|].
  destruct (N.eq_dec k 1) as [ -> | Nk]; [change (10 ^ 1) with 10 in H; lia|].
  assert (X : n / 10 < 10 ^ (k - 1)). { apply N.div_lt_upper_bound; [lia|]. rewrite <- N.pow_succ_r'. replace (N.succ (k - 1)) with k by lia. exact H. }
  specialize (IH (n / 10) ((48 + n mod 10) :: acc) (k - 1) X ltac:(lia)). revert IH. len. lia.
Qed.
Lemma dec_len n k : n < 10 ^ k -> 1 <= k -> lenN (dec n) <= k.
Proof. intros H K. unfold dec. assert (X := dec_loop_len (S (N.size_nat n)) n [] k H K). revert X. len. lia. Qed.

(** ** Time since the start *)
Lemma log_time_right f t : is_time f -> is_time t -> (micros f <= micros t)%Z ->
  let '(s, u) := log_time f t in (0 <= s)%Z /\ (0 <= u < 1000000)%Z /\ (s * 1000000 + u)%Z = (micros t - micros f)%Z.
Proof.
  unfold is_time, micros, log_time. intros Hf Ht H. destruct (Z.ltb_spec (snd t - snd f) 0) as [L|L].
  - destruct (Z.ltb_spec (fst t - fst f - 1) 0); lia.
  - lia.
Qed.
Lemma prec_pos n z : (0 <= z)%Z -> prec n z = zeros n (dec (Z.to_N z)).
Proof. intros H. unfold prec. now replace (z <? 0)%Z with false by lia. Qed.
Lemma elapsed_shows f t : is_time f -> is_time t -> (micros f <= micros t)%Z -> shows (elapsed f t) (micros t - micros f).
Proof.
  intros Hf Ht H. assert (R := log_time_right f t Hf Ht H). unfold elapsed. destruct (log_time f t) as [s u]. destruct R as (Hs & Hu & E).
  rewrite !prec_pos by lia. destruct (zeros_ok 4 (Z.to_N s)) as (V1 & D1 & L1 & _). destruct (zeros_ok 6 (Z.to_N u)) as (V2 & D2 & _ & L2).
  exists (zeros 4 (dec (Z.to_N s))), (zeros 6 (dec (Z.to_N u))). split; [reflexivity|]. split; [rewrite forallb_app, D1, D2; reflexivity|]. split; [exact L1|].
  split; [apply L2, dec_len; [change (10 ^ 6) with 1000000; lia|lia]|]. change value with (val 0). rewrite V1, V2. lia.
Qed.

(** ** Milliseconds *)
Lemma lrint_near us : (Z.abs (Z.of_N (lrint_ms us) * 1000 - Z.of_N us) <= 500)%Z.
Proof.
  unfold lrint_ms. assert (E := N.div_mod us 1000 ltac:(lia)). assert (M := N.mod_lt us 1000 ltac:(lia)). set (q := us / 1000) in *. set (r := us mod 1000) in *. clearbody q r.
  destruct (N.ltb_spec r 500); [lia|]. destruct (N.ltb_spec 500 r); [lia|]. destruct (N.even q); lia.
Qed.
Lemma lrint_max us : us < 1000000 -> lrint_ms us <= 1000 /\ (us < 999500 -> lrint_ms us < 1000) /\ (999500 <= us -> lrint_ms us = 1000).
Proof.
  intros H. unfold lrint_ms. assert (E := N.div_mod us 1000 ltac:(lia)). assert (M := N.mod_lt us 1000 ltac:(lia)). set (q := us / 1000) in *. set (r := us mod 1000) in *. clearbody q r.
  destruct (N.ltb_spec r 500); [lia|]. destruct (N.ltb_spec 500 r); [lia|]. assert (r = 500) as -> by lia.
  destruct (N.even q) eqn:Ev; [|lia]. assert (q <> 999) by (intros ->; discriminate). lia.
Qed.

(** ** Stamps *)
Lemma Ok_inj A (a b : A) : Ok a = Ok b -> a = b.
Proof. now intros [= ->]. Qed.
Lemma digit_not c l : forallb is_digit l = true -> is_digit c = false -> ~ In c l.
Proof. intros D Hc I. rewrite forallb_forall in D. rewrite (D c I) in Hc. discriminate. Qed.
Definition plain (l : list byte) : Prop := ~ In 93 l /\ ~ In 10 l.
Lemma plain_app a b : plain a -> plain b -> plain (a ++ b).
Proof. unfold plain. rewrite !in_app_iff. tauto. Qed.
Lemma plain_digits l : forallb is_digit l = true -> plain l.
Proof. intros D. split; apply digit_not; auto. Qed.
Lemma plain_zeros k n : plain (zeros k (dec n)).
Proof. apply plain_digits, zeros_ok. Qed.
Lemma plain_prec k z : plain (prec k z).
Proof.
  unfold prec. destruct (z <? 0)%Z; [|apply plain_zeros]. change (45 :: zeros k (dec (Z.to_N (- z)))) with ([45] ++ zeros k (dec (Z.to_N (- z)))).
  apply plain_app; [split; intros [E|[]]; discriminate|apply plain_zeros].
Qed.
Lemma plain_by l : forallb (fun c => negb ((c =? 93) || (c =? 10))) l = true -> plain l.
Proof. intros F. rewrite forallb_forall in F. split; intros I; specialize (F _ I); discriminate. Qed.

Lemma stamp_ok us t : us < 1000000 -> usual t ->
  stamp us t = Ok (tm_x t ++ text " - " ++ tm_X t ++ [46] ++ zeros 3 (dec (tm_day t)) ++ [46] ++ zeros 3 (dec (if lrint_ms us =? 1000 then 0 else lrint_ms us))).
Proof.
  intros Hu (_ & _ & L & D). destruct (lrint_max us Hu) as (M & _ & _).
  assert (E : (if 1000 <=? lrint_ms us then lrint_ms us - 1000 else lrint_ms us) = (if lrint_ms us =? 1000 then 0 else lrint_ms us)).
  { destruct (N.leb_spec 1000 (lrint_ms us)), (N.eqb_spec (lrint_ms us) 1000); lia. }
  unfold stamp. rewrite E. assert (B : (if lrint_ms us =? 1000 then 0 else lrint_ms us) < 1000) by (destruct (N.eqb_spec (lrint_ms us) 1000); lia).
  set (ms := if lrint_ms us =? 1000 then 0 else lrint_ms us) in *. clearbody ms.
  assert (L1 : lenN (zeros 3 (dec (tm_day t))) = 3). { apply zeros_ok, dec_len; [change (10 ^ 3) with 1000; lia|lia]. }
  assert (L2 : lenN (zeros 3 (dec ms)) = 3). { apply zeros_ok, dec_len; [change (10 ^ 3) with 1000; lia|lia]. }
  assert (L3 : lenN (text " - ") = 3) by reflexivity. unfold BUFTMP, BUFFER.
  set (z1 := zeros 3 (dec (tm_day t))) in *. set (z2 := zeros 3 (dec ms)) in *. set (s := text " - ") in *. clearbody z1 z2 s.
  replace (lenN (tm_x t ++ s ++ tm_X t ++ [46] ++ z1) <? 80) with true by (rewrite !lenN_app; change (lenN [46]) with 1; lia).
  replace (lenN ((tm_x t ++ s ++ tm_X t ++ [46] ++ z1) ++ [46] ++ z2) <? 120) with true by (rewrite !lenN_app; change (lenN [46]) with 1; lia).
  now rewrite <- !app_assoc.
Qed.
Lemma stamp_plain us t s : usual t -> stamp us t = Ok s -> plain s.
Proof.
  intros (A & B & _) H. unfold stamp in H. rewrite in_app_iff in A, B. assert (Px : plain (tm_x t)) by (split; tauto). assert (PX : plain (tm_X t)) by (split; tauto).
  destruct (_ <? BUFTMP); [|discriminate]. destruct (_ <? BUFFER); [|discriminate]. apply Ok_inj in H. subst s.
  repeat first [assumption | apply plain_zeros | apply plain_app]; apply plain_by; reflexivity.
Qed.

(** ** Lines *)
Definition head_of (g : logger) (w : world) (s : list byte) : list byte :=
  if g_date g then [91] ++ s ++ [93; 32] else if have_time (g_start g) then elapsed (g_start g) (w_now w) else [].
Definition tail_of (p : place) (sev : N) : list byte :=
  if (sev =? 7) || (sev <=? 4)
  then text " (" ++ or_unknown (p_func p) ++ text "() in " ++ or_unknown (p_file p) ++ text ":" ++ dec_z (if (p_line p <? 0)%Z then 0%Z else p_line p) ++ text ")"
  else [].
Lemma log_format_eq g w e p subs sev fmt : usual (w_tm w) -> w_usec w < 1000000 -> exists s, plain s /\
  log_format g w e p subs sev fmt = Ok (if (sev <? 9) && (g_max g <? sev) then []
    else head_of g w s ++ opt_colon (if sev <? 9 then sev_name sev else None) ++ opt_colon subs ++ fmt e ++ tail_of p sev ++ [10], e).
Proof.
  intros U Hu. assert (S : exists s, plain s /\ (if g_date g then stamp (w_usec w) (w_tm w) else Ok []) = Ok s).
  { destruct (g_date g); [|exists []; split; [apply plain_by; reflexivity|reflexivity]]. assert (X := stamp_ok _ _ Hu U).
    eexists. split; [exact (stamp_plain _ _ _ U X)|exact X]. }
  destruct S as (s & P & E). exists s. split; [exact P|]. unfold log_format, log__submit. change SEV_NUM with 9.
  destruct ((sev <? 9) && (g_max g <? sev)); [reflexivity|]. rewrite E. cbn [bind fst]. unfold head_of, tail_of.
  destruct ((sev =? 7) || (sev <=? 4)); [|reflexivity]. do 2 f_equal. rewrite <- !app_assoc. reflexivity.
Qed.
Lemma head_form g w s : plain s -> head_of g w s = [] \/ exists h, plain h /\ head_of g w s = [91] ++ h ++ [93; 32].
Proof.
  intros P. unfold head_of. destruct (g_date g); [right; eauto|]. destruct (have_time (g_start g)); [right|now left]. unfold elapsed. destruct (log_time _ _) as [a b].
  exists (prec 4 a ++ [46] ++ prec 6 b). split; [|now rewrite <- !app_assoc]. repeat first [apply plain_prec | apply plain_app]. apply plain_by. reflexivity.
Qed.
Lemma until_app c a r : ~ In c a -> until c (a ++ c :: r) = Some (a, r).
Proof.
  induction a as [|x a IH]; intros H; cbn [app until]; [now rewrite N.eqb_refl|]. destruct (N.eqb_spec x c) as [ -> | Nx]; [destruct H; now left|].
  rewrite IH; [reflexivity|]. intros I. apply H. now right.
Qed.
Lemma skip_head h l : plain h -> skip_stamp (([91] ++ h ++ [93; 32]) ++ l) = l.
Proof. intros (A & _). rewrite <- !app_assoc. cbn [app skip_stamp]. now rewrite until_app. Qed.
Lemma newlines_app a b : newlines (a ++ b) = newlines a + newlines b.
Proof. unfold newlines. now rewrite filter_app, lenN_app. Qed.
Lemma newlines_plain l : ~ In 10 l -> newlines l = 0.
Proof.
  intros H. unfold newlines. induction l as [|x l IH]; [reflexivity|]. cbn [filter]. destruct (N.eqb_spec 10 x) as [<-|Nx]; [destruct H; now left|].
  apply IH. intros I. apply H. now right.
Qed.

Lemma levels g w e p subs sev fmt : usual (w_tm w) -> w_usec w < 1000000 ->
  exists out, log_format g w e p subs sev fmt = Ok (out, e) /\ (out <> [] <-> 9 <= sev \/ sev <= g_max g).
Proof.
  intros U Hu. destruct (log_format_eq g w e p subs sev fmt U Hu) as (s & _ & E). rewrite E. eexists. split; [reflexivity|].
  destruct ((sev <? 9) && (g_max g <? sev)) eqn:C; [split; [now intros H|lia]|]. split; [lia|]. intros _ H.
  repeat (apply app_eq_nil in H; destruct H as [_ H]). discriminate.
Qed.
Lemma severity g w e p subs sev fmt out : usual (w_tm w) -> w_usec w < 1000000 -> log_format g w e p subs sev fmt = Ok (out, e) -> out <> [] -> sev < 9 -> read_sev out = Some sev.
Proof.
  intros U Hu H Nn L. destruct (log_format_eq g w e p subs sev fmt U Hu) as (s & P & E). rewrite E in H. injection H as <-.
  destruct ((sev <? 9) && (g_max g <? sev)); [now destruct Nn|]. replace (sev <? 9) with true by lia.
  set (rest := opt_colon subs ++ fmt e ++ tail_of p sev ++ [10]). clearbody rest.
  assert (C : sev = 0 \/ sev = 1 \/ sev = 2 \/ sev = 3 \/ sev = 4 \/ sev = 5 \/ sev = 6 \/ sev = 7 \/ sev = 8) by lia.
  assert (N1 : read_sev (opt_colon (sev_name sev) ++ rest) = Some sev).
  { destruct C as [ -> | [ -> | [ -> | [ -> | [ -> | [ -> | [ -> | [ -> |  ->]]]]]]]]; vm_compute; reflexivity. }
  destruct (head_form g w s P) as [ -> | (h & Ph & ->)]; [exact N1|]. unfold read_sev in *. rewrite skip_head by exact Ph.
  assert (N2 : skip_stamp (opt_colon (sev_name sev) ++ rest) = opt_colon (sev_name sev) ++ rest).
  { destruct C as [ -> | [ -> | [ -> | [ -> | [ -> | [ -> | [ -> | [ -> |  ->]]]]]]]]; vm_compute; reflexivity. }
  rewrite N2 in N1. exact N1.
Qed.
Lemma nl_head g w s : plain s -> newlines (head_of g w s) = 0.
Proof.
  intros P. destruct (head_form g w s P) as [ -> | (h & (_ & Ph) & ->)]; [reflexivity|]. rewrite !newlines_app, (newlines_plain h Ph). reflexivity.
Qed.
Lemma nl_name sev : newlines (opt_colon (if sev <? 9 then sev_name sev else None)) = 0.
Proof.
  destruct (N.ltb_spec sev 9) as [L|L]; [|reflexivity]. assert (C : sev = 0 \/ sev = 1 \/ sev = 2 \/ sev = 3 \/ sev = 4 \/ sev = 5 \/ sev = 6 \/ sev = 7 \/ sev = 8) by lia.
  destruct C as [ -> | [ -> | [ -> | [ -> | [ -> | [ -> | [ -> | [ -> |  ->]]]]]]]]; reflexivity.
Qed.
Lemma nl_opt o : newlines (opt_colon o) = opt_newlines o.
Proof. destruct o as [l|]; [|reflexivity]. cbn [opt_colon opt_newlines]. rewrite newlines_app. change (newlines (text ": ")) with 0. lia. Qed.
Lemma nl_unknown o : newlines (or_unknown o) = opt_newlines o.
Proof. now destruct o. Qed.
Lemma nl_dec z : newlines (dec_z z) = 0.
Proof. unfold dec_z. apply newlines_plain, (digit_not 10); [apply dec_val|reflexivity]. Qed.
Lemma nl_tail p sev : opt_newlines (p_file p) = 0 -> opt_newlines (p_func p) = 0 -> newlines (tail_of p sev) = 0.
Proof.
  intros A B. unfold tail_of. destruct ((sev =? 7) || (sev <=? 4)); [|reflexivity]. rewrite !newlines_app, !nl_unknown, nl_dec, A, B. reflexivity.
Qed.
Lemma lines g w e p subs sev fmt out : usual (w_tm w) -> w_usec w < 1000000 -> opt_newlines (p_file p) = 0 -> opt_newlines (p_func p) = 0 -> opt_newlines subs = 0 ->
  log_format g w e p subs sev fmt = Ok (out, e) -> out <> [] ->
  exists a b, out = a ++ fmt e ++ b ++ [10] /\ newlines a = 0 /\ newlines b = 0.
Proof.
  intros U Hu A B C H Nn. destruct (log_format_eq g w e p subs sev fmt U Hu) as (s & P & E). rewrite E in H. injection H as <-.
  destruct ((sev <? 9) && (g_max g <? sev)); [now destruct Nn|].
  exists (head_of g w s ++ opt_colon (if sev <? 9 then sev_name sev else None) ++ opt_colon subs), (tail_of p sev).
  split; [now rewrite <- !app_assoc|]. split; [rewrite !newlines_app, nl_head, nl_name, nl_opt, C by exact P; reflexivity|]. now apply nl_tail.
Qed.

(** ** Date stamps *)
Lemma date_stamp g w e p subs sev fmt out : usual (w_tm w) -> w_usec w < 999500 -> g_date g = true ->
  log_format g w e p subs sev fmt = Ok (out, e) -> out <> [] ->
  exists ms rest, near_ms (Z.of_N ms) (Z.of_N (w_usec w)) /\ ms < 1000
    /\ out = [91] ++ tm_x (w_tm w) ++ text " - " ++ tm_X (w_tm w) ++ [46] ++ zeros 3 (dec (tm_day (w_tm w))) ++ [46] ++ zeros 3 (dec ms) ++ [93; 32] ++ rest.
Proof.
  intros U Hu D H Nn. assert (Hu' : w_usec w < 1000000) by lia. assert (S := stamp_ok _ _ Hu' U). unfold log_format, log__submit in H.
  destruct ((sev <? SEV_NUM) && (g_max g <? sev)); [injection H as <-; now destruct Nn|]. rewrite D, S in H. cbn [bind fst] in H. apply Ok_inj, (f_equal fst) in H. cbn [fst] in H. subst out.
  destruct (lrint_max _ Hu') as (_ & M & _). specialize (M Hu). replace (lrint_ms (w_usec w) =? 1000) with false by lia.
  exists (lrint_ms (w_usec w)). eexists. split; [apply lrint_near|]. split; [exact M|]. rewrite <- !app_assoc. cbn [app]. reflexivity.
Qed.
Lemma elapsed_line g w e p subs sev fmt out : is_time (g_start g) -> is_time (w_now w) -> (micros (g_start g) <= micros (w_now w))%Z ->
  g_date g = false -> have_time (g_start g) = true -> log_format g w e p subs sev fmt = Ok (out, e) -> out <> [] ->
  exists st rest, out = st ++ rest /\ shows st (micros (w_now w) - micros (g_start g)).
Proof.
  intros A B C D T H Nn. unfold log_format, log__submit in H. destruct ((sev <? SEV_NUM) && (g_max g <? sev)); [injection H as <-; now destruct Nn|].
  rewrite D, T in H. cbn [bind fst] in H. apply Ok_inj, (f_equal fst) in H. cbn [fst] in H. subst out. eexists. eexists. split; [reflexivity|]. now apply elapsed_shows.
Qed.
Lemma elapsed_cli g w : is_time (g_start g) -> is_time (w_now w) -> (micros (g_start g) <= micros (w_now w))%Z ->
  g_date g = false -> have_time (g_start g) = true -> exists st, cli_prefix g w = Ok st /\ shows st (micros (w_now w) - micros (g_start g)).
Proof. intros A B C D T. unfold cli_prefix. rewrite D, T. eexists. split; [reflexivity|]. now apply elapsed_shows. Qed.
