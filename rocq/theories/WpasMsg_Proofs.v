From Coq Require Import String.
From Verif Require Import Base Atoi_Spec Atoi_Proofs Text Text_Proofs Qstr_Model Qstr_Proofs Split_Model Split_Spec Split_Proofs RtspText_Proofs WpasMsg_Model WpasMsg_Spec.
Local Open Scope list_scope.

(** ** Numbers *)
Lemma digit_dec c v : digit 10 c v -> is_digit c = true /\ c - 48 = v.
Proof. intros []; unfold is_digit; split; try lia. Qed.
Lemma digits_num s vs : Forall2 (digit 10) s vs -> forall acc r, (forall c t, r = c :: t -> is_digit c = false) ->
  digits (s ++ r) acc = acc * 10 ^ lenN vs + num 10 vs.
Proof.
  induction 1 as [|c v s vs D H IH]; intros acc r R; cbn [app digits num].
  - rewrite lenN_nil, N.pow_0_r. destruct r as [|c t]; cbn [digits]; [lia|]. rewrite (R c t eq_refl). lia.
  - destruct (digit_dec c v D) as (-> & ->). rewrite IH by exact R. rewrite lenN_cons, N.add_1_l, N.pow_succ_r'. lia.
Qed.
Lemma scan_digits neg s vs : Forall2 (digit 10) s vs -> s <> [] ->
  scan (if neg : bool then 45 :: s else s) = Some (neg, num 10 vs).
Proof.
  intros F N0. pose proof (digits_num s vs F 0 []) as D. rewrite app_nil_r in D. specialize (D ltac:(discriminate)).
  destruct F as [|c v s vs Dc F]; [congruence|]. assert (Hc := digit10 c v Dc).
  assert (I : is_digit c = true) by now apply (digit_dec c v).
  unfold scan. destruct neg.
  - change (skip_space (45 :: c :: s)) with (45 :: c :: s). cbv iota. change (45 =? 45) with true. cbv iota. rewrite I, D. f_equal.
  - cbn [skip_space]. assert (E : space c = false) by (unfold space; lia). rewrite E. assert (E1 : (c =? 45) = false) by lia. assert (E2 : (c =? 43) = false) by lia.
    rewrite E1, E2, I, D. f_equal.
Qed.
Lemma scan_dec n : scan (dec n) = Some (false, n).
Proof. destruct (dec_spec n) as (vs & F & E & N0). rewrite <- E at 2. apply (scan_digits false); assumption. Qed.
Lemma scan_dec_z z : scan (dec_z z) = Some ((z <? 0)%Z, Z.abs_N z).
Proof.
  destruct z as [|p|p]; cbn [dec_z]; [apply scan_dec|rewrite scan_dec; reflexivity|].
  destruct (dec_spec (Npos p)) as (vs & F & E & N0). rewrite (scan_digits true (dec (Npos p)) vs F N0), E. reflexivity.
Qed.
Lemma i32_back z : (- 2 ^ 31 <= z < 2 ^ 31)%Z -> scan_i32 (dec_z z) = Ok (Some z).
Proof.
  intros H. unfold scan_i32. rewrite scan_dec_z. unfold signed. cbn [fst snd].
  assert (E : (if z <? 0 then - Z.of_N (Z.abs_N z) else Z.of_N (Z.abs_N z))%Z = z) by (destruct (Z.ltb_spec z 0); lia). rewrite E. unfold int_ok.
  destruct (Z.leb_spec (- 2 ^ 31) z); [|lia]. destruct (Z.ltb_spec z (2 ^ 31)); [|lia]. reflexivity.
Qed.
Lemma u32_back n : n < 2 ^ 32 -> scan_u32 (dec n) = Ok (Some n).
Proof. intros H. unfold scan_u32. rewrite scan_dec. destruct (N.leb_spec (2 ^ 32) n); [lia|reflexivity]. Qed.
Lemma atoi_back n : n < 2 ^ 31 -> atoi (dec n) = Ok (Z.of_N n).
Proof.
  intros H. unfold atoi. rewrite scan_dec. unfold signed, int_ok. cbn [fst snd]. assert (E : 2 ^ 31 = 2147483648) by reflexivity. assert (E' : (2 ^ 31 = 2147483648)%Z) by reflexivity.
  destruct (Z.leb_spec (- 2 ^ 31) (Z.of_N n)); [|lia]. destruct (Z.ltb_spec (Z.of_N n) (2 ^ 31)); [|lia]. reflexivity.
Qed.
Lemma dec_sendable n : sendable (dec n).
Proof.
  split; [apply dec_nonnil|]. pose proof (dec_digits n) as D. rewrite Forall_forall in D. split; [|right]; intros I; apply D in I; lia.
Qed.
Lemma dec_z_sendable z : sendable (dec_z z).
Proof.
  destruct z; cbn [dec_z]; try apply dec_sendable. split; [discriminate|]. pose proof (dec_digits (Npos p)) as D. rewrite Forall_forall in D.
  split; [|right]; (intros [I|I]; [discriminate|apply D in I; lia]).
Qed.

(** ** Building *)
Lemma says_text a t : says a t <-> arg_text a = Some t.
Proof.
  destruct a as [s|z|n|k v|]; cbn [says arg_text].
  - split; congruence.
  - assert (E : dec_z z = if (z <? 0)%Z then 45 :: dec (Z.to_N (- z)) else dec (Z.to_N z)) by (destruct z; reflexivity). rewrite <- E. split; congruence.
  - split; congruence.
  - split; [intros (x & y & -> & -> & ->); reflexivity|]. destruct k as [x|]; [|discriminate]. destruct v as [y|]; [|discriminate]. intros [= <-]. eauto.
  - split; [tauto|discriminate].
Qed.
Lemma sendable_clean s : sendable s -> s <> [] /\ ~ In 0 s /\ (need_quote s = false -> ~ In 39 s).
Proof.
  intros (H1 & H2 & H3). split; [exact H1|]. split; [exact H2|]. intros Q. destruct H3 as [H3|H3]; [|exact H3]. apply need_quote_iff in H3. congruence.
Qed.
Lemma sendables_clean l : Forall sendable l -> Forall clean l.
Proof. intros F. eapply Forall_impl; [|exact F]. exact sendable_clean. Qed.
Definition w_more (m : wmsg) (l : list (list byte)) : wmsg :=
  mkWmsg (w_type m) (w_name m) (w_level m) (w_argv m ++ l) (w_iter m) (w_raw m) (w_rawlen m) (w_ifname m) (w_sealed m) (w_peer m).
Lemma append_loop args : forall m m', w_sealed m = false -> wappend_loop m args = (m', None) ->
  exists ts, texts args ts /\ m' = w_more m ts.
Proof.
  induction args as [|a args IH]; intros m m' S; cbn [wappend_loop].
  - intros [= <-]. exists []. split; [constructor|]. unfold w_more. rewrite app_nil_r. now destruct m.
  - unfold wappend_basic. rewrite S. destruct (arg_text a) as [t|] eqn:E; [|discriminate]. intros H. destruct (IH (w_push m t) m' S H) as (ts & T & ->). exists (t :: ts).
    split; [constructor; [now apply says_text|assumption]|]. unfold w_more, w_push. cbn. now rewrite <- app_assoc.
Qed.
Lemma append_loop_texts args ts : texts args ts -> forall m, w_sealed m = false -> wappend_loop m args = (w_more m ts, None).
Proof.
  induction 1 as [|a t args ts E H IH]; intros m S; cbn [wappend_loop].
  - unfold w_more. rewrite app_nil_r. now destruct m.
  - apply says_text in E. unfold wappend_basic. rewrite S, E, IH by exact S. f_equal. unfold w_more, w_push. cbn. now rewrite <- app_assoc.
Qed.
Lemma request_sealed name args m : sealed_request name args = Some m ->
  exists ts, texts args ts /\ name <> [] /\ w_argv m = name :: ts /\ w_type m = WRequest /\ raw_text m = join (name :: ts) /\ w_rawlen m = lenN (raw_text m) /\ w_sealed m = true /\ lenN (raw_text m) < 2 ^ 31.
Proof.
  unfold sealed_request, new_wrequest. destruct name as [|c n]; [discriminate|]. unfold wappend. change (w_sealed (wnew WRequest (Some (c :: n)) 0)) with false. cbv iota.
  destruct (wappend_loop _ args) as [m1 [e|]] eqn:E; [discriminate|]. apply append_loop in E as (ts & T & ->); [|reflexivity].
  unfold wseal. cbn [w_more w_sealed wnew w_argv app w_type]. destruct (N.leb_spec (2 ^ 31) (lenN (join ((c :: n) :: ts)))); [discriminate|]. intros [= <-]. exists ts. cbn. repeat split; auto. discriminate.
Qed.
Lemma event_sealed name level args m : sealed_event name level args = Some m ->
  exists ts, texts args ts /\ name <> [] /\ w_argv m = name :: ts /\ w_type m = WEvent
    /\ raw_text m = (60 :: dec level ++ [62]) ++ join (name :: ts) /\ w_rawlen m = lenN (join (name :: ts)).
Proof.
  unfold sealed_event, new_event. destruct name as [|c n]; [discriminate|]. unfold wappend. change (w_sealed (wnew WEvent (Some (c :: n)) level)) with false. cbv iota.
  destruct (wappend_loop _ args) as [m1 [e|]] eqn:E; [discriminate|]. apply append_loop in E as (ts & T & ->); [|reflexivity].
  unfold wseal. cbn [w_more w_sealed wnew w_argv app w_type w_level]. destruct (N.leb_spec (2 ^ 31) (lenN (join ((c :: n) :: ts)))); [discriminate|]. intros [= <-]. exists ts. split; [exact T|]. split; [discriminate|].
  split; [reflexivity|]. split; [reflexivity|]. split; [|reflexivity]. unfold raw_text. cbn [w_raw]. cbn. now rewrite <- app_assoc.
Qed.

(** Plain words. *)
Lemma plain_encode s : plain s -> encode s (need_quote s) = s.
Proof.
  intros (_ & F). rewrite need_quote_simple by (eapply Forall_impl; [|exact F]; cbn; tauto). cbn. apply encode_body_simple. eapply Forall_impl; [|exact F]. cbn. tauto.
Qed.
Lemma plain_tail ss : Forall plain ss -> tail_line ss = match ss with [] => [] | _ => 32 :: spaced ss end.
Proof.
  induction 1 as [|s ss P F IH]; [reflexivity|]. unfold tail_line in *. cbn [map concat]. rewrite (plain_encode s P), IH. destruct ss; cbn [spaced app]; [now rewrite app_nil_r|reflexivity].
Qed.
Lemma join_plain ss : Forall plain ss -> join ss = spaced ss.
Proof.
  intros F. destruct F as [|s ss P F]; [reflexivity|]. unfold join. cbn [join_loop app]. rewrite join_loop_tail by (apply encode_nil; apply P). rewrite plain_encode by exact P. rewrite plain_tail by exact F.
  destruct ss; cbn [spaced]; [apply app_nil_r|reflexivity].
Qed.
Lemma request_text name args m ts : sealed_request name args = Some m -> texts args ts -> Forall plain (name :: ts) ->
  sent_text m = spaced (name :: ts).
Proof.
  intros H T P. apply request_sealed in H as (ts' & T' & _ & _ & _ & R & L & _ & _). unfold sent_text. rewrite L, takeN_all by lia. rewrite R.
  assert (ts' = ts) as ->. { clear -T T'. unfold texts in *. revert ts T. induction T' as [|a t args ts' E H IH]; intros ts T; inversion T as [|? ? ? ? E']; subst; [reflexivity|]. apply says_text in E, E'. f_equal; [congruence|auto]. }
  now apply join_plain.
Qed.

(** ** No NUL in sealed lines *)
Lemma cstr_id s : ~ In 0 s -> cstr s = s.
Proof.
  induction s as [|c s IH]; intros H; [reflexivity|]. cbn [cstr]. destruct (N.eqb_spec c 0) as [->|]; [exfalso; apply H; now left|]. rewrite IH; [reflexivity|]. intros I. apply H. now right.
Qed.
Lemma encode_body_nul s : ~ In 0 s -> ~ In 0 (encode_body s).
Proof.
  induction s as [|c s IH]; intros H; [auto|]. cbn [encode_body]. assert (H0 : ~ In 0 (encode_body s)) by (apply IH; intros I; apply H; now right). assert (Hc : c <> 0) by (intros ->; apply H; now left).
  destruct (_ || _); intros I; repeat (destruct I as [I|I]; [congruence|]); auto.
Qed.
Lemma encode_nul s q : ~ In 0 s -> ~ In 0 (encode s q).
Proof.
  intros H. apply encode_body_nul in H. unfold encode. destruct q; [|exact H]. cbn [app]. intros [I|I]; [discriminate|]. apply in_app_iff in I as [I|[I|[]]]; [auto|discriminate].
Qed.
Lemma tail_nul ss : Forall sendable ss -> ~ In 0 (tail_line ss).
Proof.
  induction 1 as [|s ss (_ & Z & _) F IH]; [auto|]. unfold tail_line in *. cbn [map concat]. intros I. apply in_app_iff in I as [[I|I]|I]; [discriminate| |auto]. revert I. now apply encode_nul.
Qed.
Lemma join_form s ss : s <> [] -> join (s :: ss) = encode s (need_quote s) ++ tail_line ss.
Proof. intros H. unfold join. cbn [join_loop app]. apply join_loop_tail. now apply encode_nil. Qed.
Lemma join_nul s ss : Forall sendable (s :: ss) -> ~ In 0 (join (s :: ss)).
Proof.
  intros F. inversion F as [|? ? (N0 & Z & A) F']; subst. rewrite join_form by exact N0. intros I. apply in_app_iff in I as [I|I]; revert I; [now apply encode_nul|now apply tail_nul].
Qed.

(** The interface prefix. *)
Lemma str_eq_spec a : forall b, str_eq a b = true <-> a = b.
Proof.
  induction a as [|x a IH]; intros [|y b]; cbn [str_eq]; try (split; congruence). rewrite Bool.andb_true_iff, N.eqb_eq, IH. split; [intros (-> & ->); reflexivity|now intros [= -> ->]].
Qed.
Lemma takeN_cons {A} n (c : A) l : 0 < n -> takeN n (c :: l) = c :: takeN (n - 1) l.
Proof. intros H. unfold takeN. replace (N.to_nat n) with (Datatypes.S (N.to_nat (n - 1))) by lia. reflexivity. Qed.
Lemma encoded_prefix p : Forall (fun c => c <> 92 /\ c <> 34 /\ c <> 32) p -> forall s t, (forall c r, t = c :: r -> c = 32) ->
  takeN (lenN p) (encode_body s ++ t) = p -> takeN (lenN p) s = p.
Proof.
  induction 1 as [|x p (H1 & H2 & H3) F IH]; intros s t Ht E; [reflexivity|]. rewrite lenN_cons in *. destruct s as [|c s]; cbn [encode_body app] in E.
  - exfalso. destruct t as [|d t]; [unfold takeN in E; rewrite firstn_nil in E; discriminate|]. rewrite takeN_cons in E by lia. injection E as -> E. apply H3. now apply (Ht x t).
  - rewrite takeN_cons by lia. destruct ((c =? 92) || (c =? 34)) eqn:Ec; cbn [app] in E; rewrite takeN_cons in E by lia.
    + injection E as E _. congruence.
    + injection E as -> E. f_equal. replace (1 + lenN p - 1) with (lenN p) in * by lia. now apply (IH s t Ht).
Qed.
Lemma no_ifname s ss : Forall sendable (s :: ss) -> prefix_free s -> has_ifname (join (s :: ss)) = false.
Proof.
  intros F P. destruct (has_ifname (join (s :: ss))) eqn:E; [|reflexivity]. exfalso. apply P. unfold has_ifname in E. apply str_eq_spec in E. rewrite cstr_id in E by (now apply join_nul).
  inversion F as [|? ? (N0 & Z & A) F']; subst. rewrite join_form in E by exact N0. unfold encode in E. destruct (need_quote s).
  - cbn [app] in E. rewrite takeN_cons in E by lia. discriminate.
  - change 7 with (lenN (text "IFNAME=")) in E |- *. eapply encoded_prefix; [| |exact E].
    + vm_compute text. repeat (apply Forall_cons; [lia|]). apply Forall_nil.
    + intros c r Ht. unfold tail_line in Ht. destruct ss; cbn [map concat] in Ht; [discriminate|]. injection Ht as <- _. reflexivity.
Qed.

(** ** Parsing what was built *)
Lemma texts_strings l : Forall (fun t => ~ In 0 t) l -> texts (map (fun t => AString (Some (cstr t))) l) l.
Proof. induction 1 as [|t l H F IH]; constructor; [cbn; now rewrite cstr_id|exact IH]. Qed.
Lemma parse_args_ok m l : w_sealed m = false -> Forall (fun t => ~ In 0 t) l -> parse_args m l = (w_more m l, None).
Proof. intros S F. unfold parse_args. apply append_loop_texts; [now apply texts_strings|exact S]. Qed.
Lemma sendable_nul l : Forall sendable l -> Forall (fun t => ~ In 0 t) l.
Proof. intros F. eapply Forall_impl; [|exact F]. intros a (_ & H & _). exact H. Qed.
Definition parsed (ty : wtype) (name : option (list byte)) (level : N) (argv : list (list byte)) (iter : N) (raw : list byte) (len : N) (ifname : option (list byte)) : wmsg :=
  mkWmsg ty name level argv iter (Some raw) len ifname true true.
Lemma request_parsed name ts : Forall sendable (name :: ts) -> prefix_free name ->
  let raw := join (name :: ts) in
  parse true raw = Ok (inl (parsed WRequest (Some name) 0 (name :: ts) 1 raw (lenN raw) None)).
Proof.
  intros F P raw. unfold parse, split_ifname. unfold raw. rewrite no_ifname by assumption. cbn [orb]. rewrite qstr_roundtrip by (now apply sendables_clean).
  inversion F as [|? ? (N0 & Z & A) F']; subst. destruct name as [|c n]; [congruence|]. cbn [new_wrequest].
  rewrite parse_args_ok by (auto using sendable_nul). cbn [or_err]. unfold finish, w_more, parsed. cbn [wnew w_type w_name w_level w_argv w_iter app]. rewrite cstr_id by (now apply join_nul). reflexivity.
Qed.
(** Reading back. *)
Lemma nthN_at {A} (pre : list A) x r : nthN (pre ++ x :: r) (lenN pre) = Some x.
Proof. unfold nthN, lenN. rewrite Nnat.Nat2N.id, nth_error_app2, Nat.sub_diag by lia. reflexivity. Qed.
Lemma read_carried a v t : carries a v -> arg_text a = Some t -> read_entry (arg_type a) t = Ok (inl v).
Proof.
  destruct a as [[s|]|z|n|[k|] [w|]|], v as [s'|z'|n']; cbn [carries arg_text arg_type read_entry parse_num]; try tauto.
  - intros (-> & _) [= ->]. reflexivity.
  - intros (-> & H) [= <-]. rewrite i32_back by exact H. reflexivity.
  - intros (-> & H) [= <-]. rewrite u32_back by exact H. reflexivity.
  - intros (-> & H & _) [= <-]. cbn [app]. rewrite break_at_in by exact H. reflexivity.
Qed.
Lemma carried_text a v : carries a v -> exists t, arg_text a = Some t /\ sendable t.
Proof.
  destruct a as [[s|]|z|n|[k|] [w|]|], v as [s'|z'|n']; cbn [carries arg_text]; try tauto.
  - intros (-> & H). eauto.
  - intros _. eexists. split; [reflexivity|]. apply dec_z_sendable.
  - intros _. eexists. split; [reflexivity|]. apply dec_sendable.
  - intros (-> & _ & H). eauto.
Qed.
Lemma carried_texts args vs : Forall2 carries args vs -> exists ts, texts args ts /\ Forall sendable ts.
Proof.
  induction 1 as [|a v args vs C H (ts & T & S)]; [exists []; split; constructor|]. destruct (carried_text a v C) as (t & E & St). exists (t :: ts). split; constructor; try assumption. now apply says_text.
Qed.
Definition at_iter (m : wmsg) (i : N) : wmsg :=
  mkWmsg (w_type m) (w_name m) (w_level m) (w_argv m) i (w_raw m) (w_rawlen m) (w_ifname m) (w_sealed m) (w_peer m).
Lemma read_back args vs : Forall2 carries args vs -> forall ts, texts args ts -> forall pre m, w_argv m = pre ++ ts -> w_iter m = lenN pre ->
  read_all m (map arg_type args) = Ok (at_iter m (lenN (w_argv m)), vs, None).
Proof.
  induction 1 as [|a v args vs C H IH]; intros ts T pre m A I.
  - inversion T; subst. cbn. rewrite app_nil_r in A. rewrite A, <- I. now destruct m.
  - inversion T as [|? t ? ts' Et T']; subst. cbn [map read_all]. unfold read_basic. apply says_text in Et. rewrite I, A, nthN_at, (read_carried a v t C Et). cbn [bind].
    rewrite (IH ts' T' (pre ++ [t])); [cbn [bind]; cbn [w_step w_argv]; rewrite A; reflexivity| |].
    + cbn. rewrite A. now rewrite <- app_assoc.
    + cbn. rewrite I, lenN_app. reflexivity.
Qed.
Lemma texts_fun args ts ts' : texts args ts -> texts args ts' -> ts = ts'.
Proof. intros T. revert ts'. induction T as [|a t args ts E H IH]; intros ts' T'; inversion T' as [|? ? ? ? E']; subst; [reflexivity|]. apply says_text in E, E'. f_equal; [congruence|auto]. Qed.
Lemma request_round_trip name args vs m : sealed_request name args = Some m -> sendable name -> prefix_free name -> Forall2 carries args vs ->
  exists m', parse true (sent_text m) = Ok (inl m') /\ w_type m' = WRequest /\ w_name m' = Some name /\ w_argv m' = w_argv m
    /\ exists m'', read_all m' (map arg_type args) = Ok (m'', vs, None).
Proof.
  intros S Sn P C. apply request_sealed in S as (ts & T & N0 & A & _ & R & L & _ & _). destruct (carried_texts args vs C) as (ts' & T' & St). rewrite <- (texts_fun args ts ts' T T') in St.
  assert (F : Forall sendable (name :: ts)) by (constructor; assumption). pose proof (request_parsed name ts F P) as E. cbv zeta in E.
  unfold sent_text. rewrite L, takeN_all by lia. rewrite R, E. eexists. split; [reflexivity|]. cbn [parsed w_type w_name w_argv]. split; [reflexivity|]. split; [reflexivity|]. split; [now rewrite A|].
  eexists. apply (read_back args vs C ts T [name]); reflexivity.
Qed.

(** ** Events *)
Lemma tok_simple p t cur : simple p -> tok_loop (p ++ t) false 0 cur = tok_loop t false 0 (cur ++ p).
Proof.
  intros S. assert (E : encode_body p = p) by (apply encode_body_simple; eapply Forall_impl; [|exact S]; cbn; tauto). rewrite <- E at 1. rewrite tok_body_plain; [now rewrite E| |].
  - apply need_quote_simple. eapply Forall_impl; [|exact S]. cbn. tauto.
  - intros I. unfold simple in S. rewrite Forall_forall in S. apply S in I. lia.
Qed.
Lemma decode_simple p t : simple p -> decode false 0 (p ++ t) = p ++ decode false 0 t.
Proof.
  intros S. assert (E : encode_body p = p) by (apply encode_body_simple; eapply Forall_impl; [|exact S]; cbn; tauto). rewrite <- E at 1. apply decode_body.
  - intros I. unfold simple in S. rewrite Forall_forall in S. apply S in I. lia.
  - right. split; [reflexivity|]. intros I. unfold simple in S. rewrite Forall_forall in S. apply S in I. lia.
Qed.
Lemma tokenize_prefixed p s ss : simple p -> p <> [] -> Forall sendable (s :: ss) -> tokenize (p ++ join (s :: ss)) = (p ++ s) :: ss.
Proof.
  intros Sp N0 F. apply sendables_clean in F. inversion F as [|? ? (Ns & Z & A) F']; subst. rewrite join_form by exact Ns. unfold tokenize. rewrite tok_simple by exact Sp. rewrite tok_encode by exact A. rewrite tok_tail; [|exact F'|].
  - cbn [app]. rewrite decode_simple by exact Sp. rewrite decode_encode by assumption. reflexivity.
  - destruct p; [congruence|discriminate].
Qed.
Definition level_text (level : N) : list byte := 60 :: dec level ++ [62].
Lemma level_simple level : simple (level_text level).
Proof. constructor; [lia|]. apply Forall_app. split; [apply dec_simple|]. constructor; [lia|constructor]. Qed.
Lemma event_parsed name level ts : Forall sendable (name :: ts) -> level < 2 ^ 31 ->
  let raw := level_text level ++ join (name :: ts) in
  parse false raw = Ok (inl (parsed WEvent (Some name) level (name :: ts) 1 raw (lenN raw) None)).
Proof.
  intros F L raw. unfold parse, split_ifname. assert (Z : ~ In 0 raw).
  { unfold raw. intros I. apply in_app_iff in I as [I|I]; [|revert I; now apply join_nul]. pose proof (level_simple level) as S. unfold simple in S. rewrite Forall_forall in S. apply S in I. lia. }
  assert (E : has_ifname raw = false) by (unfold has_ifname; rewrite cstr_id by exact Z; reflexivity). rewrite E.
  unfold raw at 1. cbn [level_text app orb]. change (60 =? 60) with true. cbv iota. unfold raw at 1. rewrite tokenize_prefixed; [|apply level_simple|discriminate|exact F].
  assert (B : break_at 62 (level_text level ++ name) = (60 :: dec level, Some (62 :: name))).
  { unfold level_text. cbn [app]. rewrite <- app_assoc. cbn [app]. apply (break_at_in 62 (60 :: dec level) name). pose proof (dec_digits level) as D. rewrite Forall_forall in D. intros [I|I]; [discriminate|apply D in I; lia]. }
  rewrite B. inversion F as [|? ? (N0 & Zn & A) F']; subst. destruct name as [|c n]; [congruence|]. change (dropN 1 (60 :: dec level)) with (dec level). rewrite atoi_back by exact L. cbn [bind new_event].
  rewrite parse_args_ok by (auto using sendable_nul). cbn [or_err]. unfold finish, w_more, parsed. cbn [wnew w_type w_name w_level w_argv w_iter app]. rewrite cstr_id by exact Z.
  assert (E31 : 2 ^ 31 = 2147483648) by reflexivity. assert (E32 : (2 ^ 32 = 4294967296)%Z) by reflexivity. rewrite E32. rewrite Z.mod_small by lia. rewrite N2Z.id. reflexivity.
Qed.
Lemma event_round_trip name level args vs m : sealed_event name level args = Some m -> sendable name -> level < 2 ^ 31 -> Forall2 carries args vs ->
  exists m', parse false (raw_text m) = Ok (inl m') /\ w_type m' = WEvent /\ w_name m' = Some name /\ w_level m' = level /\ w_argv m' = w_argv m
    /\ exists m'', read_all m' (map arg_type args) = Ok (m'', vs, None).
Proof.
  intros S Sn L C. apply event_sealed in S as (ts & T & N0 & A & _ & R & _). destruct (carried_texts args vs C) as (ts' & T' & St). rewrite <- (texts_fun args ts ts' T T') in St.
  assert (F : Forall sendable (name :: ts)) by (constructor; assumption). pose proof (event_parsed name level ts F L) as E. cbv zeta in E. unfold level_text in E.
  rewrite R, E. eexists. split; [reflexivity|]. cbn [parsed w_type w_name w_argv w_level]. repeat (split; [try reflexivity; now rewrite A|]).
  eexists. apply (read_back args vs C ts T [name]); reflexivity.
Qed.
Lemma event_short name level args m : sealed_event name level args = Some m ->
  w_rawlen m + lenN (dec level) + 2 = lenN (raw_text m) /\ sent_text m <> raw_text m.
Proof.
  intros S. apply event_sealed in S as (ts & _ & _ & _ & _ & R & L). rewrite L, R. assert (E : lenN ((60 :: dec level ++ [62]) ++ join (name :: ts)) = lenN (join (name :: ts)) + lenN (dec level) + 2).
  { rewrite lenN_app, lenN_cons, lenN_app. change (lenN [62]) with 1. lia. }
  split; [now rewrite E|]. intros H. apply (f_equal lenN) in H. unfold sent_text in H. rewrite lenN_takeN, L, R, E in H. lia.
Qed.

(** ** Replies *)
Lemma split_of_iff (P Q : byte -> Prop) s fs : (forall c, P c <-> Q c) -> split_of P s fs -> split_of Q s fs.
Proof.
  intros H. induction 1 as [g Hg|g f rest fs Hg Hf Hn Hr F IH]; constructor; auto.
  - eapply Forall_impl; [|exact Hg]. intros c. apply H.
  - eapply Forall_impl; [|exact Hg]. intros c. apply H.
  - eapply Forall_impl; [|exact Hn]. intros c. cbn. now rewrite H.
  - destruct Hr as [->|(c & t & -> & Hc)]; [now left|]. right. exists c, t. split; [reflexivity|]. now apply H.
Qed.
Lemma newline : text (String (Ascii.ascii_of_nat 10) "") = [10]. Proof. reflexivity. Qed.
Lemma reply_parsed raw : has_ifname raw = false -> (forall t, raw <> 60 :: t) -> lenN raw < 2 ^ 31 ->
  exists m fs, parse false raw = Ok (inl m) /\ w_type m = WReply /\ split_of (fun c => c = 10) raw fs /\ w_argv m = map cstr fs /\ w_iter m = 0 /\ w_raw m = Some (cstr raw).
Proof.
  intros I H L. unfold parse, split_ifname. rewrite I. assert (E : match raw with c :: _ => c =? 60 | [] => false end = false).
  { destruct raw as [|c t]; [reflexivity|]. destruct (N.eqb_spec c 60) as [->|]; [|reflexivity]. exfalso. eapply H. reflexivity. }
  rewrite E. cbn [orb]. rewrite newline. destruct (strsplit_fields_exist raw [10]) as (fs & F). destruct (strsplit_fields raw [10] fs F) as (Hs & _).
  assert (Lf : lenN fs <= lenN raw).
  { clear -F. induction F as [g Hg|g f rest fs Hg Hf Hn Hr F IH]; [rewrite lenN_nil; lia|]. rewrite lenN_cons, !lenN_app. destruct f; [congruence|]. rewrite lenN_cons. lia. }
  rewrite Hs by lia.
  assert (P : parse_args new_wreply fs = (w_more new_wreply (map cstr fs), None)).
  { unfold parse_args. apply append_loop_texts; [|reflexivity]. clear. induction fs; constructor; [reflexivity|exact IHfs]. }
  rewrite P. cbn [or_err]. eexists. exists fs. split; [reflexivity|]. cbn. repeat split; auto.
  eapply split_of_iff; [|exact F]. intros c. cbn. split; [intros [<-|[]]; reflexivity|intros ->; now left].
Qed.

(** ** Any datagram *)
Lemma dc_app a b : digit_count (a ++ b) = digit_count a + digit_count b.
Proof. unfold digit_count. now rewrite filter_app, lenN_app. Qed.
Lemma dc_cons c s : digit_count (c :: s) = (if is_digit c then 1 else 0) + digit_count s.
Proof. unfold digit_count, is_digit. cbn [filter]. destruct ((48 <=? c) && (c <=? 57)); [rewrite lenN_cons|]; lia. Qed.
Lemma dc_nil : digit_count [] = 0. Proof. reflexivity. Qed.
Lemma digits_bound s : forall acc, digits s acc < (acc + 1) * 10 ^ digit_count s.
Proof.
  induction s as [|c s IH]; intros acc; cbn [digits].
  - rewrite dc_nil, N.pow_0_r. lia.
  - rewrite dc_cons. destruct (is_digit c) eqn:E.
    + specialize (IH (acc * 10 + (c - 48))). assert (H : c - 48 <= 9) by (unfold is_digit in E; lia). rewrite N.add_1_l, N.pow_succ_r'.
      eapply N.lt_le_trans; [exact IH|]. rewrite N.mul_assoc. apply N.mul_le_mono_r. lia.
    + rewrite N.add_0_l. assert (H : 10 ^ digit_count s <> 0) by (apply N.pow_nonzero; lia). nia.
Qed.
Lemma dc_skip s : digit_count (skip_space s) = digit_count s.
Proof.
  induction s as [|c s IH]; [reflexivity|]. cbn [skip_space]. destruct (space c) eqn:E; [|reflexivity]. rewrite IH, dc_cons. assert (H : is_digit c = false) by (unfold space, is_digit in *; lia). now rewrite H.
Qed.
Lemma scan_bound s neg n : scan s = Some (neg, n) -> n < 10 ^ digit_count s.
Proof.
  unfold scan. rewrite <- (dc_skip s). set (r := skip_space s). clearbody r. clear s. set (pr := match r with [] => _ | c :: t => _ end).
  assert (H : digit_count (snd pr) <= digit_count r).
  { unfold pr. destruct r as [|c t]; [apply N.le_refl|]. destruct (c =? 45); [|destruct (c =? 43)]; cbn [snd]; rewrite ?dc_cons; lia. }
  clearbody pr. destruct pr as [b u]. cbn [snd] in H. destruct u as [|c u]; [discriminate|]. destruct (is_digit c); [|discriminate]. intros E. assert (En : n = digits (c :: u) 0) by congruence. clear E. rewrite En.
  pose proof (digits_bound (c :: u) 0) as B. assert (M : 10 ^ digit_count (c :: u) <= 10 ^ digit_count r) by (apply N.pow_le_mono_r; lia). lia.
Qed.
Lemma pow10_9 k : k < 10 -> 10 ^ k <= 1000000000.
Proof. intros H. change 1000000000 with (10 ^ 9). apply N.pow_le_mono_r; lia. Qed.
Lemma atoi_defined s : digit_count s < 10 -> exists z, atoi s = Ok z.
Proof.
  intros H. unfold atoi. destruct (scan s) as [[neg n]|] eqn:E; [|eauto]. apply scan_bound in E. pose proof (pow10_9 _ H).
  assert (I : int_ok (signed (neg, n)) = true); [|rewrite I; eauto]. unfold int_ok, signed. cbn [fst snd]. change (2 ^ 31)%Z with 2147483648%Z. destruct neg; lia.
Qed.
Lemma dc_unescape c : is_digit (unescape_char c) = false.
Proof. unfold unescape_char. repeat (destruct (_ =? _); [reflexivity|]). reflexivity. Qed.
Lemma dc_dec_char esc q c : digit_count (snd (dec_char esc q c)) <= digit_count [c].
Proof.
  unfold dec_char. destruct esc; cbn [snd].
  - destruct (negb (unescape_char c =? 0)); [rewrite dc_cons, dc_unescape, dc_nil; lia|]. destruct (c =? 0); [rewrite dc_nil; lia|]. rewrite (dc_cons 92). change (is_digit 92) with false. cbv iota. lia.
  - repeat match goal with |- context [if ?b then _ else _] => destruct b end; cbn [snd]; rewrite ?dc_nil; lia.
Qed.
Lemma dc_decode s : forall esc q, digit_count (decode esc q s) <= digit_count s.
Proof.
  induction s as [|c s IH]; intros esc q; cbn [decode].
  - destruct esc; apply N.leb_le; reflexivity.
  - pose proof (dc_dec_char esc q c) as H. destruct (dec_char esc q c) as [[e' q'] o]. cbn [snd] in H. rewrite dc_app, (dc_cons c s). rewrite dc_cons, dc_nil in H. specialize (IH e' q'). lia.
Qed.
Lemma dc_tok s : forall esc q cur t, In t (tok_loop s esc q cur) -> digit_count t <= digit_count cur + digit_count s.
Proof.
  induction s as [|c s IH]; intros esc q cur t; cbn [tok_loop].
  - destruct cur as [|x cur]; [contradiction|]. intros [<-|[]]. rewrite dc_nil, N.add_0_r. apply dc_decode.
  - assert (S : forall e' q', In t (tok_loop s e' q' (cur ++ [c])) -> digit_count t <= digit_count cur + digit_count (c :: s)).
    { intros e' q' I. apply IH in I. rewrite dc_app in I. rewrite (dc_cons c s). rewrite dc_cons, dc_nil in I. lia. }
    repeat match goal with |- In _ (if ?b then _ else _) -> _ => destruct b; [try (now apply S)|try (now apply S)] | |- In _ (match ?b with [] => _ | _ => _ end) -> _ => destruct b end.
    + intros I. apply IH in I. rewrite dc_nil in *. rewrite dc_cons. lia.
    + intros [<-|I]; [pose proof (dc_decode (n :: cur) false 0); lia|]. apply IH in I. rewrite dc_nil in I. rewrite (dc_cons c s). lia.
Qed.
Lemma dc_drop n s : digit_count (dropN n s) <= digit_count s.
Proof. unfold dropN. rewrite <- (firstn_skipn (N.to_nat n) s) at 2. rewrite dc_app. lia. Qed.
Lemma break_prefix c s : exists r, s = fst (break_at c s) ++ r.
Proof.
  induction s as [|x s (r & IH)]; [exists []; reflexivity|]. cbn [break_at]. destruct (x =? c); [exists (x :: s); reflexivity|]. destruct (break_at c s) as [a o]. cbn [fst] in *. exists r. cbn. now f_equal.
Qed.
Lemma dc_break c s : digit_count (fst (break_at c s)) <= digit_count s.
Proof. destruct (break_prefix c s) as (r & E). rewrite E at 2. rewrite dc_app. lia. Qed.
Lemma dc_ifname raw : digit_count (snd (split_ifname raw)) <= digit_count raw.
Proof.
  unfold split_ifname. destruct (has_ifname raw); cbn [snd]; [|lia]. set (n := 7 + lenN _). clearbody n. pose proof (dc_drop n raw) as D. destruct (dropN n raw) as [|c t]; [exact D|]. destruct (c =? 0); [exact D|]. rewrite dc_cons in D. lia.
Qed.
(** A text that starts with [<] has a token. *)
Lemma tok_cur s : forall esc q cur, cur <> [] -> tok_loop s esc q cur <> [].
Proof.
  induction s as [|c s IH]; intros esc q cur N0; cbn [tok_loop].
  - destruct cur; [congruence|discriminate].
  - assert (S : forall e' q', tok_loop s e' q' (cur ++ [c]) <> []) by (intros; apply IH; destruct cur; discriminate).
    repeat match goal with |- (if ?b then _ else _) <> _ => destruct b; auto end. destruct cur; [congruence|discriminate].
Qed.
Lemma parse_defined server raw : server = true \/ digit_count raw < 10 -> exists r, parse server raw = Ok r.
Proof.
  intros H. unfold parse. pose proof (dc_ifname raw) as D. destruct (split_ifname raw) as [ifname body]. cbn [snd] in D. destruct server; cbn [orb].
  - destruct (tokenize body) as [|[|c n] args]; eauto. cbn [new_wrequest]. eauto.
  - destruct H as [H|H]; [discriminate|]. destruct body as [|c body].
    + destruct (strsplit _ _) as [[args k]|]; eauto.
    + destruct (N.eqb_spec c 60) as [->|Hc].
      * assert (T : tokenize (60 :: body) <> []). { unfold tokenize. cbn [tok_loop]. change (60 =? 92) with false. change (60 =? 34) with false. change (60 =? 39) with false. change (60 =? 32) with false. change (0 =? 0) with true. cbv iota. cbn [negb]. cbv iota. apply tok_cur. discriminate. }
        pose proof (dc_tok (60 :: body) false 0 []) as DT. fold (tokenize (60 :: body)) in DT. destruct (tokenize (60 :: body)) as [|a args]; [congruence|]. specialize (DT a (or_introl eq_refl)). rewrite dc_nil in DT.
        pose proof (dc_break 62 a) as DB. destruct (break_at 62 a) as [before [[|x name]|]]; eauto. cbn [fst] in DB. destruct name as [|y name]; [eauto|].
        destruct (atoi_defined (dropN 1 before)) as (z & ->). { pose proof (dc_drop 1 before). lia. } cbn [bind new_event]. eauto.
      * destruct (strsplit _ _) as [[args k]|]; eauto.
Qed.

(** ** The interface prefix *)
Lemma cstr_app a b : ~ In 0 a -> cstr (a ++ b) = a ++ cstr b.
Proof.
  induction a as [|c a IH]; intros H; [reflexivity|]. cbn [app cstr]. destruct (N.eqb_spec c 0) as [->|]; [exfalso; apply H; now left|]. f_equal. apply IH. intros I. apply H. now right.
Qed.
Lemma word_app a b : ~ In 32 a -> word (a ++ 32 :: b) = a.
Proof.
  induction a as [|c a IH]; intros H; [reflexivity|]. cbn [app word]. destruct (N.eqb_spec c 32) as [->|]; [exfalso; apply H; now left|]. f_equal. apply IH. intros I. apply H. now right.
Qed.
Lemma ifname_split n body : ~ In 0 n -> ~ In 32 n -> split_ifname (text "IFNAME=" ++ n ++ 32 :: body) = (Some n, body).
Proof.
  intros Z S. unfold split_ifname. assert (T : ~ In 0 (text "IFNAME=")) by (vm_compute; intuition discriminate).
  assert (C : cstr (text "IFNAME=" ++ n ++ 32 :: body) = text "IFNAME=" ++ n ++ 32 :: cstr body) by (rewrite cstr_app, cstr_app by assumption; reflexivity).
  unfold has_ifname. rewrite C. change (takeN 7 (text "IFNAME=" ++ n ++ 32 :: cstr body)) with (text "IFNAME="). assert (E : str_eq (text "IFNAME=") (text "IFNAME=") = true) by reflexivity. rewrite E.
  change (dropN 7 (text "IFNAME=" ++ n ++ 32 :: cstr body)) with (n ++ 32 :: cstr body). rewrite word_app by exact S.
  replace (dropN (7 + lenN n) (text "IFNAME=" ++ n ++ 32 :: body)) with (32 :: body); [reflexivity|].
  rewrite app_assoc. replace (7 + lenN n) with (lenN (text "IFNAME=" ++ n)) by (rewrite lenN_app; reflexivity). unfold dropN, lenN. rewrite Nnat.Nat2N.id, skipn_app, skipn_all, Nat.sub_diag. reflexivity.
Qed.
Lemma ifname_stripped server n body m : ~ In 0 n -> ~ In 32 n -> has_ifname body = false -> parse server body = Ok (inl m) ->
  parse server (text "IFNAME=" ++ n ++ 32 :: body) = Ok (inl (set_source m (cstr (text "IFNAME=" ++ n ++ 32 :: body)) n)).
Proof.
  intros Z S H. unfold parse. rewrite ifname_split by assumption. unfold split_ifname at 1. rewrite H. set (raw := text "IFNAME=" ++ n ++ 32 :: body). clearbody raw.
  assert (D : forall r, Ok (match r with inl m0 => inl (finish m0 body (lenN body) None) | inr e => inr e end) = Ok (inl m) ->
     Ok (match r with inl m0 => inl (finish m0 raw (lenN body) (Some n)) | inr e => inr e end) = Ok (inl (set_source m (cstr raw) n) : wmsg + err)).
  { intros [m0|e]; [intros [= <-]; reflexivity|discriminate]. }
  pose proof (D (inl (wnew WUnknown (Some []) 0))) as DU. cbv beta iota in DU.
  destruct (server || _).
  - destruct server.
    + destruct (tokenize body) as [|[|c nm] args]; try exact DU. cbn [new_wrequest]. apply D.
    + destruct (tokenize body) as [|a args]; [discriminate|]. destruct (break_at 62 a) as [before [[|x name]|]]; try exact DU. destruct name as [|y name]; [exact DU|]. destruct (atoi _); cbn [bind]; [|discriminate]. cbn [new_event]. apply D.
  - destruct (strsplit _ _) as [[args k]|]; [apply D|discriminate].
Qed.

(** ** Dictionaries *)
Lemma break_at_some c s a r : break_at c s = (a, Some r) -> exists v, r = c :: v /\ s = a ++ c :: v /\ ~ In c a.
Proof.
  revert a r. induction s as [|x s IH]; intros a r; cbn [break_at]; [discriminate|]. destruct (N.eqb_spec x c) as [->|Hx].
  - intros [= <- <-]. exists s. auto.
  - destruct (break_at c s) as [b o] eqn:E. intros [= <- ->]. destruct (IH b r eq_refl) as (v & -> & -> & H). exists v. split; [reflexivity|]. split; [reflexivity|]. intros [I|I]; auto.
Qed.
Lemma break_at_none c s a : break_at c s = (a, None) -> ~ In c s.
Proof.
  revert a. induction s as [|x s IH]; intros a; cbn [break_at]; [auto|]. destruct (N.eqb_spec x c) as [->|Hx]; [discriminate|].
  destruct (break_at c s) as [b o] eqn:E. intros [= <- ->]. specialize (IH b eq_refl). intros [I|I]; auto.
Qed.
(** Entry by entry. *)
Lemma dict_entry e name : ~ In 61 name ->
  match break_at 61 e with
  | (k, Some (_ :: v)) => if str_eq k name then e = name ++ [61] ++ v else ~ is_entry name e
  | _ => ~ is_entry name e
  end.
Proof.
  intros Hn. destruct (break_at 61 e) as [k [r|]] eqn:E.
  - apply break_at_some in E as (v & -> & -> & Hk). destruct (str_eq k name) eqn:K; [apply str_eq_spec in K; now subst|].
    intros (w & Ew). assert (X : break_at 61 (k ++ 61 :: v) = break_at 61 (name ++ 61 :: w)) by (cbn [app] in Ew; now rewrite Ew). rewrite !break_at_in in X by assumption. injection X as -> _.
    assert (Y : str_eq name name = true) by now apply str_eq_spec. congruence.
  - intros (w & ->). apply break_at_none in E. apply E. apply in_app_iff. right. now left.
Qed.
Lemma dict_found l name : ~ In 61 name ->
  (exists l1 v l2, l = l1 ++ (name ++ [61] ++ v) :: l2 /\ Forall (fun e => ~ is_entry name e) l1
     /\ forall t, dict_loop l name t = match t with TString => Ok (inl (VString v)) | _ => parse_num t v end)
  \/ (Forall (fun e => ~ is_entry name e) l /\ forall t, dict_loop l name t = Ok (inr ENOENT)).
Proof.
  intros Hn. induction l as [|e l IH]; [right; split; [constructor|reflexivity]|]. pose proof (dict_entry e name Hn) as D. cbn [dict_loop].
  assert (Skip : ~ is_entry name e -> (forall t, dict_loop (e :: l) name t = dict_loop l name t) ->
    (exists l1 v l2, e :: l = l1 ++ (name ++ [61] ++ v) :: l2 /\ Forall (fun e => ~ is_entry name e) l1
       /\ forall t, dict_loop (e :: l) name t = match t with TString => Ok (inl (VString v)) | _ => parse_num t v end)
    \/ (Forall (fun e => ~ is_entry name e) (e :: l) /\ forall t, dict_loop (e :: l) name t = Ok (inr ENOENT))).
  { intros N1 E1. destruct IH as [(l1 & v & l2 & -> & F & Q)|(F & Q)].
    - left. exists (e :: l1), v, l2. split; [reflexivity|]. split; [now constructor|]. intros t. now rewrite E1, Q.
    - right. split; [now constructor|]. intros t. now rewrite E1, Q. }
  cbn [dict_loop] in Skip. destruct (break_at 61 e) as [k [[|x v]|]] eqn:E; [exfalso| |now apply Skip].
  - apply break_at_some in E as (v & ? & _). discriminate.
  - destruct (str_eq k name) eqn:K; [|now apply Skip]. left. exists [], v, l. cbn [app] in *. split; [now rewrite <- D|]. split; [constructor|reflexivity].
Qed.
Lemma dict_read_first m name : ~ In 61 name ->
  (exists l1 v l2, dropN (first_arg m) (w_argv m) = l1 ++ (name ++ [61] ++ v) :: l2 /\ Forall (fun e => ~ is_entry name e) l1
     /\ dict_read m name TString = Ok (inl (VString v))
     /\ dict_read m name TInt32 = parse_num TInt32 v /\ dict_read m name TUint32 = parse_num TUint32 v)
  \/ (Forall (fun e => ~ is_entry name e) (dropN (first_arg m) (w_argv m)) /\ forall t, dict_read m name t = Ok (inr ENOENT)).
Proof.
  intros Hn. unfold dict_read. destruct (dict_found (dropN (first_arg m) (w_argv m)) name Hn) as [(l1 & v & l2 & E & F & Q)|H]; [left|right; exact H].
  exists l1, v, l2. split; [exact E|]. split; [exact F|]. rewrite !Q. auto.
Qed.

(** ** Sealed messages *)
Lemma wsealed_fixed m : w_sealed m = true -> (forall a, wappend_basic m a = (m, Some EBUSY)) /\ (forall l, wappend m l = (m, Some EBUSY)) /\ wseal m = (m, None).
Proof. intros S. unfold wappend_basic, wappend, wseal. rewrite S. auto. Qed.

(** ** Numbers in texts *)
Lemma digits_decimal ds : forall acc r, Forall numeral ds -> (r = [] \/ exists c t, r = c :: t /\ ~ numeral c) ->
  digits (ds ++ r) acc = fold_left (fun a c => 10 * a + (c - 48)) ds acc.
Proof.
  induction ds as [|d ds IH]; intros acc r F R; cbn [app digits fold_left].
  - destruct R as [->|(c & t & -> & R)]; [reflexivity|]. cbn [digits]. assert (E : is_digit c = false) by (unfold numeral, is_digit in *; lia). now rewrite E.
  - inversion F as [|? ? D F']; subst. assert (E : is_digit d = true) by (unfold numeral, is_digit in *; lia). rewrite E, IH by assumption. f_equal. lia.
Qed.
Lemma scan_number s neg n : starts_with_number s neg n -> scan s = Some (neg, n).
Proof.
  intros (ws & sign & ds & rest & -> & W & S & N0 & D & V & R). pose proof (digits_decimal ds 0 rest D R) as E. fold (decimal ds) in E. rewrite V in E.
  destruct ds as [|d ds]; [congruence|]. inversion D as [|? ? D1 D2]; subst. assert (Ed : is_digit d = true) by (unfold numeral, is_digit in *; lia).
  assert (H : skip_space (ws ++ sign ++ (d :: ds) ++ rest) = sign ++ (d :: ds) ++ rest).
  { clear - W S Ed. induction W as [|w ws H W IH]; cbn [app skip_space].
    - destruct S as [[= <- <-]|[[= <- <-]|[[= <- <-]|[]]]]; try reflexivity. cbn [app skip_space]. assert (E : space d = false) by (unfold space, is_digit in *; lia). now rewrite E.
    - assert (E : space w = true) by (unfold white, space in *; lia). now rewrite E. }
  unfold scan. rewrite H. clear H. cbn [app] in *. destruct S as [[= <- <-]|[[= <- <-]|[[= <- <-]|[]]]]; cbn [app].
  - assert (E1 : (d =? 45) = false) by (unfold is_digit in *; lia). assert (E2 : (d =? 43) = false) by (unfold is_digit in *; lia). rewrite E1, E2, Ed, E. reflexivity.
  - change (43 =? 45) with false. change (43 =? 43) with true. cbv iota. rewrite Ed, E. reflexivity.
  - change (45 =? 45) with true. cbv iota. rewrite Ed, E. reflexivity.
Qed.
Lemma skip_white s : exists ws, s = ws ++ skip_space s /\ Forall white ws.
Proof.
  induction s as [|c s (ws & E & F)]; [exists []; split; [reflexivity|constructor]|]. cbn [skip_space]. destruct (space c) eqn:Ec.
  - exists (c :: ws). split; [cbn [app]; now f_equal|]. constructor; [unfold space, white in *; lia|exact F].
  - exists []. split; [reflexivity|constructor].
Qed.
Lemma numerals s : exists ds r, s = ds ++ r /\ Forall numeral ds /\ (r = [] \/ exists c t, r = c :: t /\ ~ numeral c).
Proof.
  induction s as [|c s (ds & r & E & F & R)]; [exists [], []; repeat split; [constructor|now left]|]. destruct (is_digit c) eqn:Ec.
  - exists (c :: ds), r. split; [cbn [app]; now f_equal|]. split; [|exact R]. constructor; [unfold is_digit, numeral in *; lia|exact F].
  - exists [], (c :: s). repeat split; [constructor|right]. exists c, s. split; [reflexivity|]. unfold is_digit, numeral in *. lia.
Qed.
Lemma scan_only s neg n : scan s = Some (neg, n) -> starts_with_number s neg n.
Proof.
  unfold scan. destruct (skip_white s) as (ws & E & W). set (r := skip_space s) in *. clearbody r. subst s.
  set (pr := match r with [] => _ | c :: t => _ end).
  assert (P : exists sign, r = sign ++ snd pr /\ In (sign, fst pr) [([], false); ([43], false); ([45], true)]).
  { unfold pr. destruct r as [|c t]; [exists []; cbn; auto|].
    destruct (N.eqb_spec c 45) as [->|]; [exists [45]; cbn; auto|]. destruct (N.eqb_spec c 43) as [->|]; [exists [43]; cbn; auto|]. exists []. cbn. auto. }
  clearbody pr. destruct pr as [b u]. cbn [fst snd] in P. destruct P as (sign & -> & I). destruct u as [|c u]; [discriminate|]. destruct (is_digit c) eqn:Ec; [|discriminate].
  destruct (numerals (c :: u)) as (ds & rest & E & F & R). intros H. assert (Hn : b = neg /\ n = digits (c :: u) 0) by (split; congruence). clear H. destruct Hn as (-> & ->).
  exists ws, sign, ds, rest. rewrite <- E. split; [reflexivity|]. split; [exact W|]. split; [exact I|]. split.
  { intros ->. cbn [app] in E. subst rest. destruct R as [R|(c' & t & [= <- <-] & R)]; [discriminate|]. unfold is_digit, numeral in *. lia. }
  split; [exact F|]. split; [|exact R]. rewrite E. symmetry. now apply digits_decimal.
Qed.
Lemma numbers_read s neg n : starts_with_number s neg n ->
  ((- 2 ^ 31 <= with_sign neg n < 2 ^ 31)%Z -> parse_num TInt32 s = Ok (inl (VInt32 (with_sign neg n))))
  /\ (~ (- 2 ^ 31 <= with_sign neg n < 2 ^ 31)%Z -> parse_num TInt32 s = UB)
  /\ (n < 2 ^ 32 -> parse_num TUint32 s = Ok (inl (VUint32 (Z.to_N (with_sign neg n mod 2 ^ 32)))))
  /\ (2 ^ 32 <= n -> parse_num TUint32 s = UB).
Proof.
  intros H. apply scan_number in H. unfold parse_num, scan_i32, scan_u32. rewrite H. unfold int_ok, signed. cbn [fst snd]. change (if neg then (- Z.of_N n)%Z else Z.of_N n) with (with_sign neg n).
  split; [|split; [|split]].
  - intros B. destruct (Z.leb_spec (- 2 ^ 31) (with_sign neg n)); [|lia]. destruct (Z.ltb_spec (with_sign neg n) (2 ^ 31)); [reflexivity|lia].
  - intros B. destruct (Z.leb_spec (- 2 ^ 31) (with_sign neg n)), (Z.ltb_spec (with_sign neg n) (2 ^ 31)); try reflexivity; lia.
  - intros B. destruct (N.leb_spec (2 ^ 32) n); [lia|]. cbn [bind]. repeat f_equal. unfold with_sign.
    assert (E1 : 2 ^ 32 = 4294967296) by reflexivity. assert (E2 : (2 ^ 32 = 4294967296)%Z) by reflexivity. rewrite E1, E2 in *. destruct neg.
    + destruct (N.eq_dec n 0) as [->|]; [reflexivity|]. rewrite N.mod_small by lia. rewrite <- (Z.mod_unique (- Z.of_N n) 4294967296 (-1) (4294967296 - Z.of_N n)) by lia. lia.
    + rewrite Z.mod_small by lia. now rewrite N2Z.id.
  - intros B. destruct (N.leb_spec (2 ^ 32) n); [reflexivity|lia].
Qed.
Lemma no_number s t : (forall neg n, ~ starts_with_number s neg n) -> parse_num t s = Ok (inr EINVAL).
Proof.
  intros H. unfold parse_num, scan_i32, scan_u32. destruct (scan s) as [[neg n]|] eqn:E; [|destruct t; reflexivity]. exfalso. apply (H neg n). now apply scan_only.
Qed.

(** ** The argument vector *)
Lemma argv_nth m name args pos : w_name m = Some name -> w_argv m = name :: args -> pos < 2 ^ 32 -> lenN args < 2 ^ 32 ->
  (forall a, nth_error args (N.to_nat pos) = Some a -> argv_read m pos TString = Ok (inl (VString a))
     /\ argv_read m pos TInt32 = parse_num TInt32 a /\ argv_read m pos TUint32 = parse_num TUint32 a)
  /\ (nth_error args (N.to_nat pos) = None -> forall t, argv_read m pos t = Ok (inr EINVAL)).
Proof.
  intros Hn Ha Hp Hl. unfold argv_read. rewrite Hn, Ha. assert (E32 : 2 ^ 32 = 4294967296) by reflexivity. rewrite E32 in *.
  assert (Hlen : lenN args = N.of_nat (length args)) by reflexivity.
  destruct (N.eq_dec pos 4294967295) as [->|Np].
  - change ((4294967295 + 1) mod 4294967296 =? 0) with true. cbv iota. split; [|reflexivity]. intros a H. assert (L : (N.to_nat 4294967295 < length args)%nat) by (apply nth_error_Some; congruence). lia.
  - rewrite N.mod_small by lia. destruct (N.eqb_spec (pos + 1) 0); [lia|]. unfold nthN. replace (N.to_nat (pos + 1)) with (Datatypes.S (N.to_nat pos)) by lia. cbn [nth_error].
    split; [intros a ->; auto|intros ->; reflexivity].
Qed.
Lemma argv_nth_unnamed m pos : w_name m = None ->
  (forall a, nth_error (w_argv m) (N.to_nat pos) = Some a -> argv_read m pos TString = Ok (inl (VString a))
     /\ argv_read m pos TInt32 = parse_num TInt32 a /\ argv_read m pos TUint32 = parse_num TUint32 a)
  /\ (nth_error (w_argv m) (N.to_nat pos) = None -> forall t, argv_read m pos t = Ok (inr EINVAL)).
Proof. intros Hn. unfold argv_read. rewrite Hn. unfold nthN. split; [intros a ->; auto|intros ->; reflexivity]. Qed.

(** ** Good replies *)
Lemma append_loop_type l : forall m m' e, wappend_loop m l = (m', e) -> w_type m' = w_type m.
Proof.
  induction l as [|a l IH]; intros m m' e; cbn [wappend_loop]; [now intros [= <- <-]|]. unfold wappend_basic. destruct (w_sealed m); [now intros [= <- <-]|].
  destruct (arg_text a); [|now intros [= <- <-]]. intros H. rewrite (IH _ _ _ H). reflexivity.
Qed.
Lemma parsed_kind server raw m : parse server raw = Ok (inl m) -> w_raw m = Some (cstr raw)
  /\ (w_type m = WReply <-> server = false /\ (forall t, snd (split_ifname raw) <> 60 :: t)).
Proof.
  unfold parse. destruct (split_ifname raw) as [ifname body]. cbn [snd].
  set (ev := match body with [] => false | c :: _ => c =? 60 end).
  assert (Hev : ev = false <-> forall t, body <> 60 :: t).
  { unfold ev. destruct body as [|c b]; [split; [discriminate|reflexivity]|]. destruct (N.eqb_spec c 60) as [->|C]; split; try congruence. intros H. exfalso. now apply (H b). }
  assert (Args : forall x l m1, or_err (parse_args x l) = inl m1 -> w_type m1 = w_type x).
  { intros x l m1. unfold parse_args, or_err. destruct (wappend_loop x _) as [m2 [e|]] eqn:E; [discriminate|]. intros [= <-]. now apply append_loop_type in E. }
  assert (Fin : forall m1 m2, Ok (inl (finish m1 raw (lenN body) ifname)) = Ok (inl m2 : wmsg + err) -> w_raw m2 = Some (cstr raw) /\ w_type m2 = w_type m1).
  { intros m1 m2 [= <-]. split; reflexivity. }
  rewrite <- Hev. destruct server; cbn [orb].
  - assert (G : forall m1, w_type m1 <> WReply -> Ok (inl (finish m1 raw (lenN body) ifname)) = Ok (inl m : wmsg + err) -> w_raw m = Some (cstr raw) /\ (w_type m = WReply <-> true = false /\ ev = false)).
    { intros m1 H1 H2. apply Fin in H2 as (H2 & H3). split; [exact H2|]. rewrite H3. split; [congruence|intros [? _]; discriminate]. }
    destruct (tokenize body) as [|[|c n] args]; [apply G; discriminate|apply G; discriminate|]. cbn [new_wrequest].
    destruct (or_err (parse_args _ args)) as [m1|e] eqn:E; [|discriminate]. apply Args in E. apply G. rewrite E. discriminate.
  - destruct ev eqn:Eev.
    + assert (G : forall m1, w_type m1 <> WReply -> Ok (inl (finish m1 raw (lenN body) ifname)) = Ok (inl m : wmsg + err) -> w_raw m = Some (cstr raw) /\ (w_type m = WReply <-> false = false /\ true = false)).
      { intros m1 H1 H2. apply Fin in H2 as (H2 & H3). split; [exact H2|]. rewrite H3. split; [congruence|intros [_ ?]; discriminate]. }
      destruct (tokenize body) as [|a args]; [discriminate|]. destruct (break_at 62 a) as [before [[|x name]|]]; [apply G; discriminate| |apply G; discriminate].
      destruct name as [|c n]; [apply G; discriminate|]. destruct (atoi _) as [lv|]; [|discriminate]. cbn [bind new_event].
      destruct (or_err (parse_args _ args)) as [m1|e] eqn:E; [|discriminate]. apply Args in E. apply G. rewrite E. discriminate.
    + destruct (strsplit body _) as [[args n]|]; [|discriminate]. destruct (or_err (parse_args _ args)) as [m1|e] eqn:E; [|discriminate]. apply Args in E.
      intros H. apply Fin in H as (H1 & H2). split; [exact H1|]. rewrite H2, E. cbn. split; auto.
Qed.
Lemma received_verdict raw m : parse false raw = Ok (inl m) -> (is_ok m = Ok true <-> cstr raw = text "OK" ++ [10]) /\ (is_fail m = Ok true <-> cstr raw = text "FAIL" ++ [10]).
Proof.
  intros H. apply parsed_kind in H as (R & T).
  assert (K : forall s, (forall t, s <> 60 :: t) -> takeN 7 s <> text "IFNAME=" -> s <> [] -> raw_is m s = Ok true <-> cstr raw = s).
  { intros s S1 S2 S3. unfold raw_is. rewrite R. destruct (w_type m) eqn:Et.
    1-3: split; [discriminate|]; intros E; exfalso; assert (Y : ~ (false = false /\ (forall t, snd (split_ifname raw) <> 60 :: t))) by (rewrite <- T; discriminate); apply Y; split; [reflexivity|];
      intros t; unfold split_ifname, has_ifname; rewrite E; (destruct (str_eq (takeN 7 s) (text "IFNAME=")) eqn:Q; [apply str_eq_spec in Q; congruence|]); cbn [snd]; intros ->; change (cstr (60 :: t)) with (60 :: cstr t) in E; apply (S1 (cstr t)); symmetry; exact E.
    rewrite <- str_eq_spec. split; congruence. }
  split; apply K; try discriminate.
Qed.
Lemma verdict_request m s : w_type m <> WReply -> raw_is m s = Ok false.
Proof. unfold raw_is. destruct (w_type m); congruence. Qed.
