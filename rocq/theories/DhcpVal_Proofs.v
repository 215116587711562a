From Verif Require Import Base Text Text_Proofs DhcpVal_Model DhcpVal_Spec.

Definition bytes (l : list byte) : Prop := Forall (fun b => b < 256) l.

(** ** Lengths of numbers *)
Lemma dec_loop_len (k : nat) : forall fuel n acc, n < 10 ^ N.of_nat (S k) -> lenN (dec_loop fuel n acc) <= N.of_nat (S k) + lenN acc.
Proof.
  induction k as [|k IH]; intros [|fuel] n acc H; cbn [dec_loop]; try lia.
  - replace (n <? 10) with true by (change (10 ^ N.of_nat 1) with 10 in H; lia). len. lia.
  - destruct (n <? 10); [len; lia|].
    specialize (IH fuel (n / 10) ((48 + n mod 10) :: acc)). len.
    assert (n / 10 < 10 ^ N.of_nat (S k)). { apply N.div_lt_upper_bound; [lia|]. rewrite <- N.pow_succ_r'. replace (N.succ (N.of_nat (S k))) with (N.of_nat (S (S k))) by lia. exact H. }
    specialize (IH H0). lia.
Qed.
Lemma dec_len k n : n < 10 ^ N.of_nat (S k) -> lenN (dec n) <= N.of_nat (S k).
Proof. intros H. unfold dec. assert (X := dec_loop_len k (S (N.size_nat n)) n [] H). len. lia. Qed.
Lemma dec3 n : n < 256 -> lenN (dec n) <= 3.
Proof. intros. apply (dec_len 2). change (10 ^ N.of_nat 3) with 1000. lia. Qed.
Lemma dec5 n : n < 65536 -> lenN (dec n) <= 5.
Proof. intros. apply (dec_len 4). change (10 ^ N.of_nat 5) with 100000. lia. Qed.
Lemma dec10 n : n < 4294967296 -> lenN (dec n) <= 10.
Proof. intros. apply (dec_len 9). change (10 ^ N.of_nat 10) with 10000000000. lia. Qed.

(** ** One item *)
Definition one (t : otype) (d : list byte) : option (list byte * list byte) :=
  match t, d with
  | IP, a :: b :: c :: e :: d => Some (dotted a b c e, d)
  | U16, a :: b :: d => Some (dec (a * 256 + b), d)
  | U32, a :: b :: c :: e :: d => Some (dec (((a * 256 + b) * 256 + c) * 256 + e), d)
  | _, _ => None
  end.
Definition items (t : otype) (d : list byte) : list (list byte) :=
  match t with IP => addresses d | U16 => numbers16 d | U32 => numbers32 d | _ => [] end.
Definition numeric (t : otype) : Prop := t = IP \/ t = U16 \/ t = U32.
Lemma items_eq t d : items t d = match one t d with Some (s, d') => s :: items t d' | None => [] end.
Proof. destruct t; try reflexivity; destruct d as [|a [|b [|c [|e d]]]]; reflexivity. Qed.
Lemma one_len t d : numeric t -> match one t d with Some (_, d') => lenN d = olen t + lenN d' | None => lenN d < olen t end.
Proof. intros [->|[->| ->]]; destruct d as [|a [|b [|c [|e d]]]]; cbn [one olen]; len; lia. Qed.
Lemma step_eq t fuel d buf dest s d' : one t d = Some (s, d') ->
  vloop (S fuel) t d buf dest = do r <- print buf dest s;
    let '(buf, dest) := r in if lenN d' =? 0 then Ok (Some buf) else do buf <- mem_write buf dest [Some 32; Some 0]; vloop fuel t d' buf (dest + 1).
Proof.
  destruct t; try discriminate; destruct d as [|a [|b [|c [|e d]]]]; try discriminate; cbn [one]; intros H; inversion H; subst; clear H.
  - cbn [vloop olen]. replace (lenN (a :: b :: c :: e :: d') <? 4) with false by (len; lia). reflexivity.
  - cbn [vloop olen]. replace (lenN [a; b] <? 2) with false by (len; lia). replace (a * 256 + b) with (256 * a + b) by lia. reflexivity.
  - cbn [vloop olen]. replace (lenN [a; b; c] <? 2) with false by (len; lia). replace (a * 256 + b) with (256 * a + b) by lia. reflexivity.
  - cbn [vloop olen]. replace (lenN (a :: b :: c :: e :: d) <? 2) with false by (len; lia). replace (a * 256 + b) with (256 * a + b) by lia. reflexivity.
  - cbn [vloop olen]. replace (lenN (a :: b :: c :: e :: d') <? 4) with false by (len; lia).
    replace (((a * 256 + b) * 256 + c) * 256 + e) with (2 ^ 24 * a + 2 ^ 16 * b + 2 ^ 8 * c + e); [reflexivity|].
    change (2 ^ 24) with 16777216. change (2 ^ 16) with 65536. change (2 ^ 8) with 256. lia.
Qed.
Lemma step_none t fuel d buf dest : numeric t -> one t d = None -> vloop (S fuel) t d buf dest = Ok (Some buf).
Proof. intros T H. assert (L := one_len t d T). rewrite H in L. cbn [vloop]. replace (lenN d <? olen t) with true by lia. reflexivity. Qed.
(** Text of an item: short, without zero bytes and spaces. *)
Definition plain (s : list byte) : Prop := Forall (fun c => c <> 0 /\ c <> 32) s.
Lemma dec_plain n : plain (dec n).
Proof. unfold plain. eapply Forall_impl; [|apply dec_digits]. cbv beta. lia. Qed.
Lemma plain_app a b : plain a -> plain b -> plain (a ++ b).
Proof. intros. apply Forall_app; auto. Qed.
Lemma one_text t d s d' : bytes d -> one t d = Some (s, d') -> lenN s + 2 <= slen t /\ plain s /\ bytes d'.
Proof.
  intros B H. unfold bytes in *. destruct t; try discriminate; destruct d as [|a [|b [|c [|e d]]]]; try discriminate; cbn [one] in H; inversion H; subst; clear H;
    repeat (match goal with H : Forall _ (_ :: _) |- _ => apply Forall_cons_iff in H; destruct H end); cbn [slen].
  - assert (Ha := dec3 a ltac:(assumption)). assert (Hb := dec3 b ltac:(assumption)). assert (Hc := dec3 c ltac:(assumption)). assert (He := dec3 e ltac:(assumption)).
    unfold dotted. len. split; [lia|]. split; [|assumption].
    repeat first [apply plain_app | apply dec_plain | (apply Forall_cons; [lia|]) | apply Forall_nil].
  - assert (X := dec5 (a * 256 + b) ltac:(lia)). split; [lia|]. split; [apply dec_plain|constructor].
  - assert (X := dec5 (a * 256 + b) ltac:(lia)). split; [lia|]. split; [apply dec_plain|repeat constructor; assumption].
  - assert (X := dec5 (a * 256 + b) ltac:(lia)). split; [lia|]. split; [apply dec_plain|repeat constructor; assumption].
  - assert (X := dec10 (((a * 256 + b) * 256 + c) * 256 + e) ltac:(lia)). split; [lia|]. split; [apply dec_plain|assumption].
Qed.

(** ** The loop *)
(** Text of the items, with a space after each but the last, and after the last if bytes are left. *)
Fixpoint joined (l : list (list byte)) (trail : bool) : list byte :=
  match l with
  | [] => []
  | [s] => s ++ (if trail then [32] else [])
  | s :: l => s ++ 32 :: joined l trail
  end.
Definition left_over (t : otype) (d : list byte) : bool := negb (lenN d mod olen t =? 0).
Lemma left_over_step t d s d' : numeric t -> one t d = Some (s, d') -> left_over t d = left_over t d'.
Proof.
  intros T H. assert (L := one_len t d T). rewrite H in L. unfold left_over. rewrite L. f_equal. f_equal.
  assert (olen t <> 0) by (destruct T as [->|[->| ->]]; discriminate). rewrite <- N.add_mod_idemp_l, N.mod_same by assumption. reflexivity.
Qed.
Lemma write_at (w : list byte) (tail new : list cell) : lenN new <= lenN tail ->
  mem_write (map Some w ++ tail) (lenN w) new = Ok (map Some w ++ new ++ dropN (lenN new) tail).
Proof.
  intros H. unfold mem_write. len. replace (lenN w + lenN new <=? lenN w + lenN tail) with true by lia. f_equal.
  rewrite takeN_app, takeN_all by (len; lia). len. replace (lenN w - lenN w) with 0 by lia. rewrite takeN_0, app_nil_r. f_equal. f_equal.
  rewrite dropN_app, dropN_all by (len; lia). len. cbn [app]. f_equal. lia.
Qed.
Lemma vloop_numeric t : numeric t -> forall n d fuel w tail, (length d <= n)%nat -> (length d < fuel)%nat -> bytes d ->
  slen t * (lenN d / olen t) + 1 <= lenN tail -> (one t d = None -> exists tl, tail = Some 0 :: tl) ->
  exists tl, vloop fuel t d (map Some w ++ tail) (lenN w) = Ok (Some (map Some (w ++ joined (items t d) (left_over t d)) ++ Some 0 :: tl)).
Proof.
  intros T n. induction n as [|n IH]; intros d fuel w tail Hn Hf B Ht H0.
  { destruct d; [|cbn [length] in Hn; lia]. destruct fuel; [lia|]. assert (E : one t [] = None) by (destruct t; reflexivity). destruct (H0 E) as [tl ->].
    rewrite step_none by assumption. exists tl. rewrite items_eq, E. cbn [joined]. rewrite app_nil_r. reflexivity. }
  destruct fuel as [|fuel]; [lia|]. assert (L := one_len t d T).
  destruct (one t d) as [[s d']|] eqn:E.
  2:{ destruct (H0 eq_refl) as [tl ->]. rewrite step_none by assumption. exists tl. rewrite items_eq, E. cbn [joined]. rewrite app_nil_r. reflexivity. }
  destruct (one_text t d s d' B E) as (Ls & Ps & B').
  assert (Ho : 2 <= olen t) by (destruct T as [->|[->| ->]]; cbn; lia).
  assert (Hdiv : lenN d / olen t = 1 + lenN d' / olen t). { rewrite L. replace (olen t + lenN d') with (lenN d' + 1 * olen t) by lia. rewrite N.div_add by lia. lia. }
  rewrite Hdiv, N.mul_add_distr_l, N.mul_1_r in Ht.
  remember (slen t * (lenN d' / olen t)) as rest eqn:Er.
  rewrite (step_eq t fuel d _ _ s d' E). unfold print. rewrite write_at by (len; lia). cbn [bind].
  rewrite items_eq, E. rewrite (left_over_step t d s d' T E).
  destruct (lenN d' =? 0) eqn:Ed.
  - assert (d' = []) by (apply lenN_0_nil; lia). subst d'. eexists. f_equal. f_equal.
    assert (X : items t [] = []) by (destruct t; reflexivity). rewrite X. cbn [joined].
    assert (Y : left_over t [] = false). { unfold left_over. change (lenN []) with 0. rewrite N.mod_0_l by lia. reflexivity. } rewrite Y.
    rewrite app_nil_r, !map_app, <- !app_assoc. cbn [map app]. reflexivity.
  - replace (map Some w ++ map Some (s ++ [0]) ++ dropN (lenN (map Some (s ++ [0]))) tail)
      with (map Some (w ++ s) ++ Some 0 :: dropN (lenN (map Some (s ++ [0]))) tail) by (rewrite !map_app, <- !app_assoc; reflexivity).
    replace (lenN w + lenN s) with (lenN (w ++ s)) by (len; lia).
    rewrite write_at by (len; lia). cbn [bind].
    set (tail2 := dropN (lenN [Some 32; Some 0]) (Some 0 :: dropN (lenN (map Some (s ++ [0]))) tail)).
    replace (map Some (w ++ s) ++ [Some 32; Some 0] ++ tail2) with (map Some ((w ++ s) ++ [32]) ++ Some 0 :: tail2) by (rewrite !map_app, <- !app_assoc; reflexivity).
    replace (lenN (w ++ s) + 1) with (lenN ((w ++ s) ++ [32])) by (len; lia).
    destruct (IH d' fuel ((w ++ s) ++ [32]) (Some 0 :: tail2)) as [tl Etl].
    { unfold lenN in L, Ho. lia. } { unfold lenN in L. lia. } { exact B'. } { unfold tail2. len. rewrite <- Er. lia. } { eauto. }
    exists tl. rewrite Etl. f_equal. f_equal. f_equal. f_equal. rewrite <- !app_assoc. f_equal.
    destruct (items t d') as [|s2 l] eqn:Ei.
    + cbn [joined]. assert (Lo : left_over t d' = true).
      { assert (L' := one_len t d' T). rewrite items_eq in Ei. destruct (one t d') as [[? ?]|]; [discriminate|]. unfold left_over. rewrite N.mod_small by exact L'. rewrite Ed. reflexivity. }
      rewrite Lo. reflexivity.
    + reflexivity.
Qed.
Lemma items_plain t : numeric t -> forall n d, (length d <= n)%nat -> bytes d -> Forall plain (items t d).
Proof.
  intros T n. induction n as [|n IH]; intros d Hn B.
  - destruct d; [|cbn [length] in Hn; lia]. destruct t; constructor.
  - rewrite items_eq. destruct (one t d) as [[s d']|] eqn:E; [|constructor]. destruct (one_text t d s d' B E) as (_ & Ps & B'). constructor; [exact Ps|].
    apply IH; [|exact B']. assert (L := one_len t d T). rewrite E in L. assert (2 <= olen t) by (destruct T as [->|[->| ->]]; cbn; lia). unfold lenN in *. lia.
Qed.

(** ** From the text to the values *)
Lemma c_string_ok s tl : Forall (fun c => c <> 0) s -> c_string (map Some s ++ Some 0 :: tl) = Ok s.
Proof. induction 1 as [|c s Hc _ IH]; [reflexivity|]. cbn [map app c_string]. replace (c =? 0) with false by lia. rewrite IH. reflexivity. Qed.
Lemma split_item s r : plain s -> split_spaces (s ++ 32 :: r) = s :: split_spaces r.
Proof. induction 1 as [|c s [_ Hc] _ IH]; [reflexivity|]. cbn [app split_spaces]. replace (c =? 32) with false by lia. rewrite IH. reflexivity. Qed.
Lemma split_last s : plain s -> split_spaces s = [s].
Proof. induction 1 as [|c s [_ Hc] _ IH]; [reflexivity|]. cbn [split_spaces]. replace (c =? 32) with false by lia. rewrite IH. reflexivity. Qed.
Lemma split_joined l trail : l <> [] -> Forall plain l -> split_spaces (joined l trail) = l ++ (if trail then [[]] else []).
Proof.
  intros Hne H. induction H as [|s l Ps Hl IH]; [contradiction|]. destruct l as [|s2 l].
  - cbn [joined app]. destruct trail; [rewrite split_item by exact Ps; reflexivity|]. rewrite app_nil_r, split_last by exact Ps. reflexivity.
  - change (joined (s :: s2 :: l) trail) with (s ++ 32 :: joined (s2 :: l) trail). rewrite split_item by exact Ps. rewrite IH by discriminate. reflexivity.
Qed.
Lemma joined_nonzero l trail : Forall plain l -> Forall (fun c => c <> 0) (joined l trail).
Proof.
  assert (P : forall s, plain s -> Forall (fun c => c <> 0) s) by (intros s H; eapply Forall_impl; [|exact H]; cbv beta; tauto).
  induction 1 as [|s l Ps Hl IH]; [constructor|]. destruct l as [|s2 l].
  - cbn [joined]. apply Forall_app. split; [auto|]. destruct trail; repeat constructor; discriminate.
  - change (joined (s :: s2 :: l) trail) with (s ++ 32 :: joined (s2 :: l) trail). apply Forall_app. split; [auto|]. constructor; [discriminate|exact IH].
Qed.
Lemma numeric_values code t d : numeric t -> fst (code_type code) = t -> bytes d -> olen t <= lenN d ->
  values code d = Ok (Some (items t d ++ (if left_over t d then [[]] else []))).
Proof.
  intros T Ec B L. unfold values, value_string. rewrite Ec.
  assert (Ho : olen t =? 0 = false) by (destruct T as [->|[->| ->]]; reflexivity). rewrite Ho.
  assert (E1 : exists s d', one t d = Some (s, d')). { assert (X := one_len t d T). destruct (one t d) as [[s d']|]; [eauto|lia]. }
  destruct (vloop_numeric t T (length d) d (S (length d)) [] (fresh (slen t * (lenN d / olen t) + 1))) as [tl E]; [lia|lia|exact B|rewrite lenN_fresh; lia| |].
  { destruct E1 as (s & d' & E1). rewrite E1. discriminate. }
  cbn [map app] in E. change (lenN []) with 0 in E. rewrite E. cbn [bind option_map].
  assert (Pl := items_plain t T (length d) d ltac:(lia) B).
  unfold value_list. rewrite c_string_ok by (apply joined_nonzero, Pl). cbn [bind].
  replace (match t with STRING => [joined (items t d) (left_over t d)] | _ => split_spaces (joined (items t d) (left_over t d)) end)
    with (split_spaces (joined (items t d) (left_over t d))) by (destruct T as [->|[->| ->]]; reflexivity).
  rewrite split_joined; [reflexivity| |exact Pl]. destruct E1 as (s & d' & E1). rewrite items_eq, E1. discriminate.
Qed.
(** Too short an option: the buffer is not initialised. *)
Lemma short_undefined code d : olen (fst (code_type code)) <> 0 -> lenN d < olen (fst (code_type code)) -> values code d = UB.
Proof.
  intros H L. unfold values, value_string. set (t := fst (code_type code)) in *. replace (olen t =? 0) with false by lia.
  cbn [vloop]. replace (lenN d <? olen t) with true by lia. cbn [bind option_map value_list].
  rewrite N.div_small by exact L. rewrite N.mul_0_r. reflexivity.
Qed.
Lemma string_values code d : fst (code_type code) = STRING -> 1 <= lenN d -> values code d = Ok (Some [upto0 d]).
Proof.
  intros E L. unfold values, value_string. rewrite E. change (olen STRING =? 0) with false. cbv iota. cbn [vloop olen slen]. replace (lenN d <? 1) with false by lia.
  rewrite N.div_1_r, N.mul_1_l. unfold mem_write. len. match goal with |- context [?a <=? ?b] => replace (a <=? b) with true by lia end. cbn [bind option_map value_list].
  rewrite takeN_0. cbn [app]. rewrite dropN_all by (rewrite lenN_fresh; lia). rewrite app_nil_r.
  assert (X : forall s, c_string (map Some (s ++ [0])) = Ok (upto0 s)).
  { induction s as [|c s IH]; [reflexivity|]. cbn [app map c_string upto0]. destruct (c =? 0); [reflexivity|]. rewrite IH. reflexivity. }
  cbn [bind option_map value_list]. rewrite X. reflexivity.
Qed.
Lemma unknown_values code d : fst (code_type code) = UNKNOWN -> values code d = Ok (Some []).
Proof. intros E. unfold values, value_string. rewrite E. reflexivity. Qed.
(** Single bytes are not printed at all. *)
Lemma vloop_u8 : forall d fuel w tail, (length d < fuel)%nat -> 5 * lenN d + 1 <= lenN tail -> (d = [] -> False) -> (w = [] -> lenN d <> 1) -> (lenN d = 1 -> exists tl, tail = Some 0 :: tl) ->
  exists tl, vloop fuel U8 d (map Some w ++ tail) (lenN w) = Ok (Some (map Some (w ++ repeat 32 (length d - 1)) ++ Some 0 :: tl)).
Proof.
  induction d as [|a d IH]; intros fuel w tail Hf Ht Hn Hw H1; [contradiction (Hn eq_refl)|]. destruct fuel as [|fuel]; [lia|].
  cbn [vloop olen]. replace (lenN (a :: d) <? 1) with false by (len; lia). change (dropN 1 (a :: d)) with d.
  destruct d as [|b d].
  - change (lenN [] =? 0) with true. cbv iota. destruct (H1 eq_refl) as [tl ->]. exists tl. cbn [length repeat Nat.sub]. rewrite app_nil_r. reflexivity.
  - replace (lenN (b :: d) =? 0) with false by (len; lia). rewrite write_at by (len; lia). cbn [bind].
    set (tail2 := dropN (lenN [Some 32; Some 0]) tail).
    replace (map Some w ++ [Some 32; Some 0] ++ tail2) with (map Some (w ++ [32]) ++ Some 0 :: tail2) by (rewrite map_app, <- app_assoc; reflexivity).
    replace (lenN w + 1) with (lenN (w ++ [32])) by (len; lia).
    destruct (IH fuel (w ++ [32]) (Some 0 :: tail2)) as [tl E].
    { cbn [length] in *. lia. } { unfold tail2. len. lia. } { discriminate. } { destruct w; discriminate. } { eauto. }
    exists tl. rewrite E. rewrite <- app_assoc. cbn [length Nat.sub]. rewrite Nat.sub_0_r. cbn [repeat]. reflexivity.
Qed.
Lemma split_blank n : split_spaces (repeat 32 n) = repeat [] (S n).
Proof. induction n; [reflexivity|]. cbn [repeat split_spaces]. rewrite IHn. reflexivity. Qed.
Lemma u8_values d : lenN d <> 0 -> values 0x35 d = if lenN d =? 1 then UB else Ok (Some (repeat [] (length d))).
Proof.
  intros H. destruct (N.eqb_spec (lenN d) 1) as [E|E].
  - destruct d as [|a [|b d]]; len; try lia. reflexivity.
  - unfold values, value_string. change (fst (code_type 0x35)) with U8. change (olen U8 =? 0) with false. cbv iota.
    destruct (vloop_u8 d (S (length d)) [] (fresh (slen U8 * (lenN d / olen U8) + 1))) as [tl El].
    { lia. } { rewrite lenN_fresh. cbn [slen olen]. rewrite N.div_1_r. lia. } { intros ->. apply H. reflexivity. } { intros _. exact E. } { intros H1. lia. }
    cbn [map app] in El. change (lenN []) with 0 in El. rewrite El. cbn [bind option_map value_list]. rewrite c_string_ok.
    + cbn [bind]. rewrite split_blank. destruct d; [contradiction H; reflexivity|]. cbn [length Nat.sub]. rewrite Nat.sub_0_r. reflexivity.
    + clear. induction (length d - 1)%nat; constructor; [discriminate|assumption].
Qed.

(** ** By code *)
Ltac cases := repeat match goal with H : _ \/ _ |- _ => destruct H | H : False |- _ => destruct H | H : In _ _ |- _ => cbn [In] in H end.
Lemma address_values code d : In code [0x01; 0x03; 0x06; 0x2a; 0x32] -> bytes d -> 4 <= lenN d -> lenN d mod 4 = 0 -> values code d = Ok (Some (addresses d)).
Proof.
  intros I B L M. assert (E : fst (code_type code) = IP) by (cases; subst; reflexivity).
  rewrite (numeric_values code IP d (or_introl eq_refl) E B L). unfold left_over. change (olen IP) with 4. rewrite M. cbn [N.eqb negb items]. rewrite app_nil_r. reflexivity.
Qed.
Lemma address_values_rest code d : In code [0x01; 0x03; 0x06; 0x2a; 0x32] -> bytes d -> 4 <= lenN d -> lenN d mod 4 <> 0 -> values code d = Ok (Some (addresses d ++ [[]])).
Proof.
  intros I B L M. assert (E : fst (code_type code) = IP) by (cases; subst; reflexivity).
  rewrite (numeric_values code IP d (or_introl eq_refl) E B L). unfold left_over. change (olen IP) with 4. replace (lenN d mod 4 =? 0) with false by lia. reflexivity.
Qed.
Lemma number_values d : bytes d ->
  (2 <= lenN d -> lenN d mod 2 = 0 -> values 0x39 d = Ok (Some (numbers16 d)))
  /\ (4 <= lenN d -> lenN d mod 4 = 0 -> values 0x33 d = Ok (Some (numbers32 d)) /\ values 0x36 d = Ok (Some (numbers32 d))).
Proof.
  intros B. assert (T2 : numeric U16) by (unfold numeric; tauto). assert (T4 : numeric U32) by (unfold numeric; tauto).
  split; [intros L M|intros L M; split].
  - rewrite (numeric_values 0x39 U16 d T2 eq_refl B L). unfold left_over. change (olen U16) with 2. rewrite M. cbn [N.eqb negb items]. rewrite app_nil_r. reflexivity.
  - rewrite (numeric_values 0x33 U32 d T4 eq_refl B L). unfold left_over. change (olen U32) with 4. rewrite M. cbn [N.eqb negb items]. rewrite app_nil_r. reflexivity.
  - rewrite (numeric_values 0x36 U32 d T4 eq_refl B L). unfold left_over. change (olen U32) with 4. rewrite M. cbn [N.eqb negb items]. rewrite app_nil_r. reflexivity.
Qed.
Lemma text_values code d : In code [0x0c; 0x0f; 0x3c; 0x3d; 0xfc] -> 1 <= lenN d -> values code d = Ok (Some [upto0 d]).
Proof. intros I L. apply string_values; [|exact L]. cases; subst; reflexivity. Qed.
Lemma code_cases code :
  (In code [0x01; 0x03; 0x06; 0x2a; 0x32] /\ fst (code_type code) = IP) \/ (In code [0x33; 0x36] /\ fst (code_type code) = U32)
  \/ (code = 0x39 /\ fst (code_type code) = U16) \/ (In code [0x0c; 0x0f; 0x3c; 0x3d; 0xfc] /\ fst (code_type code) = STRING)
  \/ (code = 0x35 /\ fst (code_type code) = U8)
  \/ (~ In code [0x01; 0x03; 0x06; 0x0c; 0x0f; 0x2a; 0x32; 0x33; 0x35; 0x36; 0x39; 0x3c; 0x3d; 0xfc] /\ fst (code_type code) = UNKNOWN).
Proof.
  destruct code as [|p]; [do 5 right; split; [intros X; cases; discriminate|reflexivity]|].
  do 8 (try (destruct p as [p|p|]));
    first [ do 5 right; split; [intros X; cases; discriminate|reflexivity]
          | left; split; [cbn [In]; tauto|reflexivity] | right; left; split; [cbn [In]; tauto|reflexivity]
          | do 2 right; left; split; reflexivity | do 3 right; left; split; [cbn [In]; tauto|reflexivity]
          | do 4 right; left; split; reflexivity ].
Qed.
Lemma other_values code d : ~ In code [0x01; 0x03; 0x06; 0x0c; 0x0f; 0x2a; 0x32; 0x33; 0x35; 0x36; 0x39; 0x3c; 0x3d; 0xfc] -> values code d = Ok (Some []).
Proof. intros N. apply unknown_values. destruct (code_cases code) as [[I _]|[[I _]|[[I _]|[[I _]|[[I _]|[_ E]]]]]]; try exact E; contradiction N; cbn [In] in *; intuition congruence. Qed.
Lemma undefined_exact code d : bytes d -> (values code d = UB <->
  (In code [0x01; 0x03; 0x06; 0x2a; 0x32; 0x33; 0x36] /\ lenN d < 4)
  \/ (code = 0x39 /\ lenN d < 2)
  \/ (In code [0x0c; 0x0f; 0x3c; 0x3d; 0xfc] /\ d = [])
  \/ (code = 0x35 /\ lenN d < 2)).
Proof.
  intros B. assert (Z : d = [] <-> lenN d < 1). { split; [intros ->; reflexivity|]. intros H. apply lenN_0_nil. lia. }
  assert (Dec : forall t, fst (code_type code) = t -> lenN d < olen t -> olen t <> 0 -> values code d = UB) by (intros t E L H; apply short_undefined; rewrite E; assumption).
  destruct (code_cases code) as [[I E]|[[I E]|[[I E]|[[I E]|[[I E]|[I E]]]]]].
  - split; intros H.
    + left. split; [cbn [In] in *; tauto|]. destruct (N.lt_ge_cases (lenN d) 4) as [|L]; [assumption|]. rewrite (numeric_values code IP d) in H by (unfold numeric; tauto || assumption). discriminate.
    + apply (Dec IP E); [|discriminate]. change (olen IP) with 4. destruct H as [[_ H]|[[-> H]|[[H _]|[-> H]]]]; try discriminate; [exact H|]. cases; subst; discriminate.
  - split; intros H.
    + left. split; [cbn [In] in *; tauto|]. destruct (N.lt_ge_cases (lenN d) 4) as [|L]; [assumption|]. rewrite (numeric_values code U32 d) in H by (unfold numeric; tauto || assumption). discriminate.
    + apply (Dec U32 E); [|discriminate]. change (olen U32) with 4. destruct H as [[_ H]|[[-> H]|[[H _]|[-> H]]]]; try discriminate; [exact H|]. cases; subst; discriminate.
  - split; intros H.
    + right. left. split; [exact I|]. destruct (N.lt_ge_cases (lenN d) 2) as [|L]; [assumption|]. rewrite (numeric_values code U16 d) in H by (unfold numeric; tauto || assumption). discriminate.
    + apply (Dec U16 E); [|discriminate]. change (olen U16) with 2. destruct H as [[H _]|[[_ H]|[[H _]|[H _]]]]; [|exact H| |]; subst code; try discriminate; cases; discriminate.
  - split; intros H.
    + right. right. left. split; [exact I|]. apply Z. destruct (N.lt_ge_cases (lenN d) 1) as [|L]; [assumption|]. rewrite (string_values code d E L) in H. discriminate.
    + apply (Dec STRING E); [|discriminate]. change (olen STRING) with 1. destruct H as [[H _]|[[H _]|[[_ H]|[H _]]]]; [|subst; cases; discriminate|apply Z, H|subst; cases; discriminate].
      cases; subst code; try discriminate; cases; discriminate.
  - subst code. split; intros H.
    + do 3 right. split; [reflexivity|]. destruct (N.eq_dec (lenN d) 0) as [L|L]; [lia|]. rewrite (u8_values d L) in H. destruct (lenN d =? 1) eqn:E1; [lia|discriminate].
    + assert (L : lenN d < 2). { destruct H as [[H _]|[[H _]|[[H _]|[_ H]]]]; [|discriminate| |exact H]; cases; discriminate. }
      destruct (N.eq_dec (lenN d) 0) as [L0|L0]; [apply (Dec U8 eq_refl); [change (olen U8) with 1; lia|discriminate]|]. rewrite (u8_values d L0). replace (lenN d =? 1) with true by lia. reflexivity.
  - rewrite (unknown_values code d E). split; [discriminate|]. intros H. contradiction I.
    destruct H as [[H _]|[[H _]|[[H _]|[H _]]]]; cbn [In] in *; intuition congruence.
Qed.
