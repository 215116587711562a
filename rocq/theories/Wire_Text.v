From Coq Require Import String.
From Verif Require Import Base Text Text_Proofs RtspText_Proofs Qstr_Model Qstr_Proofs Split_Model Split_Spec Split_Proofs WpasMsg_Model WpasMsg_Spec WpasMsg_Proofs Wire_Model Wire_Spec Wire_Proofs.
From Verif Require Prov_Model Comm_Spec Comm_Proofs.
Local Open Scope list_scope.

(** ** First entries *)
Lemma keyed_entry k w v : Wire_Spec.keyed k w v <-> w = text k ++ [61] ++ v. Proof. reflexivity. Qed.
Lemma dict_first l k : ~ In 61 (text k) -> exists o, is_text (dict_loop l (text k) TString) = Ok o /\ first_keyed k l o.
Proof.
  intros K. destruct (dict_found l (text k) K) as [(l1 & v & l2 & -> & F & Q)|(F & Q)]; rewrite (Q TString).
  - exists (Some v). split; [reflexivity|]. exists l1, (text k ++ [61] ++ v), l2. split; [reflexivity|]. split; [reflexivity|]. intros x y I E. rewrite Forall_forall in F. apply (F x I). now exists y.
  - exists None. split; [reflexivity|]. intros x y I E. rewrite Forall_forall in F. apply (F x I). now exists y.
Qed.
Lemma first_keyed_fun k l o o' : first_keyed k l o -> first_keyed k l o' -> o = o'.
Proof.
  assert (U : forall l w r l' w' r', l ++ w :: r = l' ++ w' :: r' -> (forall v, Wire_Spec.keyed k w v -> ~ In w l') -> forall v v', Wire_Spec.keyed k w v -> Wire_Spec.keyed k w' v' -> (forall x y, In x l -> ~ Wire_Spec.keyed k x y) -> (forall x y, In x l' -> ~ Wire_Spec.keyed k x y) -> w = w').
  { clear. induction l as [|a l IH]; intros w r [|a' l'] w' r' E X v v' K K' A A'; cbn [app] in E.
    - congruence.
    - injection E as -> E. exfalso. eapply A'; [now left|exact K].
    - injection E as -> E. exfalso. eapply A; [now left|exact K'].
    - injection E as -> E. eapply (IH w r l' w' r' E); [|exact K|exact K'|intros x y I; apply A; now right|intros x y I; apply A'; now right].
      intros u U I. eapply X; [exact U|now right]. }
  destruct o as [v|], o' as [v'|]; cbn [first_keyed]; try reflexivity.
  - intros (l1 & w & r & -> & K & A) (l2 & w' & r' & E & K' & A'). assert (W : w = w') by (eapply (U l1 w r l2 w' r' E); eauto; intros u H I; eapply A'; eauto).
    subst w'. unfold Wire_Spec.keyed in K, K'. rewrite K in K'. apply app_inv_head in K'. now injection K' as ->.
  - intros (l1 & w & r & -> & K & _) A. exfalso. eapply A; [|exact K]. apply in_app_iff. right. now left.
  - intros A (l1 & w & r & -> & K & _). exfalso. eapply A; [|exact K]. apply in_app_iff. right. now left.
Qed.
Lemma learn_any m l args : (forall k, entry m k = is_text (dict_loop args (text k) TString)) ->
  exists l', learn l m = Ok l' /\ either "device_name" "name" args (l_name l) (l_name l') /\ either "wfd_subelems" "wfd_dev_info" args (l_wfd l) (l_wfd l').
Proof.
  intros E. unfold learn. rewrite !E.
  destruct (dict_first args "device_name") as (a & Ea & Fa); [apply tok61; reflexivity|]. destruct (dict_first args "name") as (b & Eb & Fb); [apply tok61; reflexivity|].
  destruct (dict_first args "wfd_subelems") as (c & Ec & Fc); [apply tok61; reflexivity|]. destruct (dict_first args "wfd_dev_info") as (d & Ed & Fd); [apply tok61; reflexivity|].
  rewrite Ea, Ec. cbn [bind].
  assert (X : (match a with Some _ => Ok a | None => is_text (dict_loop args (text "name") TString) end) = Ok (match a with Some _ => a | None => b end)) by (destruct a; [reflexivity|exact Eb]). rewrite X. cbn [bind].
  assert (Y : (match c with Some _ => Ok c | None => is_text (dict_loop args (text "wfd_dev_info") TString) end) = Ok (match c with Some _ => c | None => d end)) by (destruct c; [reflexivity|exact Ed]). rewrite Y. cbn [bind].
  eexists. split; [reflexivity|]. cbn [l_name l_wfd]. split; [exists a, b|exists c, d]; (split; [assumption|]); (split; [assumption|]); [destruct a, b|destruct c, d]; reflexivity.
Qed.

(** ** The name in an event *)
Lemma tok_single name t : ~ In 39 name -> ~ In 92 name -> forall cur, tok_loop (name ++ t) false 39 cur = tok_loop t false 39 (cur ++ name).
Proof.
  induction name as [|c s IH]; intros A B cur; [now rewrite app_nil_r|]. cbn [app tok_loop]. assert (E1 : (c =? 92) = false) by (apply N.eqb_neq; intros ->; apply B; now left). assert (E2 : (c =? 39) = false) by (apply N.eqb_neq; intros ->; apply A; now left).
  rewrite E1. change (39 =? 0) with false. cbn [negb]. change (39 =? 34) with false. rewrite andb_false_r, E2. cbn [andb]. cbv iota. rewrite IH; [now rewrite <- app_assoc|intros I; apply A; now right|intros I; apply B; now right].
Qed.
Lemma decode_single name : ~ In 39 name -> ~ In 92 name -> ~ In 0 name -> forall t, decode false 39 (name ++ 39 :: t) = name ++ decode false 0 t.
Proof.
  induction name as [|c s IH]; intros A B Z t; [reflexivity|]. cbn [app decode]. unfold dec_char. change (39 =? 0) with false. cbn [negb].
  assert (E1 : (c =? 92) = false) by (apply N.eqb_neq; intros ->; apply B; now left). assert (E2 : (c =? 39) = false) by (apply N.eqb_neq; intros ->; apply A; now left). assert (E3 : (c =? 0) = false) by (apply N.eqb_neq; intros ->; apply Z; now left).
  rewrite E1, E2, E3. change (39 =? 34) with false. rewrite andb_false_r. cbn [andb]. cbv iota. cbn [app]. f_equal. apply IH; intros I; [apply A|apply B|apply Z]; now right.
Qed.
Lemma found_label a d ty name ws i lvl l : addr a -> addr d -> addr ty -> ~ In 39 name -> ~ In 92 name -> ~ In 0 name -> Forall wordy ws -> first_keyed "device_name" ws None -> lvl < 2 ^ 31 -> ifname_ok i ->
  exists l', labelled l (on_wire i lvl (found_text a d ty name ws)) = Ok l' /\ l_name l' = Some name /\ either "wfd_subelems" "wfd_dev_info" ws (l_wfd l) (l_wfd l').
Proof.
  intros Aa Ad At N1 N2 N3 Fw Dn L O. set (q := text "name=" ++ 39 :: name ++ [39]).
  assert (Pq : passes q). { unfold q. apply passes_app; [apply passes_wordy, wordyb_ok; reflexivity|]. intros t cur. change (tok_loop ((39 :: name ++ [39]) ++ t) false 0 cur) with (tok_loop ((name ++ [39]) ++ t) false 39 (cur ++ [39])). rewrite <- app_assoc, tok_single by assumption. cbn [app]. change (tok_loop (39 :: t) false 39 ?x) with (tok_loop t false 0 (x ++ [39])). now rewrite <- !app_assoc. }
  assert (Dq : cstr (dec0 q) = kw "name" name). { unfold q, dec0. rewrite decode_simple by (apply wordy_simple, wordyb_ok; reflexivity). change (decode false 0 (39 :: name ++ [39])) with (decode false 39 (name ++ [39])). rewrite decode_single by assumption. rewrite cstr_app by (apply wordy_nul, wordyb_ok; reflexivity). cbn [decode]. rewrite app_nil_r, cstr_id by exact N3. reflexivity. }
  assert (B : found_text a d ty name ws = text "P2P-DEVICE-FOUND" ++ Wire_Spec.spaced (a :: kw "p2p_dev_addr" d :: kw "pri_dev_type" ty :: q :: ws) ++ []).
  { unfold found_text, Wire_Spec.spaced. cbn [flat_map]. unfold q, kw. repeat rewrite <- app_assoc. cbn [app]. repeat rewrite <- app_assoc. cbn [app]. rewrite ?app_nil_r. repeat rewrite <- app_assoc. reflexivity. }
  rewrite B. destruct (wire_text (text "P2P-DEVICE-FOUND") lvl (a :: kw "p2p_dev_addr" d :: kw "pri_dev_type" ty :: q :: ws) [] i) as (m & P & T); [apply wordyb_ok; reflexivity|exact L|exact O| |now left|].
  { constructor; [now apply passes_wordy, addr_wordy|]. constructor; [apply passes_wordy, kw_wordy; [reflexivity|exact Ad]|]. constructor; [apply passes_wordy, kw_wordy; [reflexivity|exact At]|]. constructor; [exact Pq|]. eapply Forall_impl; [|exact Fw]. exact passes_wordy. }
  unfold labelled. rewrite P. cbn [bind]. set (args := a :: kw "p2p_dev_addr" d :: kw "pri_dev_type" ty :: kw "name" name :: ws).
  assert (E : forall k, entry m k = is_text (dict_loop args (text k) TString)).
  { intros k. rewrite (entry_of _ _ _ _ _ _ T). rewrite head_of by exact (proj1 Aa). rewrite !head_of by (apply kw_wordy; [reflexivity|assumption]). cbn [map app rest]. rewrite Dq, app_nil_r. unfold args. do 3 f_equal. do 4 f_equal.
    clear -Fw. induction Fw as [|w ws W F IH]; [reflexivity|]. cbn [map]. now rewrite dec0_wordy, cstr_wordy, IH. }
  destruct (learn_any m l args E) as (l' & Q & (x & y & Fx & Fy & Ny) & (u & v & Fu & Fv & Nv)). exists l'. split; [exact Q|].
  assert (Sk : forall k o, (forall k2, In k2 ["p2p_dev_addr"; "pri_dev_type"; "name"]%string -> str_eq (text k2) (text k) = false) -> ~ In 61 (text k) -> first_keyed k args o -> first_keyed k ws o).
  { intros k o Kd Kn Fo. destruct (dict_first ws k Kn) as (o' & Eo & Fo'). destruct (dict_first args k Kn) as (o2 & Eo2 & Fo2). rewrite (first_keyed_fun _ _ _ _ Fo Fo2). revert Eo2. unfold args.
    rewrite dict_none by exact (proj2 Aa). unfold kw. rewrite !dict_other by (first [apply tok61; reflexivity|apply Kd; cbn; auto]). rewrite Eo. intros X. apply ok_inj in X. now subst o2. }
  split.
  - assert (x = None). { apply (first_keyed_fun "device_name" ws); [|exact Dn]. apply Sk; [intros k [<-|[<-|[<-|[]]]]; reflexivity|apply tok61; reflexivity|exact Fx]. } subst x.
    destruct (dict_first args "name") as (o2 & Eo2 & Fo2); [apply tok61; reflexivity|]. rewrite (first_keyed_fun _ _ _ _ Fy Fo2) in Ny. revert Eo2. unfold args. rewrite dict_none by exact (proj2 Aa). unfold kw. rewrite dict_other by (first [apply tok61; reflexivity|reflexivity]). rewrite dict_other by (first [apply tok61; reflexivity|reflexivity]). rewrite dict_hit by (apply tok61; reflexivity).
    cbn [is_text bind]. intros X. apply ok_inj in X. subst o2. exact Ny.
  - exists u, v. split; [apply Sk; [intros k [<-|[<-|[<-|[]]]]; reflexivity|apply tok61; reflexivity|exact Fu]|]. split; [apply Sk; [intros k [<-|[<-|[<-|[]]]]; reflexivity|apply tok61; reflexivity|exact Fv]|exact Nv].
Qed.

(** ** Replies *)
Lemma lines_split ls : Forall (fun l => l <> [] /\ ~ In 10 l) ls -> split_of (fun c => c = 10) (lines ls) ls.
Proof.
  intros F. induction F as [|l ls [A B] F IH]; [constructor; constructor|]. cbn [lines flat_map]. rewrite <- app_assoc. apply (FCons _ [] l); [constructor|exact A| | |].
  - apply Forall_forall. intros c I ->. now apply B.
  - right. eexists. eexists. split; [reflexivity|reflexivity].
  - apply split_of_sep; [reflexivity|exact IH].
Qed.
Lemma canon_chars m : Comm_Spec.is_mac m -> Forall (fun c => 48 <= c <= 58 \/ 97 <= c <= 102) (Comm_Spec.canon m).
Proof.
  intros [L F]. assert (T : Forall (fun c => 48 <= c <= 58 \/ 97 <= c <= 102) Comm_Spec.table).
  { assert (B : forallb (fun c => ((48 <=? c) && (c <=? 58)) || ((97 <=? c) && (c <=? 102))) Comm_Spec.table = true) by reflexivity. rewrite forallb_forall in B. apply Forall_forall. intros c I. apply B in I. lia. }
  assert (D : forall x, x < 16 -> 48 <= nth (N.to_nat x) Comm_Spec.table 0 <= 58 \/ 97 <= nth (N.to_nat x) Comm_Spec.table 0 <= 102).
  { intros x H. rewrite Forall_forall in T. apply T. apply nth_In. change (List.length Comm_Spec.table) with 16%nat. lia. }
  assert (W : forall x, x < 256 -> Forall (fun c => 48 <= c <= 58 \/ 97 <= c <= 102) (Comm_Spec.two x)).
  { intros x H. unfold Comm_Spec.two. constructor; [apply D; apply N.div_lt_upper_bound; lia|]. constructor; [apply D; apply N.mod_lt; lia|constructor]. }
  destruct m as [|a [|b [|c [|d [|e [|f [|g m]]]]]]]; try discriminate L. repeat match goal with H : Forall _ (_ :: _) |- _ => inversion H; subst; clear H end.
  unfold Comm_Spec.canon. repeat (apply Forall_app; split); try (now apply W); (constructor; [left; lia|constructor]).
Qed.
Lemma canon_head m : Comm_Spec.is_mac m -> exists c r, Comm_Spec.canon m = c :: r.
Proof. intros [L F]. destruct m as [|a [|b [|c [|d [|e [|f [|g m]]]]]]]; try discriminate L. eexists. eexists. reflexivity. Qed.
Lemma reply_unnamed raw : has_ifname raw = false -> (forall t, raw <> 60 :: t) -> lenN raw < 2 ^ 31 ->
  exists m fs, parse false raw = Ok (inl m) /\ w_type m = WReply /\ w_name m = None /\ split_of (fun c => c = 10) raw fs /\ w_argv m = map cstr fs /\ w_iter m = 0 /\ w_raw m = Some (cstr raw).
Proof.
  intros I H L. unfold parse, split_ifname. rewrite I. assert (E : match raw with c :: _ => c =? 60 | [] => false end = false).
  { destruct raw as [|c t]; [reflexivity|]. destruct (N.eqb_spec c 60) as [->|]; [|reflexivity]. exfalso. eapply H. reflexivity. }
  rewrite E. cbn [orb]. rewrite newline. destruct (strsplit_fields_exist raw [10]) as (fs & F). destruct (strsplit_fields raw [10] fs F) as (Hs & _).
  assert (Lf : lenN fs <= lenN raw).
  { clear -F. induction F as [g Hg|g f rest fs Hg Hf Hn Hr F IH]; [rewrite lenN_nil; lia|]. rewrite lenN_cons, !lenN_app. destruct f; [congruence|]. rewrite lenN_cons. lia. }
  rewrite Hs by lia.
  assert (P : parse_args new_wreply fs = (w_more new_wreply (map cstr fs), None)).
  { unfold parse_args. apply append_loop_texts; [|reflexivity]. clear. induction fs; constructor; [reflexivity|exact IHfs]. }
  rewrite P. cbn [or_err]. eexists. exists fs. split; [reflexivity|]. cbn. repeat split; auto.
  eapply split_of_iff; [|exact F]. intros c. cbn. split; [intros [<-|[]]; reflexivity|intros ->; now left].
Qed.
Lemma reply_text mac ls : Comm_Spec.is_mac mac -> Forall (fun l => l <> [] /\ line l) ls -> let raw := lines (Comm_Spec.canon mac :: ls) in lenN raw < 2 ^ 31 ->
  exists m, parse false raw = Ok (inl m) /\ w_type m = WReply /\ w_name m = None /\ w_argv m = Comm_Spec.canon mac :: ls /\ w_iter m = 0 /\ w_raw m = Some (cstr raw) /\ cstr raw <> text "FAIL" ++ [10].
Proof.
  intros M F raw L. pose proof (canon_chars mac M) as C. destruct (canon_head mac M) as (c & r & E). assert (Hc : 48 <= c <= 58 \/ 97 <= c <= 102) by (rewrite E in C; now inversion C).
  assert (R : exists t, raw = c :: t) by (unfold raw; cbn [lines flat_map]; rewrite E; eexists; reflexivity). destruct R as (t & R).
  assert (Z : cstr raw = c :: cstr t) by (rewrite R; cbn [cstr]; destruct (N.eqb_spec c 0); [lia|reflexivity]).
  destruct (reply_unnamed raw) as (m & fs & P & T & Nm & S & A & I & W).
  - unfold has_ifname. rewrite Z. destruct (str_eq _ _) eqn:Q; [|reflexivity]. apply str_eq_spec in Q. rewrite takeN_cons in Q by lia. cbn in Q. injection Q as Q _. lia.
  - intros t'. rewrite R. intros [= Q _]. lia.
  - exact L.
  - exists m. split; [exact P|]. split; [exact T|]. split.
    + exact Nm.
    + assert (Fs : fs = Comm_Spec.canon mac :: ls). { eapply split_of_unique; [exact S|]. apply lines_split. constructor; [|eapply Forall_impl; [|exact F]; unfold line; cbn; tauto]. split; [rewrite E; discriminate|]. intros J. rewrite Forall_forall in C. apply C in J. lia. }
      split; [|split; [exact I|split; [exact W|]]].
      * rewrite A, Fs. cbn [map]. f_equal; [apply cstr_id; intros J; rewrite Forall_forall in C; apply C in J; lia|]. clear -F. induction F as [|l ls (_ & _ & Z) F IH]; [reflexivity|]. cbn [map]. now rewrite cstr_id, IH.
      * rewrite Z. intros [= Q _]. lia.
Qed.
Lemma reply_heard mac ls : Comm_Spec.is_mac mac -> Forall (fun l => l <> [] /\ line l) ls -> lenN (lines (Comm_Spec.canon mac :: ls)) < 2 ^ 31 ->
  answered (lines (Comm_Spec.canon mac :: ls)) = Ok (Peer (Prov_Model.Reply (Some (Comm_Spec.canon mac))))
  /\ forall l, exists l', labelled l (lines (Comm_Spec.canon mac :: ls)) = Ok l' /\ either "device_name" "name" ls (l_name l) (l_name l') /\ either "wfd_subelems" "wfd_dev_info" ls (l_wfd l) (l_wfd l').
Proof.
  intros M F L. destruct (reply_text mac ls M F L) as (m & P & T & Nm & A & I & W & X). unfold answered, labelled. rewrite P. cbn [bind].
  assert (Fl : is_fail m = Ok false). { unfold is_fail, raw_is. rewrite T, W. destruct (str_eq _ _) eqn:Q; [|reflexivity]. apply str_eq_spec in Q. contradiction. }
  rewrite Fl. cbn [bind]. split.
  - unfold next_arg, read_basic. rewrite A, I. reflexivity.
  - intros l. assert (C61 : ~ In 61 (Comm_Spec.canon mac)). { intros J. pose proof (canon_chars mac M) as C. rewrite Forall_forall in C. apply C in J. lia. }
    apply learn_any. intros k. unfold entry, dict_read, first_arg. rewrite Nm, A. change (dropN 0 (Comm_Spec.canon mac :: ls)) with (Comm_Spec.canon mac :: ls). now rewrite dict_none.
Qed.
Lemma fail_heard : answered (text "FAIL" ++ [10]) = Ok Nothing. Proof. vm_compute. reflexivity. Qed.

(** ** Commands *)
Lemma command_join n args : n <> [] -> command (n :: args) = if 2 ^ 31 <=? lenN (join (n :: args)) then None else Some (join (n :: args)).
Proof.
  intros H. unfold command. destruct n as [|c n]; [congruence|]. cbn [new_wrequest]. assert (A : wappend (wnew WRequest (Some (c :: n)) 0) (map (fun t => AString (Some t)) args) = (w_more (wnew WRequest (Some (c :: n)) 0) args, None)).
  { unfold wappend. cbn [wnew w_sealed]. apply append_loop_texts; [|reflexivity]. clear. induction args; constructor; [reflexivity|exact IHargs]. }
  rewrite A. unfold wseal, w_more. cbn [wnew w_sealed w_argv app w_type w_name w_level w_iter w_raw w_rawlen w_ifname w_peer]. destruct (2 ^ 31 <=? lenN (join ((c :: n) :: args))); [reflexivity|]. cbn [w_raw w_rawlen]. rewrite takeN_all by lia. reflexivity.
Qed.
Lemma join_words n args : Forall wordy (n :: args) -> join (n :: args) = n ++ Wire_Spec.spaced args.
Proof.
  intros F. inversion F as [|? ? W F']; subst. rewrite join_form by exact (proj1 W). assert (E : forall w, wordy w -> encode w (need_quote w) = w) by (intros w H; apply plain_encode; exact H). rewrite E by exact W. f_equal.
  clear -F' E. induction F' as [|w ws W F IH]; [reflexivity|]. change (tail_line (w :: ws)) with (32 :: encode w (need_quote w) ++ tail_line ws). rewrite E, IH by exact W. reflexivity.
Qed.
Lemma command_words n args : Forall wordy (n :: args) -> lenN (n ++ Wire_Spec.spaced args) < 2 ^ 31 -> command (n :: args) = Some (n ++ Wire_Spec.spaced args) /\ words (n ++ Wire_Spec.spaced args) (n :: args).
Proof.
  intros F L. split.
  - rewrite command_join by (inversion F as [|? ? W]; exact (proj1 W)). rewrite join_words by exact F. destruct (2 ^ 31 <=? _) eqn:E; [lia|reflexivity].
  - split; [|exists n, args; auto]. eapply Forall_impl; [|exact F]. intros w [_ W] I. rewrite Forall_forall in W. apply W in I. lia.
Qed.
Lemma encode_body_long s : lenN s <= lenN (encode_body s).
Proof. induction s as [|c s IH]; [cbn; lia|]. cbn [encode_body]. destruct (_ || _); rewrite !lenN_cons; lia. Qed.
Lemma encode_id s : encode s (need_quote s) = s <-> Forall bare s.
Proof.
  split.
  - unfold encode. destruct (need_quote s) eqn:Q.
    + intros E. exfalso. pose proof (encode_body_long s). assert (X : lenN ([34] ++ encode_body s ++ [34]) = lenN s) by now rewrite E. rewrite !lenN_app in X. change (lenN [34]) with 1 in X. lia.
    + assert (B : forall s, encode_body s = s -> Forall (fun c => c <> 34 /\ c <> 92) s).
      { clear. induction s as [|c s IH]; intros E; [constructor|]. cbn [encode_body] in E. destruct ((c =? 92) || (c =? 34)) eqn:K.
        - exfalso. pose proof (encode_body_long s). assert (X : lenN (92 :: c :: encode_body s) = lenN (c :: s)) by now rewrite E. rewrite !lenN_cons in X. lia.
        - injection E as E. constructor; [lia|now apply IH]. }
      intros E. apply B in E. apply Forall_forall. intros c I. rewrite Forall_forall in E. pose proof (E c I). intros J. assert (Y : need_quote s = true -> False) by congruence. apply Y. apply need_quote_iff. cbn in J. destruct J as [J|[J|[J|[J|[J|[J|[]]]]]]]; subst; try (exists 32; now cbn; auto); try lia; eexists; (split; [exact I|cbn; auto]).
  - intros F. assert (Q : need_quote s = false). { destruct (need_quote s) eqn:Q; [|reflexivity]. apply need_quote_iff in Q as (c & I & J). rewrite Forall_forall in F. exfalso. apply (F c I). cbn in *. intuition. }
    rewrite Q. cbn [encode]. apply encode_body_simple. eapply Forall_impl; [|exact F]. intros c H. unfold bare in H. cbn in H. intuition.
Qed.
Lemma tail_one a : tail_line [a] = 32 :: encode a (need_quote a).
Proof. unfold tail_line. cbn [map concat]. now rewrite app_nil_r. Qed.
Lemma tail_cons a l : tail_line (a :: l) = 32 :: encode a (need_quote a) ++ tail_line l.
Proof. reflexivity. Qed.
Lemma encode_bound s : lenN (encode s (need_quote s)) <= 2 * lenN s + 2.
Proof.
  assert (B : lenN (encode_body s) <= 2 * lenN s) by (induction s as [|c s IH]; [cbn; lia|]; cbn [encode_body]; destruct (_ || _); rewrite !lenN_cons; lia).
  unfold encode. destruct (need_quote s); [rewrite !lenN_app; change (lenN [34]) with 1; lia|lia].
Qed.
Lemma set_name_text c t : lenN (c :: t) < 2 ^ 29 -> set_name true (Some (c :: t)) = Some (text "SET device_name " ++ encode (c :: t) (need_quote (c :: t))).
Proof.
  intros L. unfold set_name. rewrite command_join by discriminate. rewrite join_form by discriminate. rewrite tail_cons, tail_one. change (encode (text "SET") (need_quote (text "SET"))) with (text "SET"). change (encode (text "device_name") (need_quote (text "device_name"))) with (text "device_name").
  pose proof (encode_bound (c :: t)) as U. set (x := encode (c :: t) (need_quote (c :: t))) in *.
  assert (E : text "SET" ++ 32 :: text "device_name" ++ 32 :: x = text "SET device_name " ++ x) by reflexivity. rewrite E. assert (Y : lenN (text "SET device_name " ++ x) = 16 + lenN x) by (rewrite lenN_app; reflexivity). rewrite Y.
  destruct (2 ^ 31 <=? _) eqn:Q; [|reflexivity]. change (2 ^ 29) with 536870912 in L. change (2 ^ 31) with 2147483648 in Q. lia.
Qed.
Lemma set_name_exact name : name <> [] -> lenN name < 2 ^ 29 -> exists s, set_name true (Some name) = Some s /\ (sets s (text "device_name") name <-> Forall bare name).
Proof.
  intros H L. destruct name as [|c t]; [congruence|]. eexists. split; [apply set_name_text; exact L|]. rewrite <- encode_id. unfold sets. split.
  - intros [_ E]. change (text "SET " ++ text "device_name" ++ 32 :: c :: t) with (text "SET device_name " ++ c :: t) in E. now apply app_inv_head in E.
  - intros ->. split; [|reflexivity]. apply not_In_test. reflexivity.
Qed.
Lemma spaced_len l : lenN (Wire_Spec.spaced l) = lenN (concat l) + lenN l.
Proof. induction l as [|a l IH]; [reflexivity|]. unfold Wire_Spec.spaced in *. cbn [flat_map concat]. cbn [app]. rewrite !lenN_cons, !lenN_app, IH. lia. Qed.
Lemma set_wfd_text v : wordy v -> lenN v < 2 ^ 29 -> set_wfd true (Some v) = Some (text "WFD_SUBELEM_SET 0 " ++ v).
Proof.
  intros W L. unfold set_wfd. destruct v as [|c t]; [now destruct W|]. destruct (command_words (text "WFD_SUBELEM_SET") [text "0"; c :: t]) as [E _].
  - constructor; [apply wordyb_ok; reflexivity|]. constructor; [apply wordyb_ok; reflexivity|]. constructor; [exact W|constructor].
  - rewrite lenN_app, spaced_len. cbn [concat]. rewrite app_nil_r, lenN_app, (lenN_cons (text "0")), (lenN_cons (c :: t)), lenN_nil. change (lenN (text "WFD_SUBELEM_SET")) with 15. change (lenN (text "0")) with 1. change (2 ^ 29) with 536870912 in L. change (2 ^ 31) with 2147483648. lia.
  - cbn [app]. rewrite E. unfold Wire_Spec.spaced. cbn [flat_map]. now rewrite app_nil_r.
Qed.

(** ** Commands about peers *)
Import Prov_Model.
Definition neat (p : peer) : Prop := wordy (p_mac p) /\ forall x, p_pin p = Some x -> wordy x.
Definition neats (s : st) : Prop := Forall neat (s_peers s).
Definition fine (o : list out) : Prop := forall ws, In (Send ws) o -> exists n args, ws = n :: args /\ Forall wordy ws.
Lemma fine_nil : fine []. Proof. intros ws []. Qed.
Lemma fine_app a b : fine a -> fine b -> fine (a ++ b).
Proof. intros A B ws I. apply in_app_iff in I as [I|I]; auto. Qed.
Lemma fine_other x : (forall ws, x <> Send ws) -> fine [x].
Proof. intros H ws [E|[]]. now apply H in E. Qed.
Lemma fine_cons x l : (forall ws, x <> Send ws) -> fine l -> fine (x :: l).
Proof. intros H F ws [E|I]; [now apply H in E|auto]. Qed.
Lemma fine_send n args : Forall wordy (n :: args) -> fine [Send (n :: args)].
Proof. intros F ws [[= <-]|[]]. eauto. Qed.
Lemma neats_put p s : neat p -> neats s -> neats (put p s).
Proof. intros P F. unfold neats, put. cbn [with_peers s_peers]. induction F; cbn [map]; constructor; auto. destruct (_ =? _); assumption. Qed.
Lemma named_neat s m p : neats s -> named s m = Some p -> neat p.
Proof. intros F H. apply find_some in H as [H _]. unfold neats in F. rewrite Forall_forall in F. auto. Qed.
Lemma object_neat s m p : neats s -> object s m = Some p -> neat p.
Proof. unfold object. intros F. destruct (named s m) eqn:E; [|discriminate]. destruct (p_public _); [|discriminate]. intros [= <-]. now apply (named_neat s m). Qed.
Lemma conn_neat b p : neat p -> neat (fst (conn_changed b p)) /\ fine (snd (conn_changed b p)).
Proof. intros H. unfold conn_changed. destruct (Bool.eqb _ _); [split; [exact H|apply fine_nil]|]. split; [exact H|]. cbn [snd]. destruct (p_public p); [apply fine_other; discriminate|apply fine_nil]. Qed.
Lemma drop_neat p : neat p -> neat (fst (drop_group p)) /\ fine (snd (drop_group p)).
Proof. intros H. unfold drop_group. destruct (p_in p); [apply conn_neat; exact H|split; [exact H|apply fine_nil]]. Qed.
Lemma formation_fine p r : fine (formation_failure p r).
Proof. unfold formation_failure. destruct (p_public p); [apply fine_other; discriminate|apply fine_nil]. Qed.
Lemma free_neat s p : neats s -> neat p -> neats (fst (peer_free s p)) /\ fine (snd (peer_free s p)).
Proof.
  intros F H. unfold peer_free. assert (X : forall s0, neats s0 -> forall f, neats (with_peers (filter f (s_peers s0)) s0)). { clear. intros s0 F f. unfold neats in *. cbn [with_peers s_peers]. induction F; cbn [filter]; [constructor|]. destruct (f _); [constructor|]; auto. }
  pose proof (drop_neat p H) as [D1 D2]. destruct (is_pending s p); destruct (drop_group p) as [q o2]; cbn [fst snd] in *; (split; [apply X; exact F|]); repeat apply fine_app; auto using fine_nil, formation_fine; (destruct (p_public q); [apply fine_other; discriminate|apply fine_nil]).
Qed.
Lemma publish_neat p : neat p -> neat (fst (publish p)) /\ fine (snd (publish p)).
Proof. intros H. unfold publish. destruct (p_public p); cbn [fst snd]; (split; [exact H|]); [apply fine_nil|apply fine_other; discriminate]. Qed.
Lemma publish_all_neat ps : Forall neat ps -> Forall neat (fst (publish_all ps)) /\ fine (snd (publish_all ps)).
Proof.
  intros F. induction F as [|p ps P F [A B]]; cbn [publish_all]; [split; [constructor|apply fine_nil]|]. destruct (publish_neat p P) as [C D]. destruct (publish p), (publish_all ps). cbn [fst snd] in *. split; [now constructor|now apply fine_app].
Qed.
Lemma parse_neat s mac x : neats s -> parse_peer s mac = Ok x -> neats (fst x) /\ fine (snd x).
Proof.
  intros F. unfold parse_peer. destruct mac as [mac|]; [|intros [= <-]; split; [exact F|apply fine_nil]].
  assert (St : forall s0 p x0, neats s0 -> neat p -> (if s_run s0 then let '(p0, o) := publish p in (put p0 s0, o) else (s0, [])) = x0 -> neats (fst x0) /\ fine (snd x0)).
  { intros s0 p x0 F0 P <-. destruct (s_run s0); [|split; [exact F0|apply fine_nil]]. destruct (publish_neat p P). destruct (publish p). cbn [fst snd] in *. split; [now apply neats_put|assumption]. }
  destruct (named s mac) as [p|] eqn:E; [intros H; apply ok_inj in H; apply St in H; eauto using named_neat|].
  destruct (Comm_Proofs.reformat_form mac) as (m & M & ->). cbn [bind]. destruct (named s (Comm_Spec.canon m)); [intros [= <-]; split; [exact F|apply fine_nil]|].
  assert (P : neat (mkPeer (s_next s) (Comm_Spec.canon m) None None false None false false)).
  { split; cbn [p_mac p_pin]; [|discriminate]. destruct (canon_head m M) as (c & r & E'). split; [rewrite E'; discriminate|]. eapply Forall_impl; [|exact (canon_chars m M)]. cbn beta. intros y Y. lia. }
  intros H. apply ok_inj in H. apply St in H; [exact H| |exact P]. unfold neats. cbn [s_peers]. apply Forall_app. split; [exact F|now constructor].
Qed.
Lemma on_neat s mac f : neats s -> (forall p, neat p -> neats (fst (f p)) /\ fine (snd (f p))) -> neats (fst (on s mac f)) /\ fine (snd (on s mac f)).
Proof. intros F H. unfold on. destruct mac as [m|]; [|split; [exact F|apply fine_nil]]. destruct (named s m) eqn:E; [apply H; eauto using named_neat|split; [exact F|apply fine_nil]]. Qed.
Lemma provision_neat s mac prov pin : neats s -> (forall x, pin = Some x -> wordy x) -> neats (fst (provision s mac prov pin)) /\ fine (snd (provision s mac prov pin)).
Proof.
  intros F H. unfold provision. destruct mac as [m|]; [|split; [exact F|apply fine_nil]]. destruct (named s m) as [p|] eqn:E; [|split; [exact F|apply fine_nil]]. apply named_neat in E as [M _]; [|exact F]. cbn [fst snd].
  split; [apply neats_put; [split; [exact M|exact H]|exact F]|]. destruct (p_public p); [apply fine_other; discriminate|apply fine_nil].
Qed.
Lemma failure_neat s r x : neats s -> failure s r = Ret x -> neats (fst x) /\ fine (snd x).
Proof. intros F. unfold failure. destruct (s_pending s); [destruct (at_id s _); [|discriminate]|]; intros [= <-]; (split; [exact F|]); [apply formation_fine|apply fine_nil]. Qed.
Lemma free_all_neat fuel : forall s x, neats s -> free_all fuel s = Ret x -> neats (fst x) /\ fine (snd x).
Proof.
  induction fuel as [|fuel IH]; intros s x F; cbn [free_all]; destruct (s_peers s) as [|p ps] eqn:E; try discriminate; try (intros [= <-]; split; [exact F|apply fine_nil]).
  assert (P : neat p) by (unfold neats in F; rewrite E in F; now inversion F). destruct (free_neat s p F P) as [A B]. destruct (peer_free s p) as [s1 o]. cbn [fst snd] in *. destruct (free_all fuel s1) as [y| |] eqn:Y; try discriminate. cbn [obind]. intros [= <-]. apply IH in Y as [C D]; [|exact A]. cbn [fst snd]. split; [exact C|now apply fine_app].
Qed.
Lemma connect_neat s p prov pin err : neats s -> neat p -> (forall x, pin = Some x -> wordy x) -> neats (fst (connect s p prov pin err)) /\ fine (snd (connect s p prov pin err)).
Proof.
  intros F [M P] H. unfold connect. assert (R : forall n, fine [Returns n]) by (intros; apply fine_other; discriminate). assert (Sd : forall n a, Forall wordy (n :: a) -> fine [Send (n :: a); Returns 0]) by (intros n a W; apply (fine_app [Send (n :: a)] [Returns 0]); [now apply fine_send|apply R]).
  destruct (negb _); [split; [exact F|apply R]|]. destruct (p_in p); [split; [exact F|apply R]|]. destruct (match s_pending s with Some id => _ | None => _ end); [split; [exact F|apply R]|].
  destruct (str_eq _ (text "pbc")); [destruct (err =? 0); (split; [exact F|])|]; [apply Sd|apply R|].
  { constructor; [apply wordyb_ok; reflexivity|]. constructor; [exact M|]. constructor; [apply wordyb_ok; reflexivity|constructor]. }
  set (pv := match prov with Some t => t | None => _ end). destruct (str_eq pv (text "display") || str_eq pv (text "pin") || str_eq pv (text "keypad")) eqn:V; [|split; [exact F|apply R]].
  set (pn := match pin with Some t => Some t | None => p_pin p end). assert (W : forall x, pn = Some x -> wordy x) by (unfold pn; destruct pin; [intros x [= <-]; now apply H|exact P]).
  destruct pn as [t|]; [|split; [exact F|apply R]]. destruct (is_empty t); [split; [exact F|apply R]|]. destruct (err =? 0); (split; [exact F|]); [|apply R]. apply Sd.
  constructor; [apply wordyb_ok; reflexivity|]. constructor; [exact M|]. constructor; [now apply W|]. constructor; [|constructor]. apply orb_prop in V as [V|V]; [apply orb_prop in V as [V|V]|]; apply str_eq_spec in V; rewrite V; apply wordyb_ok; reflexivity.
Qed.
Lemma ret_inj {A} (a b : A) : Ret a = Ret b -> a = b. Proof. congruence. Qed.
Lemma neats_pend o s : neats s -> neats (with_pending o s). Proof. exact (fun F => F). Qed.
Lemma step_neat s e x : neats s -> tidy e -> step s e = Ret x -> neats (fst x) /\ fine (snd x).
Proof.
  intros F T. destruct e; cbn [step tidy] in *.
  - destruct dev as [d|]; [|intros [= <-]; split; [exact F|apply fine_nil]]. destruct (parse_peer s argv0) as [y|] eqn:E; [|discriminate]. cbn [lift obind]. intros [= <-]. apply parse_neat in E as [A B]; [|exact F]. cbn [fst snd]. split; [exact A|]. apply fine_app; [exact B|]. apply fine_send. constructor; [apply wordyb_ok; reflexivity|]. now constructor.
  - destruct (parse_peer s argv0) as [y|] eqn:E; [|discriminate]. cbn [lift]. intros [= <-]. eapply parse_neat; eassumption.
  - intros H; apply ret_inj in H; subst x. apply on_neat; [exact F|]. intros p P. now apply free_neat.
  - intros [= <-]. apply provision_neat; [exact F|discriminate].
  - destruct pin as [t|]; intros [= <-]; [|split; [exact F|apply fine_nil]]. apply provision_neat; [exact F|]. now intros y [= <-].
  - intros [= <-]. apply provision_neat; [exact F|discriminate].
  - intros H; apply ret_inj in H; subst x. apply on_neat; [exact F|]. intros p [M P]. set (q := match p_prov p with Some _ => p | None => _ end). assert (Q : neat q) by (unfold q; destruct (p_prov p); [now split|]; split; [exact M|discriminate]). cbn [fst snd]. split; [now apply neats_put|]. destruct (p_in q); [apply fine_nil|]. destruct (p_public q); [apply fine_other; discriminate|apply fine_nil].
  - intros H; apply ret_inj in H; subst x. apply on_neat; [exact F|]. intros p P. destruct (p_in p); [split; [exact F|apply fine_nil]|]. destruct iface; cbn [fst snd]; (split; [|apply fine_nil]); [apply neats_put; [exact P|exact F]|exact F].
  - apply failure_neat; exact F.
  - apply failure_neat; exact F.
  - destruct argv0; intros [= <-]; [|split; [exact F|apply fine_nil]]. apply on_neat; [exact F|]. intros p P. destruct (p_in p); [split; [exact F|apply fine_nil]|]. cbn [fst snd]. split; [|apply fine_nil]. apply neats_put; [destruct group; exact P|exact F].
  - intros H; apply ret_inj in H; subst x. apply on_neat; [exact F|]. intros p P.
    assert (X : forall s0 p0 o0, neats s0 -> neat p0 -> fine o0 -> neats (fst (let '(p1, o') := drop_group p0 in (put p1 s0, o0 ++ o'))) /\ fine (snd (let '(p1, o') := drop_group p0 in (put p1 s0, o0 ++ o')))).
    { intros s0 p0 o0 F0 P0 O0. destruct (drop_neat p0 P0). destruct (drop_group p0). cbn [fst snd] in *. split; [now apply neats_put|now apply fine_app]. }
    destruct (is_pending s p); [|now apply X; [| |apply fine_nil]]. destruct (p_conn p); [|apply X; auto using formation_fine]. destruct (conn_neat false p P). destruct (conn_changed false p). cbn [fst snd] in *. now apply X.
  - intros H; apply ret_inj in H; subst x. apply on_neat; [exact F|]. intros p P. split; [apply neats_put; [exact P|exact F]|apply fine_nil].
  - intros H; apply ret_inj in H; subst x. apply on_neat; [exact F|]. intros p P. destruct (drop_neat p P). destruct (drop_group p). cbn [fst snd] in *. split; [now apply neats_put|assumption].
  - intros H; apply ret_inj in H; subst x. apply on_neat; [exact F|]. intros p P. destruct (p_in p); [|split; [exact F|apply fine_nil]]. destruct (conn_neat true p P). destruct (conn_changed true p). cbn [fst snd] in *. split; [now apply neats_put|assumption].
  - destruct (s_run s); [intros [= <-]; split; [exact F|apply fine_nil]|]. destruct (publish_all_neat (s_peers s) F). destruct (publish_all (s_peers s)). intros [= <-]. cbn [fst snd] in *. now split.
  - destruct (free_all _ s) as [y| |] eqn:E; try discriminate. cbn [obind]. intros [= <-]. apply free_all_neat in E as [A B]; [|exact F]. cbn [fst snd]. now split.
  - destruct (object s mac) as [p|] eqn:E; intros [= <-]; [|split; [exact F|apply fine_other; discriminate]]. apply connect_neat; [exact F|eapply object_neat; eassumption|]. intros y. destruct pin; [discriminate|]. cbn [is_empty]. intros [= <-]. destruct T as [T|T]; [discriminate|exact T].
  - destruct (object s mac) as [p|] eqn:E; [|intros [= <-]; split; [exact F|apply fine_other; discriminate]]. assert (Q : neat (set_ask None None p)) by (split; [exact (proj1 (object_neat _ _ _ F E))|discriminate]). destruct (drop_neat _ Q). destruct (drop_group _). intros [= <-]. cbn [fst snd] in *. split; [now apply neats_put|]. apply fine_app; [assumption|apply fine_other; discriminate].
  - destruct (negb _); intros [= <-]; [split; [exact F|apply fine_other; discriminate]|]. cbn [fst snd]. split; [exact F|]. destruct (err =? 0); [|apply fine_other; discriminate]. apply (fine_app [_] [_]); [|apply fine_other; discriminate]. apply fine_send. constructor; [apply wordyb_ok; reflexivity|constructor].
  - destruct (negb _); intros [= <-]; (split; [exact F|]); [apply fine_nil|]. apply fine_send. constructor; [apply wordyb_ok; reflexivity|constructor].
Qed.
Lemma run_neat h : forall s x, neats s -> Forall tidy h -> run s h = Ret x -> fine (snd x).
Proof.
  induction h as [|e h IH]; intros s x F T; cbn [run]; [intros [= <-]; apply fine_nil|]. inversion T as [|? ? Te Th]; subst. destruct (step s e) as [y| |] eqn:E; try discriminate. cbn [obind]. apply step_neat in E as [A B]; [|exact F|exact Te].
  destruct (run (fst y) h) as [z| |] eqn:Z; try discriminate. cbn [obind]. intros [= <-]. cbn [snd]. apply fine_app; [exact B|]. eapply IH; eassumption.
Qed.
Lemma run_words h s o ws : Forall tidy h -> run init h = Ret (s, o) -> In (Send ws) o -> lenN (concat ws) + lenN ws <= 2 ^ 31 -> exists t, command ws = Some t /\ words t ws.
Proof.
  intros T R I L. assert (F : fine o) by (apply (run_neat h init (s, o)); [constructor|exact T|exact R]). apply F in I as (n & args & -> & W). destruct (command_words n args W) as [A B]; [|eauto].
  cbn [concat] in L. rewrite lenN_cons, lenN_app in L. rewrite lenN_app, spaced_len. change (2 ^ 31) with 2147483648 in *. lia.
Qed.
Lemma reports_tidy body i e : reports body i (Peer e) -> tidy e.
Proof. intros R. inversion R; subst; cbn [tidy]; auto; match goal with H : addr _ |- wordy _ => exact (proj1 H) end. Qed.
