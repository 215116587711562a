(** Invariant of messages under construction; sealing; sealed messages. *)
From Coq Require Import String.
From Verif Require Import Base Align_Model Align_Proofs Atoi_Model Qstr_Model Text RtspMsg_Model RtspMsg_Spec.

(** ** Names *)
Lemma case_eq_lower a : forall b, case_eq a b = true <-> map lower a = map lower b.
Proof.
  induction a as [|x a IH]; intros [|y b]; cbn; try (split; [discriminate|discriminate]); [tauto|].
  rewrite andb_true_iff, IH, N.eqb_eq. split; [intros (-> & ->); reflexivity|intros [= -> ->]; auto].
Qed.
Lemma case_eq_refl a : case_eq a a = true.
Proof. now apply case_eq_lower. Qed.
Lemma case_eq_trans k a b : case_eq k a = true -> case_eq k b = true -> case_eq a b = true.
Proof. rewrite !case_eq_lower. congruence. Qed.

(** ** Arrays *)
Definition shape (a : arr) : Prop :=
  (a_used a = [] /\ a_cnt a = 0 /\ a_moves a = 0)
  \/ (a_cnt a = 64 /\ a_moves a = 1 /\ lenN (a_used a) <= 64)
  \/ 64 < lenN (a_used a).
Definition small (a : arr) : Prop := lenN (a_used a) < 2 ^ 62.
Lemma p62 : 2 ^ 62 = 4611686018427387904. Proof. reflexivity. Qed.

Lemma align_ok n : 2 <= n -> n <= 2 ^ 63 -> exists k, align_power2 n = Ok k.
Proof.
  intros H1 H2. assert (E63 : 2 ^ 63 = 9223372036854775808) by reflexivity.
  unfold align_power2. destruct (N.eqb_spec n 1); [lia|].
  assert (Ew : wrap64 (n + two64 - 1) = n - 1).
  { unfold wrap64, two64. change (2 ^ 64) with 18446744073709551616.
    replace (n + 18446744073709551616 - 1) with (n - 1 + 1 * 18446744073709551616) by lia.
    rewrite N.mod_add by lia. apply N.mod_small. lia. }
  rewrite Ew. unfold clz64. destruct (N.eqb_spec (n - 1) 0); [lia|]. cbn [bind]. unfold shl1_64.
  assert (N.log2 (n - 1) < 63).
  { apply N.log2_lt_pow2; [lia|]. rewrite E63. lia. }
  destruct (N.leb_spec 64 (64 - (63 - N.log2 (n - 1)))); [lia|]. eauto.
Qed.
Lemma align_64 : align_power2 64 = Ok 64. Proof. reflexivity. Qed.

(** Room for one more; a pointer into the array stays good while it is small. *)
Lemma grow_ok a h : shape a -> small a -> exists cnt moves, grow a = Ok (mkArr (a_used a) cnt moves)
  /\ shape (mkArr (a_used a ++ [h]) cnt moves)
  /\ (a_used a <> [] -> lenN (a_used a) < 64 -> moves = a_moves a).
Proof.
  intros S H. unfold small in H. rewrite p62 in H. unfold grow.
  destruct (N.leb_spec (lenN (a_used a) + 1) (a_cnt a)) as [Hc|Hc].
  - exists (a_cnt a), (a_moves a). split; [now destruct a|]. split; [|tauto].
    destruct S as [(E & Hc0 & _)|[(E1 & E2 & E3)|E]].
    + lia.
    + right; left. cbn. len. lia.
    + right; right. cbn. len. lia.
  - destruct (N.ltb_spec (lenN (a_used a)) 64) as [Hl|Hl].
    + replace (N.max 64 (lenN (a_used a) + 1)) with 64 by lia. rewrite align_64. cbn [bind].
      exists 64, (a_moves a + 1). split; [reflexivity|].
      destruct S as [(E & Hc0 & Em)|[(E1 & E2 & E3)|E]]; [|lia|lia].
      split; [right; left; cbn; len; lia|]. rewrite E. congruence.
    + destruct (align_ok (N.max 64 (lenN (a_used a) + 1))) as (k & Ek); [lia| |].
      { replace (2 ^ 63) with 9223372036854775808 by reflexivity. lia. }
      rewrite Ek. cbn [bind]. exists k, (a_moves a + 1). split; [reflexivity|]. split; [right; right; cbn; len; lia|lia].
Qed.

Lemma nthN_mid {A} (a : list A) h b : nthN (a ++ h :: b) (lenN a) = Some h.
Proof. unfold nthN, lenN. rewrite Nat2N.id, nth_error_app2, Nat.sub_diag by lia. reflexivity. Qed.
Lemma replace_mid {A} (a : list A) h b x : replace (lenN a) x (a ++ h :: b) = a ++ x :: b.
Proof.
  unfold replace. rewrite takeN_app, N.sub_diag, takeN_0, app_nil_r, takeN_all by lia. f_equal. f_equal.
  rewrite dropN_app, dropN_all by lia. replace (lenN a + 1 - lenN a) with 1 by lia. reflexivity.
Qed.

(** ** The three known headers *)
Definition pointed (name : list byte) (p : option ptr) (l : list header) (moves : N) : Prop :=
  match p with
  | None => none_of name l
  | Some p => p_body p = false /\ (lenN l <= 64 -> p_moves p = moves)
      /\ exists a h b, l = a ++ h :: b /\ p_idx p = lenN a
           /\ case_eq (h_key h) name = true /\ none_of name b
  end.
Lemma none_of_app name l h : none_of name l -> case_eq (h_key h) name = false -> none_of name (l ++ [h]).
Proof. intros H E. apply Forall_app. auto. Qed.
Lemma pointed_app name p l moves moves' h : pointed name p l moves ->
  (l <> [] -> lenN l < 64 -> moves' = moves) -> case_eq (h_key h) name = false ->
  pointed name p (l ++ [h]) moves'.
Proof.
  intros P M E. destruct p as [p|]; cbn in *; [|now apply none_of_app].
  destruct P as (Pb & Pm & a & x & b & -> & Pi & Px & Pn). split; [assumption|]. split.
  - intros L. len. rewrite M; [apply Pm; len; lia| |len; lia]. now destruct a.
  - exists a, x, (b ++ [h]). rewrite <- app_assoc. split; [reflexivity|]. split; [assumption|]. split; [assumption|].
    now apply none_of_app.
Qed.
Lemma pointed_new name l moves h : case_eq (h_key h) name = true ->
  pointed name (Some (mkPtr false moves (lenN l))) (l ++ [h]) moves.
Proof.
  intros E. cbn. split; [reflexivity|]. split; [reflexivity|]. exists l, h, []. repeat split; auto. constructor.
Qed.
Lemma none_of_keys name l l' : map h_key l = map h_key l' -> none_of name l -> none_of name l'.
Proof.
  unfold none_of. intros E H. rewrite Forall_forall in *. intros x Hx. apply (in_map h_key) in Hx. rewrite <- E in Hx.
  apply in_map_iff in Hx as (y & <- & Hy). auto.
Qed.
Lemma pointed_keys name p l l' moves : map h_key l = map h_key l' -> pointed name p l moves -> pointed name p l' moves.
Proof.
  intros E. destruct p as [p|]; cbn; [|now apply none_of_keys].
  intros (Pb & Pm & a & h & b & -> & Pi & Ph & Pn). rewrite map_app in E. cbn in E. symmetry in E.
  apply map_eq_app in E as (a' & r & -> & Ea & Er). apply map_eq_cons in Er as (h' & b' & -> & Eh & Eb).
  assert (La : lenN a' = lenN a). { unfold lenN. rewrite <- (map_length h_key a'), <- (map_length h_key a), Ea. reflexivity. }
  assert (Lb : lenN b' = lenN b). { unfold lenN. rewrite <- (map_length h_key b'), <- (map_length h_key b), Eb. reflexivity. }
  split; [assumption|]. split. { intros L. apply Pm. len. lia. }
  exists a', h', b'. split; [reflexivity|]. split; [congruence|]. split; [congruence|].
  apply none_of_keys with b; auto.
Qed.
Lemma pointed_moves name p l moves moves' : moves = moves' -> pointed name p l moves -> pointed name p l moves'.
Proof. now intros ->. Qed.

(** Last of a name. *)
Lemma last_of_cons name x l h : last_of name (x :: l) h <->
  last_of name l h \/ (none_of name l /\ x = h /\ case_eq (h_key h) name = true).
Proof.
  split.
  - intros (a & b & E & K & F). destruct a as [|y a]; cbn in E.
    + injection E as <- <-. right. auto.
    + injection E as <- ->. left. exists a, b. auto.
  - intros [(a & b & -> & K & F)|(F & -> & K)].
    + exists (x :: a), b. auto.
    + exists [], l. auto.
Qed.
Lemma last_of_app name l h x : last_of name l h -> case_eq (h_key x) name = false -> last_of name (l ++ [x]) h.
Proof.
  intros (a & b & -> & K & F) E. exists a, (b ++ [x]). rewrite <- app_assoc. split; [reflexivity|]. split; [assumption|].
  now apply none_of_app.
Qed.
Lemma last_of_new name l h : case_eq (h_key h) name = true -> last_of name (l ++ [h]) h.
Proof. intros E. exists l, []. split; [reflexivity|]. split; [assumption|constructor]. Qed.
Lemma last_of_other name a x x' b h : last_of name (a ++ x :: b) h -> case_eq (h_key x) name = false -> h_key x' = h_key x ->
  last_of name (a ++ x' :: b) h.
Proof.
  intros L E K. induction a as [|y a IH]; cbn in *; rewrite last_of_cons in *.
  - destruct L as [L|(F & -> & C)]; [auto|congruence].
  - destruct L as [L|(F & -> & C)]; [left; auto|right]. repeat split; auto.
    apply none_of_keys with (a ++ x :: b); auto. rewrite !map_app. cbn. congruence.
Qed.
Lemma none_of_last name l h : none_of name l -> last_of name l h -> False.
Proof.
  intros F (a & b & -> & K & _). apply Forall_app in F as (_ & F). inversion F. congruence.
Qed.
Lemma last_of_fun name l h h' : last_of name l h -> last_of name l h' -> h = h'.
Proof.
  induction l as [|x l IH]; intros L L'.
  - destruct L as (a & b & E & _). now destruct a.
  - rewrite last_of_cons in L, L'. destruct L as [L|(F & <- & _)], L' as [L'|(F' & <- & _)]; auto;
      exfalso; eauto using none_of_last.
Qed.

(** ** The invariant *)
Definition lined (h : header) : Prop := exists s, h_line h = Some s.
Definition open_ok (m : message) : Prop :=
  match m_iter_header m with
  | None => Forall lined (a_used (m_headers m)) /\ Forall lined (a_used (m_body_headers m))
  | Some p => p = mkPtr (m_iter_body m) (a_moves (array m (m_iter_body m))) (lenN (a_used (array m (m_iter_body m))) - 1)
      /\ (exists a h, a_used (array m (m_iter_body m)) = a ++ [h] /\ Forall lined a)
      /\ Forall lined (a_used (array m (negb (m_iter_body m))))
  end.
Record wf (m : message) : Prop := {
  wf_h : shape (m_headers m);
  wf_b : shape (m_body_headers m);
  wf_clen : pointed (text "Content-Length") (m_clen m) (a_used (m_headers m)) (a_moves (m_headers m));
  wf_ctype : pointed (text "Content-Type") (m_ctype m) (a_used (m_headers m)) (a_moves (m_headers m));
  wf_cseq : pointed (text "CSeq") (m_cseq m) (a_used (m_headers m)) (a_moves (m_headers m));
  wf_open : open_ok m }.

(** What the building operations leave alone. *)
Definition kept (m m' : message) : Prop :=
  m_start m' = m_start m /\ m_cookie m' = m_cookie m /\ m_major m' = m_major m /\ m_minor m' = m_minor m
  /\ m_body m' = m_body m /\ m_raw m' = m_raw m /\ m_sealed m' = m_sealed m /\ m_used m' = m_used m.
Lemma kept_refl m : kept m m. Proof. repeat split. Qed.
Lemma kept_trans a b c : kept a b -> kept b c -> kept a c.
Proof. unfold kept. intuition congruence. Qed.

Lemma wf_new s : wf (msg_new s).
Proof.
  constructor; cbn; try constructor; try (now left); auto.
Qed.

(** ** Appending a header *)
Definition fits (m : message) : Prop := small (array m (m_iter_body m)).
Lemma array_shape m b : wf m -> shape (array m b).
Proof. intros []. now destruct b. Qed.

Definition pointers (m m' : message) (key : list byte) (p : ptr) : Prop :=
  m_clen m' = (if negb (m_iter_body m) && case_eq key (text "Content-Length") then Some p else m_clen m)
  /\ m_ctype m' = (if negb (m_iter_body m) && case_eq key (text "Content-Type") then Some p else m_ctype m)
  /\ m_cseq m' = (if negb (m_iter_body m) && case_eq key (text "CSeq") then Some p else m_cseq m).

Lemma append_header_ok m key value n : wf m -> fits m -> is_data m = false -> (n = 0 \/ value <> []) ->
  m_iter_header m = None ->
  exists m' cnt moves,
    let b := m_iter_body m in
    let p := mkPtr b moves (lenN (a_used (array m b))) in
    let h := if n =? 0 then mkHeader key None [] None
             else mkHeader key (Some (takeN n value)) (tokenize value) None in
    append_header m key value n = Ok (m', inl p)
    /\ array m' b = mkArr (a_used (array m b) ++ [h]) cnt moves /\ array m' (negb b) = array m (negb b)
    /\ m_iter_body m' = b /\ m_iter_header m' = None /\ m_iter_token m' = m_iter_token m /\ kept m m'
    /\ shape (array m' b)
    /\ pointed (text "Content-Length") (m_clen m') (a_used (m_headers m')) (a_moves (m_headers m'))
    /\ pointed (text "Content-Type") (m_ctype m') (a_used (m_headers m')) (a_moves (m_headers m'))
    /\ pointed (text "CSeq") (m_cseq m') (a_used (m_headers m')) (a_moves (m_headers m'))
    /\ pointers m m' key p.
Proof.
  intros Wm F D V I. set (b := m_iter_body m).
  set (h := if n =? 0 then mkHeader key None [] None else mkHeader key (Some (takeN n value)) (tokenize value) None).
  destruct (grow_ok (array m b) h (array_shape m b Wm) F) as (cnt & moves & Eg & Sh & Mv).
  assert (Ev : (if n =? 0 then inl (mkHeader key None [] None) else set_value (mkHeader key None [] None) value n true) = inl h).
  { unfold h, set_value. destruct (N.eqb_spec n 0); [reflexivity|]. destruct V as [->|V]; [congruence|].
    destruct value; [congruence|]. reflexivity. }
  assert (Kh : h_key h = key) by (unfold h; now destruct (n =? 0)).
  unfold append_header. rewrite D. fold b. rewrite Eg. cbn [bind]. rewrite Ev. cbn [a_moves a_used a_cnt].
  set (l := a_used (array m b)) in *. set (p := mkPtr b moves (lenN l)).
  set (m1 := set_array m b (mkArr (l ++ [h]) cnt moves)).
  set (m' := if b then m1 else _).
  exists m', cnt, moves. cbv zeta. split; [reflexivity|]. clear Ev Eg V.
  destruct Wm as [W1 W2 W3 W4 W5 _].
  destruct b eqn:Eb; subst b.
  - subst m'. unfold m1, set_array, array in *. cbn. do 6 (split; [first [reflexivity|assumption|repeat split]|]).
    do 4 (split; [assumption|]). unfold pointers. rewrite Eb. repeat split.
  - unfold array in l, Mv. cbn in l, Mv. unfold pointers. rewrite Eb. cbn [negb andb].
    assert (P : forall name, case_eq (h_key h) name = false -> forall p, pointed name p l (a_moves (m_headers m)) -> pointed name p (l ++ [h]) moves).
    { intros name E q Q. apply pointed_app with (a_moves (m_headers m)); auto. }
    assert (P' : forall name, case_eq (h_key h) name = true -> pointed name (Some p) (l ++ [h]) moves).
    { intros name E. now apply pointed_new. }
    rewrite Kh in P, P'.
    assert (X : forall n1 n2, case_eq n1 n2 = false -> case_eq key n1 = true -> case_eq key n2 = false).
    { intros n1 n2 E E1. destruct (case_eq key n2) eqn:E2; auto. rewrite (case_eq_trans _ _ _ E1 E2) in E. discriminate. }
    assert (N12 : case_eq (text "Content-Length") (text "Content-Type") = false) by reflexivity.
    assert (N13 : case_eq (text "Content-Length") (text "CSeq") = false) by reflexivity.
    assert (N23 : case_eq (text "Content-Type") (text "CSeq") = false) by reflexivity.
    subst m'. cbn [set_array] in m1.
    destruct (case_eq key (text "Content-Length")) eqn:E1.
    { pose proof (X _ _ N12 E1) as E2. pose proof (X _ _ N13 E1) as E3. rewrite E2, E3.
      unfold m1, array. cbn. do 7 (split; [first [reflexivity|assumption|repeat split]|]).
      split; [now apply P'|]. split; [now apply P|]. split; [now apply P|]. auto. }
    destruct (case_eq key (text "Content-Type")) eqn:E2.
    { pose proof (X _ _ N23 E2) as E3. rewrite E3.
      unfold m1, array. cbn. do 7 (split; [first [reflexivity|assumption|repeat split]|]).
      split; [now apply P|]. split; [now apply P'|]. split; [now apply P|]. auto. }
    destruct (case_eq key (text "CSeq")) eqn:E3.
    { unfold m1, array. cbn. do 7 (split; [first [reflexivity|assumption|repeat split]|]).
      split; [now apply P|]. split; [now apply P|]. split; [now apply P'|]. auto. }
    unfold m1, array. cbn. do 7 (split; [first [reflexivity|assumption|repeat split]|]).
    split; [now apply P|]. split; [now apply P|]. split; [now apply P|]. auto.
Qed.

(** ** Stores *)
Lemma array_set_array m b a : array (set_array m b a) b = a.
Proof. now destruct b. Qed.
Lemma array_set_other m b a : array (set_array m b a) (negb b) = array m (negb b).
Proof. now destruct b. Qed.
Lemma deref_mid m p x h y : a_used (array m (p_body p)) = x ++ h :: y -> p_moves p = a_moves (array m (p_body p)) ->
  p_idx p = lenN x -> deref m p = Ok h.
Proof. intros E M I. unfold deref. rewrite M, N.eqb_refl, I, E, nthN_mid. reflexivity. Qed.
Lemma store_used m p x h y h' : a_used (array m (p_body p)) = x ++ h :: y -> p_idx p = lenN x ->
  a_used (array (store m p h') (p_body p)) = x ++ h' :: y.
Proof. intros E I. unfold store. rewrite array_set_array. cbn. now rewrite I, E, replace_mid. Qed.
Lemma store_moves m p h' b : a_moves (array (store m p h') b) = a_moves (array m b).
Proof. unfold store. destruct (p_body p), b; reflexivity. Qed.
Lemma store_cnt m p h' b : a_cnt (array (store m p h') b) = a_cnt (array m b).
Proof. unfold store. destruct (p_body p), b; reflexivity. Qed.
Lemma store_other m p h' : array (store m p h') (negb (p_body p)) = array m (negb (p_body p)).
Proof. apply array_set_other. Qed.
Lemma store_kept m p h' : kept m (store m p h') /\ m_iter_body (store m p h') = m_iter_body m
  /\ m_iter_header (store m p h') = m_iter_header m /\ m_iter_token (store m p h') = m_iter_token m
  /\ m_clen (store m p h') = m_clen m /\ m_ctype (store m p h') = m_ctype m /\ m_cseq (store m p h') = m_cseq m.
Proof. unfold store, set_array. destruct (p_body p); repeat split. Qed.
Lemma shape_len a a' : shape a -> a_cnt a' = a_cnt a -> a_moves a' = a_moves a -> lenN (a_used a') = lenN (a_used a) -> shape a'.
Proof.
  intros [(E & H)|[H|H]] C M L.
  - left. rewrite E in L. rewrite C, M. split; [now apply lenN_0_nil|assumption].
  - right; left. now rewrite C, M, L.
  - right; right. now rewrite L.
Qed.

(** Everything of the invariant but the lines. *)
Record wf' (m : message) : Prop := {
  wf_h' : shape (m_headers m);
  wf_b' : shape (m_body_headers m);
  wf_clen' : pointed (text "Content-Length") (m_clen m) (a_used (m_headers m)) (a_moves (m_headers m));
  wf_ctype' : pointed (text "Content-Type") (m_ctype m) (a_used (m_headers m)) (a_moves (m_headers m));
  wf_cseq' : pointed (text "CSeq") (m_cseq m) (a_used (m_headers m)) (a_moves (m_headers m)) }.
Lemma wf_wf' m : wf m -> wf' m.
Proof. intros []; constructor; assumption. Qed.
Lemma wf'_wf m : wf' m -> open_ok m -> wf m.
Proof. intros []; constructor; assumption. Qed.
(** The invariant without the lines depends on the arrays and pointers only. *)
Lemma wf'_same m m' : wf' m -> m_headers m' = m_headers m -> m_body_headers m' = m_body_headers m ->
  m_clen m' = m_clen m -> m_ctype m' = m_ctype m -> m_cseq m' = m_cseq m -> wf' m'.
Proof. intros [] H1 H2 H3 H4 H5. constructor; rewrite ?H1, ?H2, ?H3, ?H4, ?H5; assumption. Qed.
Lemma store_wf' m p x h y h' : wf' m -> a_used (array m (p_body p)) = x ++ h :: y -> p_idx p = lenN x ->
  h_key h' = h_key h -> wf' (store m p h').
Proof.
  intros [A B C D E] U I K. pose proof (store_used m p x h y h' U I) as U'.
  destruct (store_kept m p h') as (_ & _ & _ & _ & S1 & S2 & S3).
  assert (L : forall b, lenN (a_used (array (store m p h') b)) = lenN (a_used (array m b))).
  { intros b. destruct (Bool.bool_dec b (p_body p)) as [->|N].
    - rewrite U', U. len. reflexivity.
    - replace b with (negb (p_body p)) by (destruct b, (p_body p); cbn in *; congruence). now rewrite store_other. }
  assert (Ks : map h_key (a_used (m_headers m)) = map h_key (a_used (m_headers (store m p h')))).
  { destruct (p_body p) eqn:Eb.
    - pose proof (store_other m p h') as O. rewrite Eb in O. cbn [negb array] in O. now rewrite O.
    - cbn [array] in U, U'. rewrite U, U', !map_app. cbn. now rewrite K. }
  pose proof (store_moves m p h' false) as M. cbn [array] in M.
  constructor.
  - apply (shape_len (array m false)); [exact A|exact (store_cnt m p h' false)|exact M|exact (L false)].
  - apply (shape_len (array m true)); [exact B|exact (store_cnt m p h' true)|exact (store_moves m p h' true)|exact (L true)].
  - rewrite S1, M. now apply (pointed_keys _ _ _ _ _ Ks).
  - rewrite S2, M. now apply (pointed_keys _ _ _ _ _ Ks).
  - rewrite S3, M. now apply (pointed_keys _ _ _ _ _ Ks).
Qed.

Lemma split_line_value line : let '(_, v, n) := split_line line in n = 0 \/ v <> [].
Proof.
  unfold split_line. destruct (break_at 58 line) as [k [[|c v]|]]; auto.
  destruct (drop_spaces v) eqn:E; [|right; discriminate]. left.
  assert (H : forall r, drop_spaces r = [] -> Forall (eq 32) r).
  { induction r as [|y r IH]; [constructor|]. intros Hr. cbn in Hr.
    destruct y as [|q]; [discriminate|]. do 6 (destruct q as [q|q|]; try discriminate). constructor; auto. }
  assert (H' : forall r, Forall (eq 32) r -> drop_spaces r = []).
  { induction r as [|y r IH]; intros F; [reflexivity|]. inversion F; subst. cbn. auto. }
  unfold trim_end. rewrite (H' (rev v)); [reflexivity|]. apply Forall_rev. now apply H.
Qed.

(** One more complete header. *)
Record added (m m' : message) (h : header) (p : ptr) : Prop := {
  ad_p : p = mkPtr (m_iter_body m) (a_moves (array m' (m_iter_body m))) (lenN (a_used (array m (m_iter_body m))));
  ad_used : a_used (array m' (m_iter_body m)) = a_used (array m (m_iter_body m)) ++ [h];
  ad_other : array m' (negb (m_iter_body m)) = array m (negb (m_iter_body m));
  ad_body : m_iter_body m' = m_iter_body m;
  ad_token : m_iter_token m' = m_iter_token m;
  ad_kept : kept m m';
  ad_pointers : pointers m m' (h_key h) p;
  ad_wf : wf' m' }.

Lemma append_header_added m key value n : wf m -> fits m -> is_data m = false -> (n = 0 \/ value <> []) ->
  m_iter_header m = None ->
  exists m' p, append_header m key value n = Ok (m', inl p)
    /\ added m m' (if n =? 0 then mkHeader key None [] None
                   else mkHeader key (Some (takeN n value)) (tokenize value) None) p
    /\ m_iter_header m' = None.
Proof.
  intros Wm F D V I. destruct (append_header_ok m key value n Wm F D V I) as (m' & cnt & moves & E & A & O & B & H & T & K & S & P1 & P2 & P3 & P).
  exists m'. eexists. split; [exact E|]. split; [|assumption].
  set (h := if n =? 0 then _ else _) in *.
  assert (Kh : h_key h = key) by (unfold h; now destruct (n =? 0)).
  constructor; rewrite ?A; try assumption; try reflexivity.
  - rewrite Kh. exact P.
  - destruct Wm as [W1 W2 _ _ _ _]. constructor; try assumption.
    + destruct (m_iter_body m); [cbn in O; now rewrite O|exact S].
    + destruct (m_iter_body m); [exact S|cbn in O; now rewrite O].
Qed.

Lemma added_deref m m' h p : added m m' h p -> deref m' p = Ok h.
Proof.
  intros [P U _ _ _ _ _ _]. apply (deref_mid m' p (a_used (array m (m_iter_body m))) h []); subst p; cbn; auto.
Qed.
Lemma added_store m m' h p h' : added m m' h p -> h_key h' = h_key h -> added m (store m' p h') h' p.
Proof.
  intros A K. destruct A as [P U O B T Kp Q Wm].
  destruct (store_kept m' p h') as (S0 & S1 & S2 & S3 & S4 & S5 & S6).
  assert (Ep : p_body p = m_iter_body m) by now subst p.
  assert (Ui : a_used (array m' (p_body p)) = a_used (array m (m_iter_body m)) ++ h :: []) by now rewrite Ep.
  assert (Ii : p_idx p = lenN (a_used (array m (m_iter_body m)))) by now subst p.
  constructor.
  - rewrite store_moves. exact P.
  - rewrite <- Ep. now rewrite (store_used m' p _ h [] h' Ui Ii), Ep.
  - rewrite <- Ep, store_other, Ep. exact O.
  - congruence.
  - congruence.
  - now apply kept_trans with m'.
  - unfold pointers in *. rewrite S4, S5, S6, K. exact Q.
  - now apply store_wf' with (a_used (array m (m_iter_body m))) h [].
Qed.
Lemma added_lines m m' h p : wf m -> m_iter_header m = None -> added m m' h p -> m_iter_header m' = None -> lined h -> wf m'.
Proof.
  intros Wm I A I' L. destruct A as [_ U O B _ _ _ W']. apply wf'_wf; [assumption|]. red. rewrite I'.
  destruct Wm as [_ _ _ _ _ Op]. red in Op. rewrite I in Op. destruct Op as (F1 & F2).
  destruct (m_iter_body m); cbn [array negb] in *; rewrite O, U; split; auto; apply Forall_app; auto.
Qed.

Definition line_header (line : list byte) : header :=
  let '(key, value, n) := split_line line in
  mkHeader key (if n =? 0 then None else Some (takeN n value)) (if n =? 0 then [] else tokenize value) (Some (line ++ [13; 10])).
Lemma append_header_line_ok m line : wf m -> fits m -> is_data m = false -> m_iter_header m = None ->
  exists m' p, append_header_line m line = Ok (m', inl p) /\ added m m' (line_header line) p
    /\ m_iter_header m' = None /\ wf m'.
Proof.
  intros Wm F D I. unfold append_header_line, line_header. pose proof (split_line_value line) as V.
  destruct (split_line line) as [[key value] n].
  destruct (append_header_added m key value n Wm F D V I) as (m1 & p & E & A & I1). rewrite E. cbn [bind].
  rewrite (added_deref _ _ _ _ A). cbn [bind].
  set (h := if n =? 0 then _ else _) in *. eexists. exists p. split; [reflexivity|].
  assert (Ek : mkHeader (h_key h) (h_value h) (h_tokens h) (Some (line ++ [13; 10]))
    = mkHeader key (if n =? 0 then None else Some (takeN n value)) (if n =? 0 then [] else tokenize value) (Some (line ++ [13; 10]))).
  { unfold h. now destruct (n =? 0). }
  rewrite <- Ek. set (h' := mkHeader (h_key h) _ _ _).
  assert (A' : added m (store m1 p h') h' p) by (apply (added_store m m1 h); auto).
  assert (I' : m_iter_header (store m1 p h') = None).
  { destruct (store_kept m1 p h') as (_ & _ & S & _). congruence. }
  split; [exact A'|]. split; [exact I'|]. apply (added_lines m _ h' p); auto. eexists; reflexivity.
Qed.

(** ** The building operations *)
Lemma guard_open m k : is_data m = false -> m_sealed m = false -> guard m k = k.
Proof. intros D S. unfold guard. now rewrite D, S. Qed.
Definition at_most_one (m m' : message) : Prop :=
  lenN (a_used (m_headers m')) <= lenN (a_used (m_headers m)) + 1
  /\ lenN (a_used (m_body_headers m')) <= lenN (a_used (m_body_headers m)) + 1.
Lemma added_count m m' h p : added m m' h p -> at_most_one m m'.
Proof.
  intros [_ U O _ _ _ _ _]. unfold at_most_one. destruct (m_iter_body m); cbn [array negb] in *; rewrite U, O; len; lia.
Qed.
Lemma at_most_refl m : at_most_one m m.
Proof. unfold at_most_one. lia. Qed.
Lemma kept_data m m' : kept m m' -> is_data m' = is_data m /\ m_sealed m' = m_sealed m /\ is_reply m' = is_reply m.
Proof. intros (E & _ & _ & _ & _ & _ & S & _). unfold is_data, is_reply. now rewrite E. Qed.

Lemma append_line_ok m line : wf m -> fits m -> is_data m = false -> m_sealed m = false -> m_iter_header m = None ->
  exists m' p, append_line m line = Ok (m', None) /\ added m m' (line_header line) p /\ m_iter_header m' = None /\ wf m'.
Proof.
  intros Wm F D S I. unfold append_line. rewrite guard_open, I by assumption. cbn [no_ptr negb].
  destruct (append_header_line_ok m line Wm F D I) as (m' & p & E & A & I' & W'). rewrite E. cbn [bind fst snd]. eauto 6.
Qed.

(** A message with a header just opened (or tokens added to it): [x] are the
    closed ones. *)
Record opened (m m' : message) (h : header) : Prop := {
  op_p : m_iter_header m' = Some (mkPtr (m_iter_body m) (a_moves (array m' (m_iter_body m))) (lenN (a_used (array m (m_iter_body m)))));
  op_added : exists m1, m' = set_iter m1 (m_iter_body m) (m_iter_header m') (m_iter_token m)
    /\ added m m1 h (mkPtr (m_iter_body m) (a_moves (array m' (m_iter_body m))) (lenN (a_used (array m (m_iter_body m))))) }.

Lemma open_header_ok m key : key <> [] -> wf m -> fits m -> is_data m = false -> m_sealed m = false -> m_iter_header m = None ->
  exists m', open_header m key = Ok (m', None) /\ opened m m' (mkHeader key None [] None).
Proof.
  intros Hk Wm F D S I. unfold open_header. destruct key as [|c key]; [congruence|]. rewrite guard_open, I by assumption.
  cbn [no_ptr negb]. destruct (append_header_added m (c :: key) [] 0 Wm F D (or_introl eq_refl) I) as (m1 & p & E & A & I1).
  rewrite E. cbn [bind]. change (0 =? 0) with true in A. cbn in A. eexists. split; [reflexivity|].
  assert (B := ad_body _ _ _ _ A). assert (T := ad_token _ _ _ _ A). assert (P := ad_p _ _ _ _ A).
  rewrite B, T.
  assert (M : forall b, array (set_iter m1 (m_iter_body m) (Some p) (m_iter_token m)) b = array m1 b) by (intros []; reflexivity).
  constructor; rewrite M.
  - cbn. now rewrite <- P.
  - exists m1. split; [reflexivity|]. rewrite <- P. exact A.
Qed.
Lemma opened_deref m m' h : opened m m' h -> exists p, m_iter_header m' = Some p /\ deref m' p = Ok h.
Proof.
  intros [P (m1 & E & A)]. eexists. split; [exact P|].
  replace (deref m' _) with (deref m1 (mkPtr (m_iter_body m) (a_moves (array m' (m_iter_body m))) (lenN (a_used (array m (m_iter_body m)))))).
  - exact (added_deref _ _ _ _ A).
  - rewrite E at 2. reflexivity.
Qed.
Lemma set_iter_array m a b c x : array (set_iter m a b c) x = array m x.
Proof. now destruct x. Qed.
Lemma opened_store m m' h p h' : opened m m' h -> m_iter_header m' = Some p -> h_key h' = h_key h -> opened m (store m' p h') h'.
Proof.
  intros [P (m1 & E & A)] I K. rewrite I in P. injection P as P.
  assert (Es : store m' p h' = set_iter (store m1 p h') (m_iter_body m) (m_iter_header m') (m_iter_token m)).
  { rewrite E at 1. unfold store. rewrite set_iter_array. now destruct (p_body p). }
  constructor.
  - destruct (store_kept m' p h') as (_ & _ & S & _). rewrite S, I, store_moves. now rewrite P.
  - exists (store m1 p h'). split.
    + destruct (store_kept m' p h') as (_ & _ & S & _). rewrite S. exact Es.
    + rewrite store_moves. rewrite <- P. apply added_store with h; auto. rewrite P. exact A.
Qed.
Lemma opened_kept m m' h : opened m m' h -> kept m m' /\ m_iter_body m' = m_iter_body m.
Proof.
  intros [_ (m1 & E & A)]. rewrite E. split; [|reflexivity]. destruct A as [_ _ _ _ _ K _ _]. exact K.
Qed.
Lemma opened_wf m m' h : wf m -> m_iter_header m = None -> opened m m' h -> wf m'.
Proof.
  intros Wm I [P (m1 & E & A)]. destruct A as [_ U O B T K Q W'].
  apply wf'_wf.
  - apply (wf'_same m1); [assumption|rewrite E; reflexivity..].
  - assert (Ea : forall b, array m' b = array m1 b) by (intros b; rewrite E; apply set_iter_array).
    assert (Eb : m_iter_body m' = m_iter_body m) by (rewrite E; reflexivity).
    red. rewrite P, Eb, !Ea, U, O. split.
    + f_equal. len. lia.
    + destruct Wm as [_ _ _ _ _ Op]. red in Op. rewrite I in Op. destruct Op as (F1 & F2). split.
      * eexists. exists h. split; [reflexivity|]. destruct (m_iter_body m); assumption.
      * destruct (m_iter_body m); assumption.
Qed.
Lemma token_ok m m' h t : opened m m' h -> is_data m = false -> m_sealed m = false -> h_line h = None -> h_value h = None ->
  exists m2, append_basic m' (BToken t) = Ok (m2, None) /\ opened m m2 (mkHeader (h_key h) None (h_tokens h ++ [t]) None).
Proof.
  intros O D S L V. destruct (opened_kept _ _ _ O) as (K & _). destruct (kept_data _ _ K) as (D' & S' & _).
  unfold append_basic. rewrite guard_open by congruence. destruct (opened_deref _ _ _ O) as (p & I & Ed).
  rewrite I, Ed. cbn [bind]. unfold append_token. rewrite L, V. eexists. split; [reflexivity|].
  apply opened_store with h; auto.
Qed.
Lemma tokens_ok m rest toks : forall m' key ts, opened m m' (mkHeader key None ts None) -> is_data m = false -> m_sealed m = false ->
  exists m2, append_ops m' (map BToken toks ++ rest) = append_ops m2 rest /\ opened m m2 (mkHeader key None (ts ++ toks) None).
Proof.
  induction toks as [|t toks IH]; intros m' key ts O D S.
  - exists m'. rewrite app_nil_r. auto.
  - destruct (token_ok m m' _ t O D S eq_refl eq_refl) as (m1 & E & O1). cbn [map app append_ops]. rewrite E. cbn [bind].
    cbn in O1. destruct (IH m1 key (ts ++ [t]) O1 D S) as (m2 & E2 & O2). exists m2. rewrite E2, <- app_assoc in *. auto.
Qed.
Lemma close_header_ok m m' h : opened m m' h -> wf m -> m_iter_header m = None -> is_data m = false -> m_sealed m = false -> h_line h = None ->
  exists m2 p, close_header m' = Ok (m2, None) /\ added m m2 (header_serialize h) p /\ m_iter_header m2 = None /\ wf m2.
Proof.
  intros O Wm I D S L. destruct (opened_kept _ _ _ O) as (K & B). destruct (kept_data _ _ K) as (D' & S' & _).
  unfold close_header. rewrite guard_open by congruence. destruct (opened_deref _ _ _ O) as (p & I' & Ed).
  rewrite I', Ed. cbn [bind].
  assert (Kh : h_key (header_serialize h) = h_key h) by (unfold header_serialize; now rewrite L).
  destruct (opened_store m m' h p (header_serialize h) O I' Kh) as [P (m1 & E & A)].
  eexists. eexists. split; [reflexivity|].
  assert (A2 : added m (set_iter (store m' p (header_serialize h)) (m_iter_body m') None (m_iter_token m')) (header_serialize h)
    (mkPtr (m_iter_body m) (a_moves (array (store m' p (header_serialize h)) (m_iter_body m))) (lenN (a_used (array m (m_iter_body m)))))).
  { assert (T : m_iter_token m' = m_iter_token m).
    { destruct O as [_ (m0 & E0 & _)]. rewrite E0. reflexivity. }
    rewrite B, T. set (q := mkPtr (m_iter_body m) _ _) in *. clearbody q. destruct A as [A1 A2 A3 A4 A5 A6 A7 A8].
    rewrite E. constructor; rewrite ?set_iter_array; auto. apply (wf'_same m1); auto. }
  split; [exact A2|]. split; [reflexivity|]. apply (added_lines m _ (header_serialize h) _ Wm I A2 eq_refl).
  unfold lined, header_serialize. rewrite L. eexists; reflexivity.
Qed.

Lemma append_basic_open m s : is_data m = false -> m_sealed m = false -> append_basic m (BOpen s) = open_header m s.
Proof. intros D S. unfold append_basic. now apply guard_open. Qed.
Lemma append_basic_close m : is_data m = false -> m_sealed m = false -> append_basic m BClose = close_header m.
Proof. intros D S. unfold append_basic. now apply guard_open. Qed.

(** Opening a header, giving it tokens and closing it. *)
Lemma field_ok m f rest : fst f <> [] -> wf m -> fits m -> is_data m = false -> m_sealed m = false -> m_iter_header m = None ->
  exists m' p, append_ops m (field_ops f ++ rest) = append_ops m' rest /\ added m m' (header_of f) p
    /\ m_iter_header m' = None /\ wf m'.
Proof.
  intros Hk Wm F D S I. destruct f as [key toks]. cbn [fst] in Hk. unfold field_ops. cbn [fst snd app append_ops].
  rewrite append_basic_open by assumption. destruct (open_header_ok m key Hk Wm F D S I) as (m1 & E & O). rewrite E. cbn [bind].
  rewrite <- app_assoc. destruct (tokens_ok m ([BClose] ++ rest) toks m1 key [] O D S) as (m2 & E2 & O2). rewrite E2.
  cbn [app append_ops]. destruct (opened_kept _ _ _ O2) as (K & _). destruct (kept_data _ _ K) as (D' & S' & _).
  rewrite append_basic_close by congruence.
  destruct (close_header_ok m m2 _ O2 Wm I D S eq_refl) as (m3 & p & E3 & A & I3 & W3). rewrite E3. cbn [bind].
  exists m3, p. split; [reflexivity|]. split; [exact A|]. auto.
Qed.

(** Any single operation: no undefined behaviour, the invariant is kept. *)
Lemma wf_open_deref m p : wf m -> m_iter_header m = Some p ->
  exists x h, deref m p = Ok h /\ p_body p = m_iter_body m /\ p_idx p = lenN x
    /\ a_used (array m (m_iter_body m)) = x ++ [h] /\ Forall lined x /\ Forall lined (a_used (array m (negb (m_iter_body m))))
    /\ p_moves p = a_moves (array m (m_iter_body m)).
Proof.
  intros [_ _ _ _ _ Op] I. red in Op. rewrite I in Op. destruct Op as (Ep & (x & h & U & L) & Lo).
  exists x, h. assert (Ei : p_idx p = lenN x) by (rewrite Ep; cbn; rewrite U; len; cbn; lia).
  repeat split; auto; try (now rewrite Ep).
  apply (deref_mid m p x h []); auto; rewrite Ep; cbn; auto.
Qed.
Lemma store_open_wf m p x h h' : wf m -> m_iter_header m = Some p -> p_body p = m_iter_body m -> p_idx p = lenN x ->
  a_used (array m (m_iter_body m)) = x ++ [h] -> Forall lined x -> Forall lined (a_used (array m (negb (m_iter_body m)))) ->
  p_moves p = a_moves (array m (m_iter_body m)) -> h_key h' = h_key h -> wf (store m p h').
Proof.
  intros Wm I B X U L Lo M K. assert (U0 : a_used (array m (p_body p)) = x ++ h :: []) by now rewrite B.
  apply wf'_wf. { apply store_wf' with x h []; auto using wf_wf'. }
  red. destruct (store_kept m p h') as (_ & S1 & S2 & _). rewrite S1, S2, I, store_moves, <- B.
  rewrite (store_used m p x h [] h' U0 X), store_other. split.
  - destruct p as [pb pm pi]. cbn in *. subst. f_equal. len. cbn. lia.
  - split; [eauto|]. now rewrite B.
Qed.

Lemma append_basic_ok m o : wf m -> fits m ->
  exists m' e, append_basic m o = Ok (m', e) /\ wf m' /\ kept m m' /\ at_most_one m m'
    /\ (m_sealed m = true \/ is_data m = true -> m' = m).
Proof.
  intros Wm F. unfold append_basic. destruct (is_data m) eqn:D.
  { unfold guard. rewrite D. do 2 eexists. split; [reflexivity|]. auto using kept_refl, at_most_refl. }
  destruct (m_sealed m) eqn:S.
  { unfold guard. rewrite D, S. do 2 eexists. split; [reflexivity|]. auto using kept_refl, at_most_refl. }
  rewrite guard_open by assumption.
  assert (Stay : forall e : option err, exists m' e', Ok (m, e) = Ok (m', e') /\ wf m' /\ kept m m' /\ at_most_one m m' /\ (false = true \/ false = true -> m' = m)).
  { intros e. exists m, e. split; [reflexivity|]. auto using kept_refl, at_most_refl. }
  assert (Nt : forall m' : message, false = true \/ false = true -> m' = m) by (intros m' [H|H]; discriminate).
  assert (Add : forall m' h p, added m m' h p -> wf m' -> m_iter_header m' = None \/ True ->
    exists m2 e, @Ok (message * option err) (m', None) = Ok (m2, e) /\ wf m2 /\ kept m m2 /\ at_most_one m m2 /\ (false = true \/ false = true -> m2 = m)).
  { intros m' h p A W' _. exists m', None. split; [reflexivity|]. split; [assumption|]. split; [exact (ad_kept _ _ _ _ A)|].
    split; [exact (added_count _ _ _ _ A)|]. apply Nt. }
  assert (Sto : forall p x h h', m_iter_header m = Some p -> p_body p = m_iter_body m -> p_idx p = lenN x ->
    a_used (array m (m_iter_body m)) = x ++ [h] -> Forall lined x -> Forall lined (a_used (array m (negb (m_iter_body m)))) ->
    p_moves p = a_moves (array m (m_iter_body m)) -> h_key h' = h_key h ->
    wf (store m p h') /\ kept m (store m p h') /\ at_most_one m (store m p h')).
  { intros p x h h' I B X U L Lo M K. split; [eapply store_open_wf; eauto|]. split; [apply store_kept|].
    assert (Len : forall b, lenN (a_used (array (store m p h') b)) = lenN (a_used (array m b))).
    { intros b. destruct (Bool.bool_dec b (p_body p)) as [->|N].
      - rewrite (store_used m p x h []); [rewrite B, U; len; reflexivity|now rewrite B|assumption].
      - replace b with (negb (p_body p)) by (destruct b, (p_body p); cbn in *; congruence). now rewrite store_other. }
    pose proof (Len false). pose proof (Len true). cbn [array] in *. split; lia. }
  destruct o as [s|s| | | |s|].
  - destruct (m_iter_header m) as [p|] eqn:I.
    + destruct (wf_open_deref m p Wm I) as (x & h & Ed & B & X & U & L & Lo & M). rewrite Ed. cbn [bind].
      unfold set_value. destruct ((lenN s =? 0) || match s with [] => true | _ => false end); [apply Stay|].
      destruct (negb false && _); [apply Stay|]. do 2 eexists. split; [reflexivity|].
      match goal with |- wf (store m p ?h') /\ _ => destruct (Sto p x h h' eq_refl B X U L Lo M eq_refl) as (H1 & H2 & H3); auto end.
    + destruct (append_line_ok m s Wm F D S I) as (m' & p & E & A & I' & W'). rewrite E. eapply Add; eauto.
  - unfold open_header. destruct s as [|c s]; [apply Stay|]. rewrite guard_open by assumption.
    destruct (m_iter_header m) as [p|] eqn:I; cbn [no_ptr negb]; [apply Stay|].
    assert (Hk : c :: s <> []) by discriminate.
    destruct (open_header_ok m (c :: s) Hk Wm F D S I) as (m' & E & O).
    unfold open_header in E. rewrite guard_open, I in E by assumption. cbn [no_ptr negb] in E. rewrite E.
    do 2 eexists. split; [reflexivity|]. split; [exact (opened_wf _ _ _ Wm I O)|].
    split; [apply (opened_kept _ _ _ O)|]. split; [|apply Nt].
    destruct O as [_ (m1 & E1 & A)]. apply added_count in A. rewrite E1. exact A.
  - unfold close_header. rewrite guard_open by assumption. destruct (m_iter_header m) as [p|] eqn:I; [|apply Stay].
    destruct (wf_open_deref m p Wm I) as (x & h & Ed & B & X & U & L & Lo & M). rewrite Ed. cbn [bind].
    do 2 eexists. split; [reflexivity|].
    assert (K : h_key (header_serialize h) = h_key h) by (unfold header_serialize; now destruct (h_line h)).
    destruct (Sto p x h (header_serialize h) eq_refl B X U L Lo M K) as (H1 & H2 & H3).
    split; [|split; [exact H2|split; [exact H3|apply Nt]]].
    apply wf'_wf. { apply (wf'_same (store m p (header_serialize h))); auto using wf_wf'. }
    red. cbn [m_iter_header set_iter].
    assert (U0 : a_used (array m (p_body p)) = x ++ h :: []) by now rewrite B.
    pose proof (store_used m p x h [] (header_serialize h) U0 X) as U1. pose proof (store_other m p (header_serialize h)) as O1.
    rewrite <- B in Lo. rewrite <- O1 in Lo.
    assert (L1 : Forall lined (x ++ [header_serialize h])).
    { apply Forall_app. split; [assumption|]. constructor; [|constructor]. unfold lined, header_serialize. destruct (h_line h) eqn:Eh; eexists; [exact Eh|reflexivity]. }
    rewrite <- U1 in L1. cbn [m_headers m_body_headers set_iter]. destruct (p_body p); split; assumption.
  - unfold open_body. rewrite guard_open by assumption. destruct (negb (no_ptr (m_iter_header m)) || m_iter_body m) eqn:C; [apply Stay|].
    apply orb_false_iff in C as (C1 & C2). destruct (m_iter_header m) as [p|] eqn:I; [discriminate|].
    do 2 eexists. split; [reflexivity|]. split; [|split; [repeat split|split; [exact (at_most_refl m)|apply Nt]]].
    apply wf'_wf. { apply (wf'_same m); auto using wf_wf'. }
    destruct Wm as [_ _ _ _ _ Op]. red in Op |- *. rewrite I in Op. exact Op.
  - unfold close_body. rewrite guard_open by assumption. destruct (negb (m_iter_body m)); [apply Stay|].
    destruct (m_iter_header m) as [p|] eqn:I; [apply Stay|]. cbn [no_ptr negb].
    do 2 eexists. split; [reflexivity|]. split; [|split; [repeat split|split; [exact (at_most_refl m)|apply Nt]]].
    apply wf'_wf. { apply (wf'_same m); auto using wf_wf'. }
    destruct Wm as [_ _ _ _ _ Op]. red in Op |- *. rewrite I in Op. exact Op.
  - destruct (m_iter_header m) as [p|] eqn:I; [|apply Stay].
    destruct (wf_open_deref m p Wm I) as (x & h & Ed & B & X & U & L & Lo & M). rewrite Ed. cbn [bind].
    unfold append_token. destruct (h_line h), (h_value h); try apply Stay.
    do 2 eexists. split; [reflexivity|]. match goal with |- wf (store m p ?h') /\ _ => destruct (Sto p x h h' eq_refl B X U L Lo M eq_refl) as (H1 & H2 & H3); auto end.
  - apply Stay.
Qed.
