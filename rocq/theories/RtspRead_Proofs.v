From Verif Require Import Base Text RtspMsg_Model RtspMsg_Spec RtspRead_Model RtspRead_Spec.
Local Open Scope list_scope.

Lemma same_refl m : same_contents m m.
Proof. destruct m. reflexivity. Qed.
Lemma same_trans a b c : same_contents a b -> same_contents b c -> same_contents a c.
Proof. unfold same_contents. intros B C. rewrite C, B. destruct a, b, c. reflexivity. Qed.
Lemma same_iter m b h t : same_contents m (set_iter m b h t).
Proof. destruct m. reflexivity. Qed.
Lemma same_front a b : same_contents a b -> front b = front a /\ behind b = behind a.
Proof. unfold same_contents. intros ->. destruct a. split; reflexivity. Qed.
Lemma deref_iter m b h t p : deref (set_iter m b h t) p = deref m p.
Proof. destruct m. reflexivity. Qed.
Lemma used m b : a_used (array m b) = if b then behind m else front m.
Proof. destruct b; reflexivity. Qed.

Lemma find_key_spec l name : forall k, match find_key l name k with
  | Some i => exists j h, i = k + j /\ nthN l j = Some h /\ first_named l name h
  | None => forall h, ~ first_named l name h
  end.
Proof.
  induction l as [|x l IH]; intros k; cbn [find_key].
  - intros h [y [z [E _]]]. destruct y; discriminate.
  - destruct (case_eq (h_key x) name) eqn:C.
    + exists 0, x. split; [lia|]. split; [reflexivity|]. exists [], l. split; [reflexivity|]. split; [exact C|intros ? []].
    + specialize (IH (k + 1)). destruct (find_key l name (k + 1)) as [i|].
      * destruct IH as [j [h [-> [N [y [z [E [C1 C2]]]]]]]]. exists (j + 1), h. split; [lia|]. split.
        -- unfold nthN in *. replace (N.to_nat (j + 1)) with (S (N.to_nat j)) by lia. exact N.
        -- exists (x :: y), z. split; [rewrite E; reflexivity|]. split; [exact C1|]. intros w [<-|I]; [exact C|exact (C2 w I)].
      * intros h [y [z [E [C1 C2]]]]. destruct y as [|w y]; cbn [app] in E; injection E as -> E; [congruence|].
        apply (IH h). exists y, z. split; [exact E|]. split; [exact C1|]. intros v I. apply C2. right. exact I.
Qed.
Lemma first_same l name g h : first_named l name g -> first_named l name h -> g = h.
Proof.
  intros [y [z [-> [C N]]]] [y' [z' [E [C' N']]]]. revert y' E N'. induction y as [|x y IH]; intros [|x' y'] E N'; cbn [app] in E; injection E as E1 E2.
  - exact E1.
  - subst x'. rewrite (N' g (or_introl eq_refl)) in C. discriminate.
  - subst x. rewrite (N h (or_introl eq_refl)) in C'. discriminate.
  - apply (IH (fun w I => N w (or_intror I)) y' E2). intros w I. apply N'. right. exact I.
Qed.
Lemma drop_nth {A} (l : list A) n : match nthN l n with Some t => dropN n l = t :: dropN (n + 1) l | None => dropN n l = [] end.
Proof.
  unfold nthN, dropN. replace (N.to_nat (n + 1)) with (S (N.to_nat n)) by lia. generalize (N.to_nat n). clear n. induction l as [|x l IH]; intros [|n]; cbn [nth_error skipn]; try reflexivity. exact (IH n).
Qed.

Lemma stands_iter m b h t p : m_sealed m = true -> is_data m = false -> b = in_body p ->
  match h, in_header p with None, None => True | Some x, Some (y, ts) => deref m x = Ok y /\ ts = dropN t (h_tokens y) | _, _ => False end -> stands (set_iter m b h t) p.
Proof. intros A B C D. unfold stands. destruct m as [st ck ma mi ib ih it hd cl ct cs bo bh ra se us]. exact (conj A (conj B (conj C D))). Qed.

(** One value. *)
Definition answers (m : message) (p : place) (o : rop) : Prop :=
  exists m' r, read_basic m o = Ok (m', r) /\ same_contents m m' /\
    match r with
    | inl v => exists q, stands m' q /\ reads1 (front m) (behind m) p o v q
    | inr _ => stands m' p /\ forall v q, ~ reads1 (front m) (behind m) p o v q
    end.
Ltac bad := repeat split; try assumption; try reflexivity; intros v q R; inversion R.
Lemma token_case m p (f : list byte -> list byte + err) (o : rop) : stands m p ->
  (forall t v, f t = inl v -> forall b h ts, reads1 (front m) (behind m) (mkPlace b (Some (h, t :: ts))) o v (mkPlace b (Some (h, ts)))) ->
  (forall t e, f t = inr e -> forall b h ts v q, ~ reads1 (front m) (behind m) (mkPlace b (Some (h, t :: ts))) o v q) ->
  (forall b v q, ~ reads1 (front m) (behind m) (mkPlace b None) o v q) ->
  (forall b h v q, ~ reads1 (front m) (behind m) (mkPlace b (Some (h, []))) o v q) ->
  exists m' r, match m_iter_header m with
      | None => Ok (m, inr EINVAL)
      | Some x =>
          do h <- deref m x;
          match nthN (h_tokens h) (m_iter_token m) with
          | None => Ok (m, inr ENOENT)
          | Some t => match f t with
                      | inl v => Ok (set_iter m (m_iter_body m) (m_iter_header m) (m_iter_token m + 1), inl v)
                      | inr e => Ok (m, inr e)
                      end
          end
      end = Ok (m', r) /\ same_contents m m' /\
    match r with
    | inl v => exists q, stands m' q /\ reads1 (front m) (behind m) p o v q
    | inr _ => stands m' p /\ forall v q, ~ reads1 (front m) (behind m) p o v q
    end.
Proof.
  intros S Y N1 N2 N3. pose proof S as [S1 [S2 [S3 S4]]]. destruct p as [b o']. cbn [in_body in_header] in *.
  destruct (m_iter_header m) as [x|] eqn:H, o' as [[h ts]|]; try (destruct S4; fail).
  - destruct S4 as [D ->]. rewrite D. cbn [bind]. pose proof (drop_nth (h_tokens h) (m_iter_token m)) as T.
    destruct (nthN (h_tokens h) (m_iter_token m)) as [t|] eqn:NT.
    + rewrite T in *. destruct (f t) as [v|e] eqn:F.
      * eexists. eexists. split; [reflexivity|]. split; [apply same_iter|]. exists (mkPlace b (Some (h, dropN (m_iter_token m + 1) (h_tokens h)))).
        split; [|apply Y; exact F]. apply stands_iter; try assumption. cbn [in_header]. split; [exact D|reflexivity].
      * exists m, (inr e). split; [reflexivity|]. split; [apply same_refl|]. split; [exact S|]. apply (N1 _ _ F).
    + rewrite T in *. exists m, (inr ENOENT). split; [reflexivity|]. split; [apply same_refl|]. split; [exact S|]. apply N3.
  - exists m, (inr EINVAL). split; [reflexivity|]. split; [apply same_refl|]. split; [exact S|]. apply N2.
Qed.
Lemma one m p o : stands m p -> answers m p o.
Proof.
  intros S. pose proof S as [S1 [S2 [S3 S4]]]. unfold answers, read_basic, rguard. rewrite S2, S1. cbn [negb].
  destruct o as [|name| | | | | |f|].
  - (* raw *) destruct p as [b o']. cbn [in_body in_header] in *. destruct (m_iter_header m) as [x|] eqn:H, o' as [[h ts]|]; try (destruct S4; fail).
    + destruct S4 as [D T]. rewrite D. cbn [bind]. eexists. eexists. split; [reflexivity|]. split; [apply same_refl|]. eexists. split; [exact S|constructor].
    + exists m, (inr EINVAL). split; [reflexivity|]. split; [apply same_refl|]. split; [exact S|]. intros v q R. inversion R.
  - (* enter *) unfold enter_header, rguard. destruct name as [|c name].
    { exists m, (inr EINVAL). split; [reflexivity|]. split; [apply same_refl|]. split; [exact S|]. intros v q R. inversion R; congruence. }
    rewrite S2, S1. cbn [negb]. destruct p as [b o']. cbn [in_body in_header] in *. destruct (m_iter_header m) as [x|] eqn:H, o' as [[h ts]|]; try (destruct S4; fail); cbn [no_ptr negb].
    + exists m, (inr EINVAL). split; [reflexivity|]. split; [apply same_refl|]. split; [exact S|]. intros v q R. inversion R.
    + pose proof (find_key_spec (a_used (array m (m_iter_body m))) (c :: name) 0) as F. rewrite used in F. rewrite used.
      destruct (find_key (if m_iter_body m then behind m else front m) (c :: name) 0) as [i|].
      * destruct F as [j [h [-> [NJ F]]]]. eexists. eexists. split; [reflexivity|]. split; [apply same_iter|].
        exists (mkPlace b (Some (h, h_tokens h))). split.
        -- apply stands_iter; try assumption. cbn [in_header]. split; [|rewrite dropN_0; reflexivity].
           unfold deref. cbn [p_body p_moves p_idx]. rewrite N.eqb_refl. rewrite used. change (0 + j) with j. rewrite NJ. reflexivity.
        -- rewrite <- S3. apply reads_enter; [discriminate|exact F].
      * exists m, (inr ENOENT). split; [reflexivity|]. split; [apply same_refl|]. split; [exact S|]. rewrite S3 in F. intros v q R. inversion R; subst. match goal with X : first_named _ _ _ |- _ => exact (F _ X) end.
  - (* exit *) exists (exit_header m), (inl []). split; [reflexivity|]. unfold exit_header. rewrite S1, S2. cbn [negb orb]. split; [apply same_iter|].
    exists (mkPlace (in_body p) None). split; [|destruct p; constructor]. apply stands_iter; try assumption; try reflexivity; exact Logic.I.
  - (* body *) unfold enter_body, rguard. rewrite S2, S1. cbn [negb]. destruct p as [b o']. cbn [in_body in_header] in *.
    destruct (m_iter_header m) as [x|] eqn:H, o' as [[h ts]|]; try (destruct S4; fail); cbn [no_ptr negb orb].
    + exists m, (inr EINVAL). split; [reflexivity|]. split; [apply same_refl|]. split; [exact S|]. intros v q R. inversion R.
    + rewrite S3. destruct b.
      * exists m, (inr EINVAL). split; [reflexivity|]. split; [apply same_refl|]. split; [exact S|]. intros v q R. inversion R.
      * eexists. eexists. split; [reflexivity|]. split; [apply same_iter|]. exists (mkPlace true None). split; [|constructor].
        apply stands_iter; try assumption; try reflexivity; exact Logic.I.
  - (* end of the body *) exists (exit_body m), (inl []). split; [reflexivity|]. unfold exit_body. rewrite S1, S2, S3. cbn [negb orb]. destruct p as [[|] o']; cbn [in_body in_header negb] in *.
    + split; [apply same_iter|]. exists top. split; [|constructor]. apply stands_iter; try assumption; try reflexivity; exact Logic.I.
    + split; [apply same_refl|]. exists (mkPlace false o'). split; [exact S|constructor].
  - apply (token_case m p (fun t => inl t)); [exact S| | | |].
    + intros t v [= <-] b h ts. constructor.
    + discriminate.
    + intros b v q R. inversion R.
    + intros b h v q R. inversion R.
  - apply (token_case m p (fun _ => inl [])); [exact S| | | |].
    + intros t v [= <-] b h ts. constructor.
    + discriminate.
    + intros b v q R. inversion R.
    + intros b h v q R. inversion R.
  - apply (token_case m p (fun t => match f t with Some v => inl v | None => inr EINVAL end)); [exact S| | | |].
    + intros t v E b h ts. constructor. destruct (f t); congruence.
    + intros t e E b h ts v q R. inversion R; subst. destruct (f t); congruence.
    + intros b v q R. inversion R.
    + intros b h v q R. inversion R.
  - apply (token_case m p (fun _ => inr EINVAL)); [exact S| | | |].
    + discriminate.
    + intros t e _ b h ts v q R. inversion R.
    + intros b v q R. inversion R.
    + intros b h v q R. inversion R.
Qed.
Lemma reads1_fun hs bs p o v q w r : reads1 hs bs p o v q -> reads1 hs bs p o w r -> v = w /\ q = r.
Proof.
  intros A B. destruct A; inversion B; subst; try (split; reflexivity).
  - match goal with X : first_named _ _ h, Y : first_named _ _ ?g |- context [?g] => rewrite (first_same _ _ _ _ X Y) end. split; reflexivity.
  - split; [congruence|reflexivity].
Qed.

Lemma reads_inv hs bs p o ops vs q : reads hs bs p (o :: ops) vs q -> exists v ws r, vs = v :: ws /\ reads1 hs bs p o v r /\ reads hs bs r ops ws q.
Proof. intros H. inversion H; subst. eexists. eexists. eexists. split; [reflexivity|]. split; eassumption. Qed.
Lemma loop ops : forall m p, stands m p -> exists m' r, read_loop m ops = Ok (m', r) /\ same_contents m m' /\
  match r with
  | inl vs => exists q, stands m' q /\ reads (front m) (behind m) p ops vs q
  | inr _ => stands m' top /\ forall vs q, ~ reads (front m) (behind m) p ops vs q
  end.
Proof.
  induction ops as [|o ops IH]; intros m p S; cbn [read_loop].
  - exists m, (inl []). split; [reflexivity|]. split; [apply same_refl|]. exists p. split; [exact S|constructor].
  - destruct (one m p o S) as [m1 [r [E [C R]]]]. rewrite E. cbn [bind]. destruct (same_front _ _ C) as [F B]. destruct r as [v|e].
    + destruct R as [q [S1 R]]. destruct (IH m1 q S1) as [m2 [r2 [E2 [C2 R2]]]]. rewrite E2. cbn [bind]. rewrite F, B in R2. destruct r2 as [vs|e].
      * exists m2, (inl (v :: vs)). split; [reflexivity|]. split; [exact (same_trans _ _ _ C C2)|]. destruct R2 as [q2 [S2 R2]]. exists q2. split; [exact S2|exact (reads_cons _ _ _ _ _ _ _ _ _ R R2)].
      * exists m2, (inr e). split; [reflexivity|]. split; [exact (same_trans _ _ _ C C2)|]. destruct R2 as [S2 N]. split; [exact S2|].
        intros us q' H. apply reads_inv in H as [v' [ws [r [-> [R' H]]]]]. destruct (reads1_fun _ _ _ _ _ _ _ _ R R') as [_ <-]. exact (N _ _ H).
    + destruct R as [S1 N]. eexists. exists (inr e). split; [reflexivity|].
      assert (G : forall x, stands x p -> same_contents x (let x := if m_iter_body x then exit_body x else x in if no_ptr (m_iter_header x) then x else exit_header x)
         /\ stands (let x := if m_iter_body x then exit_body x else x in if no_ptr (m_iter_header x) then x else exit_header x) top).
      { clear. intros x [A [B [C D]]]. unfold exit_body, exit_header. destruct x as [st ck ma mi ib ih it hd cl ct cs bo bh ra se us]. cbn [m_sealed is_data m_start m_iter_body m_iter_header m_iter_token set_iter] in *. subst se. unfold is_data in *. cbn [m_start] in *.
        destruct ib; cbn [negb orb m_iter_header set_iter no_ptr m_sealed m_iter_body m_start is_data] in *.
        - unfold is_data. cbn [m_start]. rewrite B. cbn [orb negb set_iter m_iter_header no_ptr]. split; [reflexivity|]. repeat split. exact B.
        - destruct ih; cbn [no_ptr m_iter_header]; [unfold is_data; cbn [m_start m_sealed]; rewrite B; cbn [orb negb set_iter]|]; (split; [reflexivity|]; repeat split; exact B). }
      destruct (G m1 S1) as [G1 G2]. split; [exact (same_trans _ _ _ C G1)|]. split; [exact G2|].
      intros us q H. apply reads_inv in H as [v' [ws [r [-> [R' H]]]]]. exact (N _ _ R').
Qed.
Lemma readv_all m p ops : stands m p -> exists m' r, readv m (Some ops) = Ok (m', r) /\ same_contents m m' /\
  match r with
  | inl vs => exists q, stands m' q /\ reads (front m) (behind m) p ops vs q
  | inr _ => stands m' top /\ forall vs q, ~ reads (front m) (behind m) p ops vs q
  end.
Proof. intros S. pose proof S as [S1 [S2 _]]. unfold readv, rguard. rewrite S2, S1. cbn [negb]. apply loop. exact S. Qed.
Lemma reads_fun hs bs ops : forall p vs q ws r, reads hs bs p ops vs q -> reads hs bs p ops ws r -> vs = ws /\ q = r.
Proof.
  induction ops as [|o ops IH]; intros p vs q ws r A B; [inversion A; inversion B; subst; split; reflexivity|].
  apply reads_inv in A as [v [vs' [x [-> [A1 A2]]]]]. apply reads_inv in B as [w [ws' [y [-> [B1 B2]]]]].
  destruct (reads1_fun _ _ _ _ _ _ _ _ A1 B1) as [-> ->]. destruct (IH _ _ _ _ _ A2 B2) as [-> ->]. split; reflexivity.
Qed.
Lemma readv_exact m p ops vs q : stands m p -> reads (front m) (behind m) p ops vs q -> exists m', readv m (Some ops) = Ok (m', inl vs) /\ stands m' q /\ same_contents m m'.
Proof.
  intros S R. destruct (readv_all m p ops S) as [m' [r [E [C H]]]]. destruct r as [ws|e].
  - destruct H as [q' [S' R']]. destruct (reads_fun _ _ _ _ _ _ _ _ R R') as [<- <-]. exists m'. repeat split; try assumption; apply S'.
  - destruct H as [_ N]. destruct (N _ _ R).
Qed.
Lemma readv_not m ops : is_data m = true -> readv m ops = Ok (m, inr EINVAL).
Proof. intros D. unfold readv, rguard. rewrite D. reflexivity. Qed.
Lemma readv_unsealed m ops : is_data m = false -> m_sealed m = false -> readv m ops = Ok (m, inr EBUSY) /\ skip m ops = Ok (m, Some EBUSY).
Proof. intros D S. unfold readv, rguard, skip. rewrite D, S. split; reflexivity. Qed.
Lemma sealed_top m : m_sealed m = true -> is_data m = false -> m_iter_body m = false -> m_iter_header m = None -> stands m top.
Proof. intros A B C D. unfold stands. rewrite D. repeat split; assumption. Qed.

Lemma skip_enter m p name ops : stands m p -> skip m (Some (REnter name :: ops)) = Ok (m, Some EINVAL).
Proof. intros [S1 [S2 _]]. unfold skip. rewrite S2, S1. cbn [negb skip_loop nameless]. unfold read_basic, rguard. rewrite S2, S1. reflexivity. Qed.
Lemma skip_loop_all ops : forall m p, stands m p -> existsb enters ops = false -> exists m' e, skip_loop m ops = Ok (m', e) /\ same_contents m m' /\
  match e with
  | None => exists vs q, stands m' q /\ reads (front m) (behind m) p ops vs q
  | Some _ => (exists before o after vs q, ops = before ++ o :: after /\ stands m' q /\ reads (front m) (behind m) p before vs q /\ forall v r, ~ reads1 (front m) (behind m) q o v r)
              /\ forall vs q, ~ reads (front m) (behind m) p ops vs q
  end.
Proof.
  induction ops as [|o ops IH]; intros m p S N; cbn [skip_loop].
  - exists m, None. split; [reflexivity|]. split; [apply same_refl|]. exists [], p. split; [exact S|constructor].
  - cbn [existsb] in N. apply Bool.orb_false_iff in N as [NO N]. assert (nameless o = o) as -> by (destruct o; [reflexivity|discriminate|reflexivity..]).
    destruct (one m p o S) as [m1 [r [E [C R]]]]. rewrite E. cbn [bind]. destruct (same_front _ _ C) as [F B]. destruct r as [v|e].
    + destruct R as [q [S1 R]]. destruct (IH m1 q S1 N) as [m2 [e2 [E2 [C2 R2]]]]. rewrite F, B in R2. exists m2, e2. split; [exact E2|]. split; [exact (same_trans _ _ _ C C2)|]. destruct e2 as [e|].
      * destruct R2 as [[y [o' [z [vs [q' [-> [S' [R' NR]]]]]]]] NR2]. split.
        -- exists (o :: y), o', z, (v :: vs), q'. split; [reflexivity|]. split; [exact S'|]. split; [exact (reads_cons _ _ _ _ _ _ _ _ _ R R')|exact NR].
        -- intros us q2 H. apply reads_inv in H as [v2 [ws [r [-> [R2 H]]]]]. destruct (reads1_fun _ _ _ _ _ _ _ _ R R2) as [_ <-]. exact (NR2 _ _ H).
      * destruct R2 as [vs [q' [S' R']]]. exists (v :: vs), q'. split; [exact S'|exact (reads_cons _ _ _ _ _ _ _ _ _ R R')].
    + destruct R as [S1 NR]. exists m1, (Some e). split; [reflexivity|]. split; [exact C|]. split.
      * exists [], o, ops, [], p. split; [reflexivity|]. split; [exact S1|]. split; [constructor|exact NR].
      * intros us q H. apply reads_inv in H as [v' [ws [r [-> [R' H]]]]]. exact (NR _ _ R').
Qed.
Lemma skip_all m p ops : stands m p -> existsb enters ops = false -> exists m' e, skip m (Some ops) = Ok (m', e) /\ same_contents m m' /\
  match e with
  | None => exists vs q, stands m' q /\ reads (front m) (behind m) p ops vs q
  | Some _ => (exists before o after vs q, ops = before ++ o :: after /\ stands m' q /\ reads (front m) (behind m) p before vs q /\ forall v r, ~ reads1 (front m) (behind m) q o v r)
              /\ forall vs q, ~ reads (front m) (behind m) p ops vs q
  end.
Proof. intros S N. pose proof S as [S1 [S2 _]]. unfold skip. rewrite S2, S1. cbn [negb]. apply skip_loop_all; assumption. Qed.

Lemma rewind_back m b h ts : stands m (mkPlace b (Some (h, ts))) -> snd (rewind m false) = None /\ stands (fst (rewind m false)) (mkPlace b (Some (h, h_tokens h))) /\ same_contents m (fst (rewind m false)).
Proof.
  intros [S1 [S2 [S3 S4]]]. unfold rewind. rewrite S2, S1. cbn [negb fst snd]. split; [reflexivity|]. split; [|apply same_iter].
  apply stands_iter; try assumption. cbn [in_header] in *. destruct (m_iter_header m); [|destruct S4]. destruct S4 as [D _]. split; [exact D|rewrite dropN_0; reflexivity].
Qed.
Lemma rewind_top m p : stands m p -> snd (rewind m true) = None /\ stands (fst (rewind m true)) top /\ same_contents m (fst (rewind m true)).
Proof.
  intros [S1 [S2 _]]. unfold rewind. rewrite S2, S1. cbn [negb fst snd]. split; [reflexivity|]. split; [|apply same_iter].
  apply stands_iter; try assumption; try reflexivity; exact Logic.I.
Qed.
Lemma again m b h ts : stands m (mkPlace b (Some (h, ts))) -> exists m', readv (fst (rewind m false)) (Some (map (fun _ => RString) (h_tokens h))) = Ok (m', inl (h_tokens h)).
Proof.
  intros S. destruct (rewind_back _ _ _ _ S) as [_ [S' _]].
  assert (R : forall l hs bs, reads hs bs (mkPlace b (Some (h, l))) (map (fun _ => RString) l) l (mkPlace b (Some (h, [])))).
  { intros l hs bs. induction l as [|t l IH]; cbn [map]; [constructor|]. exact (reads_cons _ _ _ _ _ _ _ _ _ (reads_string hs bs b h t l) IH). }
  destruct (readv_exact _ _ _ _ _ S' (R (h_tokens h) _ _)) as [m' [E _]]. exists m'. exact E.
Qed.

Lemma bytes_when m : (get_body m = if is_data m || negb (m_sealed m) then None else m_body m) /\ (get_raw m = if m_sealed m then m_raw m else None).
Proof. unfold get_body, get_raw. destruct (is_data m), (m_sealed m); auto. Qed.
