(** Sealing a message. *)
From Coq Require Import String.
From Verif Require Import Base Align_Model Atoi_Model Qstr_Model Text Text_Proofs RtspMsg_Model RtspMsg_Spec RtspMsg_Proofs.

Record closed (m : message) : Prop := {
  cl_wf : wf m; cl_data : is_data m = false; cl_sealed : m_sealed m = false;
  cl_iter : m_iter_header m = None; cl_body : m_iter_body m = false }.

Lemma added_other m m' h p name : added m m' h p -> m_iter_body m = false -> case_eq (h_key h) name = false ->
  (none_of name (a_used (m_headers m)) -> none_of name (a_used (m_headers m')))
  /\ (forall x, last_of name (a_used (m_headers m)) x -> last_of name (a_used (m_headers m')) x).
Proof.
  intros [_ U _ _ _ _ _ _] B E. rewrite B in U. cbn in U. rewrite U. split.
  - intros. now apply none_of_app.
  - intros. now apply last_of_app.
Qed.
Lemma case_eq_sym a b : case_eq a b = case_eq b a.
Proof.
  destruct (case_eq a b) eqn:E1, (case_eq b a) eqn:E2; auto.
  - apply case_eq_lower in E1. symmetry in E1. apply case_eq_lower in E1. congruence.
  - apply case_eq_lower in E2. symmetry in E2. apply case_eq_lower in E2. congruence.
Qed.

Lemma p61 : 2 ^ 61 = 2305843009213693952. Proof. reflexivity. Qed.
Lemma set_known_ok m p add name v : closed m -> name <> [] -> v <> [] -> join [v] = v ->
  pointed name p (a_used (m_headers m)) (a_moves (m_headers m)) ->
  lenN (a_used (m_headers m)) < 2 ^ 61 -> lenN (a_used (m_headers m)) <= 64 \/ set_known_header m p add name v <> UB ->
  exists m', set_known_header m p add name v = Ok (m', None) /\ closed m' /\ kept m m'
    /\ m_body_headers m' = m_body_headers m
    /\ (p <> None \/ add = true -> says m' name v) /\ (p = None -> add = false -> m' = m)
    /\ lenN (a_used (m_headers m')) <= lenN (a_used (m_headers m)) + 1
    /\ (forall other, case_eq name other = false ->
          (none_of other (a_used (m_headers m)) -> none_of other (a_used (m_headers m')))
          /\ (forall h, last_of other (a_used (m_headers m)) h -> last_of other (a_used (m_headers m')) h))
    /\ (p = None -> add = true -> exists q, added m m' (header_of (name, [v])) q).
Proof.
  intros [Wm D S I B] Hn Hv Hj P Lb L. rewrite p61 in Lb. unfold set_known_header in *. destruct p as [p|].
  - destruct P as (Pb & Pm & x & h & y & U & Pi & Ph & Pn). 
    assert (Pm' : p_moves p = a_moves (m_headers m)).
    { destruct L as [L|L]; [auto|]. unfold deref in L. rewrite Pb in L. cbn [array] in L.
      destruct (N.eqb_spec (p_moves p) (a_moves (m_headers m))); [assumption|]. now cbn [bind] in L. }
    assert (Ed : deref m p = Ok h). { apply (deref_mid m p x h y); rewrite ?Pb; auto. }
    rewrite Ed. cbn [bind]. unfold set_value.
    assert (E0 : (lenN v =? 0) || match v with [] => true | _ => false end = false).
    { destruct v; [congruence|]. len. destruct (N.eqb_spec (1 + lenN v) 0); [lia|reflexivity]. }
    rewrite E0. cbn [negb andb]. rewrite takeN_all by lia.
    set (h' := mkHeader (h_key h) (Some v) (tokenize v) None). unfold header_serialize. cbn [h_line h_value h_tokens h_key h'].
    set (h2 := mkHeader (h_key h) (Some v) (tokenize v) (Some (h_key h ++ [58; 32] ++ v ++ [13; 10]))).
    set (m' := store m p h2). exists m'. split; [reflexivity|].
    assert (U0 : a_used (array m (p_body p)) = x ++ h :: y) by now rewrite Pb.
    pose proof (store_used m p x h y h2 U0 Pi) as U'. rewrite Pb in U'. cbn [array] in U'. fold m' in U'.
    destruct (store_kept m p h2) as (K & S1 & S2 & _). fold m' in K, S1, S2.
    pose proof (store_other m p h2) as O. rewrite Pb in O. cbn [negb array] in O. fold m' in O.
    destruct (kept_data _ _ K) as (D' & S' & _).
    assert (W' : wf m').
    { apply wf'_wf. - apply store_wf' with x h y; auto using wf_wf'.
      - red. rewrite S2, I, U', O. destruct Wm as [_ _ _ _ _ Op]. red in Op. rewrite I in Op. destruct Op as (F1 & F2).
        split; [|assumption]. rewrite U in F1. apply Forall_app in F1 as (F1 & F3). inversion F3; subst.
        apply Forall_app. split; [assumption|]. constructor; [|assumption]. eexists; reflexivity. }
    split; [constructor; congruence || assumption|]. split; [exact K|]. split; [exact O|].
    split. { intros _. exists h2. rewrite U'. repeat split. exists x, y. split; [reflexivity|]. split; [exact Ph|exact Pn]. }
    split; [discriminate|]. split. { rewrite U', U. len. lia. }
    split; [|discriminate]. intros other Eo. rewrite U', U.
    assert (Xo : case_eq (h_key h) other = false).
    { destruct (case_eq (h_key h) other) eqn:X; auto. rewrite (case_eq_trans _ _ _ Ph X) in Eo. discriminate. }
    split.
    + apply none_of_keys. rewrite !map_app. reflexivity.
    + intros z Lz. apply last_of_other with h; auto.
  - destruct add.
    + assert (F : fits m). { red. rewrite B. red. rewrite p62. cbn [array]. lia. }
      destruct (field_ok m (name, [v]) [] Hn Wm F D S I) as (m' & q & E & A & I' & W').
      unfold append. rewrite guard_open by assumption. unfold field_ops in E. cbn [fst snd map app append_ops] in E |- *.
      rewrite E. exists m'. split; [reflexivity|].
      pose proof (ad_kept _ _ _ _ A) as K. destruct (kept_data _ _ K) as (D' & S' & _).
      pose proof (ad_body _ _ _ _ A) as B'. rewrite B in B'. pose proof (ad_other _ _ _ _ A) as O. rewrite B in O. cbn [negb array] in O.
      pose proof (ad_used _ _ _ _ A) as U. rewrite B in U. cbn [array] in U.
      split; [constructor; congruence|]. split; [exact K|]. split; [exact O|].
      split. { intros _. exists (header_of (name, [v])). rewrite U. split; [apply last_of_new, case_eq_refl|].
        unfold header_of, field_line. cbn [h_value h_line h_key fst snd]. now rewrite Hj. }
      split; [discriminate|]. split. { rewrite U. len. lia. }
      split; [|eauto]. intros other Eo. apply (added_other m m' _ q other A B). exact Eo.
    + exists m. split; [reflexivity|]. split; [constructor; assumption|]. split; [apply kept_refl|]. split; [reflexivity|].
      split; [intros [H|H]; congruence|]. split; [reflexivity|]. split; [lia|]. split; [auto|discriminate].
Qed.

(** The text of lines. *)
Lemma lines_ok l : Forall lined l -> lines l = Ok (text_of l).
Proof.
  induction 1 as [|h l (s & E) H IH]; [reflexivity|]. cbn [lines text_of flat_map]. rewrite E. unfold text_of in IH. rewrite IH. reflexivity.
Qed.

Definition body_of (m : message) : list byte :=
  match m_body m with Some b => b | None => text_of (a_used (m_body_headers m)) end.

Lemma serialize_ok m : closed m -> lenN (a_used (m_headers m)) < 2 ^ 60 ->
  lenN (a_used (m_headers m)) <= 61 \/ serialize_common m <> UB ->
  exists m', serialize_common m = Ok (m', None) /\ closed m'
    /\ m_start m' = m_start m /\ m_cookie m' = m_cookie m /\ m_major m' = m_major m /\ m_minor m' = m_minor m
    /\ m_used m' = m_used m /\ m_body_headers m' = m_body_headers m
    /\ m_body m' = Some (body_of m)
    /\ m_raw m' = Some (start_line m ++ text_of (a_used (m_headers m')) ++ [13; 10] ++ body_of m)
    /\ says m' (text "CSeq") (dec (without_flag (m_cookie m)))
    /\ (a_used (m_body_headers m) <> [] -> says m' (text "Content-Type") (text "text/parameters"))
    /\ (says m' (text "Content-Length") (dec (lenN (body_of m) mod 2 ^ 32)) /\ (m_clen m = None /\ body_of m <> [])
       \/ says m' (text "Content-Length") (dec (lenN (body_of m))) /\ m_clen m <> None
       \/ none_of (text "Content-Length") (a_used (m_headers m')) /\ body_of m = [] /\ m_clen m = None)
    /\ (none_of (text "Content-Length") (a_used (m_headers m)) -> none_of (text "Content-Type") (a_used (m_headers m)) ->
       none_of (text "CSeq") (a_used (m_headers m)) ->
       a_used (m_headers m') = a_used (m_headers m)
         ++ (if lenN (body_of m) =? 0 then [] else [header_of (text "Content-Length", [dec (lenN (body_of m) mod 2 ^ 32)])])
         ++ (match a_used (m_body_headers m) with [] => [] | _ => [header_of (text "Content-Type", [text "text/parameters"])] end)
         ++ [header_of (text "CSeq", [dec (without_flag (m_cookie m))])]).
Proof.
  intros C Lb L. assert (E60 : 2 ^ 60 = 1152921504606846976) by reflexivity. rewrite E60 in Lb. clear E60. assert (C0 := C). destruct C as [Wm D S I B].
  assert (Lines : Forall lined (a_used (m_headers m)) /\ Forall lined (a_used (m_body_headers m))).
  { destruct Wm as [_ _ _ _ _ Op]. red in Op. now rewrite I in Op. }
  unfold serialize_common in *.
  assert (Eb : match m_body m with Some b => Ok b | None => lines (a_used (m_body_headers m)) end = Ok (body_of m)).
  { unfold body_of. destruct (m_body m); [reflexivity|]. apply lines_ok. apply Lines. }
  rewrite Eb in *. cbn [bind] in *. set (body := body_of m) in *.
  set (A := match m_clen m with Some _ => set_known_header m (m_clen m) true (text "Content-Length") (dec (lenN body))
            | None => set_known_header m None (negb (lenN body =? 0)) (text "Content-Length") (dec (lenN body mod 2 ^ 32)) end) in *.
  set (v := match m_clen m with Some _ => dec (lenN body) | None => dec (lenN body mod 2 ^ 32) end).
  set (add := match m_clen m with Some _ => true | None => negb (lenN body =? 0) end).
  assert (EA : A = set_known_header m (m_clen m) add (text "Content-Length") v) by (unfold A, v, add; now destruct (m_clen m)).
  assert (Hv : v <> [] /\ join [v] = v).
  { unfold v. destruct (m_clen m); split; auto using dec_nonnil, join_one, dec_simple. }
  destruct (set_known_ok m (m_clen m) add (text "Content-Length") v C0) as (m1 & E1 & C1 & K1 & O1 & Y1 & N1 & L1 & T1 & X1);
    [discriminate|apply Hv|apply Hv|apply (wf_clen m Wm)|rewrite p61; lia| |].
  { destruct L as [L|L]; [left; lia|right]. rewrite <- EA. intros E. apply L. rewrite E. reflexivity. }
  rewrite EA in *. rewrite E1 in *. cbn [bind] in *. rewrite O1 in *.
  set (A2 := match a_used (m_body_headers m) with [] => Ok (m1, None) | _ => set_known_header m1 (m_ctype m1) true (text "Content-Type") (text "text/parameters") end) in *.
  assert (E2 : exists m2, A2 = Ok (m2, None) /\ closed m2 /\ kept m1 m2 /\ m_body_headers m2 = m_body_headers m1
    /\ (a_used (m_body_headers m) <> [] -> says m2 (text "Content-Type") (text "text/parameters"))
    /\ lenN (a_used (m_headers m2)) <= lenN (a_used (m_headers m1)) + 1
    /\ (forall other, case_eq (text "Content-Type") other = false ->
          (none_of other (a_used (m_headers m1)) -> none_of other (a_used (m_headers m2)))
          /\ (forall h, last_of other (a_used (m_headers m1)) h -> last_of other (a_used (m_headers m2)) h))
    /\ (m_ctype m1 = None -> a_used (m_headers m2) = a_used (m_headers m1) ++ match a_used (m_body_headers m) with [] => [] | _ => [header_of (text "Content-Type", [text "text/parameters"])] end)).
  { unfold A2. destruct (a_used (m_body_headers m)) as [|bh bt] eqn:Ebh.
    - exists m1. split; [reflexivity|]. split; [assumption|]. split; [apply kept_refl|]. split; [reflexivity|].
      split; [congruence|]. split; [lia|]. split; [auto|]. intros _. now rewrite app_nil_r.
    - destruct (set_known_ok m1 (m_ctype m1) true (text "Content-Type") (text "text/parameters") C1) as (m2 & E2 & C2 & K2 & O2 & Y2 & N2 & L2 & T2 & X2);
        [discriminate|discriminate|reflexivity|apply (wf_ctype m1), C1|rewrite p61; lia| |].
      { destruct L as [L|L]; [left; lia|right]. intros E. apply L. unfold A2. rewrite E. reflexivity. }
      exists m2. do 4 (split; [assumption|]). split; [intros _; apply Y2; auto|]. split; [assumption|]. split; [assumption|].
      intros Hc. destruct (X2 Hc eq_refl) as (q & Aq). pose proof (ad_used _ _ _ _ Aq) as U. rewrite (cl_body m1 C1) in U. exact U. }
  destruct E2 as (m2 & E2 & C2 & K2 & O2 & Y2 & L2 & T2 & X2). rewrite E2 in *. cbn [bind] in *.
  assert (Ck : m_cookie m2 = m_cookie m). { destruct K1 as (_ & ? & _), K2 as (_ & ? & _). congruence. }
  rewrite Ck in *.
  destruct (set_known_ok m2 (m_cseq m2) true (text "CSeq") (dec (without_flag (m_cookie m))) C2) as (m3 & E3 & C3 & K3 & O3 & Y3 & N3 & L3 & T3 & X3);
    [discriminate|apply dec_nonnil|apply join_one, dec_simple|apply (wf_cseq m2), C2|rewrite p61; lia| |].
  { destruct L as [L|L]; [left; lia|right]. intros E. apply L. rewrite E. reflexivity. }
  rewrite E3. cbn [bind].
  assert (L3' : Forall lined (a_used (m_headers m3))).
  { destruct C3 as [[_ _ _ _ _ Op] _ _ I3 _]. red in Op. rewrite I3 in Op. apply Op. }
  rewrite (lines_ok _ L3'). cbn [bind]. eexists. split; [reflexivity|].
  pose proof (kept_trans _ _ _ (kept_trans _ _ _ K1 K2) K3) as (H1 & H2 & H3 & H4 & H5 & H6 & H7 & H8).
  split. { destruct C3 as [W3 D3 S3 I3 B3]. constructor; auto. apply wf'_wf; [apply (wf'_same m3); auto using wf_wf'|].
    destruct W3 as [_ _ _ _ _ Op]. exact Op. }
  cbn [set_raw set_body m_start m_cookie m_major m_minor m_used m_body_headers m_body m_raw m_headers].
  split; [exact H1|]. split; [exact H2|]. split; [exact H3|]. split; [exact H4|]. split; [exact H8|]. split; [congruence|].
  split; [reflexivity|]. split; [reflexivity|].
  split. { exact (Y3 (or_intror eq_refl)). }
  assert (Move : forall name v, case_eq (text "Content-Type") name = false -> case_eq (text "CSeq") name = false ->
    says m1 name v -> says m3 name v).
  { intros name v' N1' N2' (h & Lh & Rest). exists h. split; [|exact Rest]. apply T3; [assumption|]. apply T2; assumption. }
  split. { intros Hb. destruct (Y2 Hb) as (h & Lh & Rest). exists h. split; [|exact Rest]. apply T3; [reflexivity|assumption]. }
  split.
  - destruct (m_clen m) as [p|] eqn:Ec.
    + right. left. split; [|discriminate]. apply Move; [reflexivity|reflexivity|]. apply Y1. left. discriminate.
    + destruct (N.eqb_spec (lenN body) 0) as [Z|Z].
      * right. right. split; [|split; [now apply lenN_0_nil|reflexivity]].
        apply T3; [reflexivity|]. apply T2; [reflexivity|]. rewrite N1; [|reflexivity|reflexivity].
        pose proof (wf_clen m Wm) as P. now rewrite Ec in P.
      * left. split; [|split; [reflexivity|intros Hb; now rewrite Hb in Z]].
        apply Move; [reflexivity|reflexivity|]. apply Y1. right. reflexivity.
  - intros A1' A2' A3'.
    assert (Np : forall name p l mv, pointed name p l mv -> none_of name l -> p = None).
    { intros name [p|] l mv Pp Nn; [|reflexivity]. destruct Pp as (_ & _ & x & h & y & -> & _ & Hh & _).
      apply Forall_app in Nn as (_ & Nn). inversion Nn. congruence. }
    assert (Ec : m_clen m = None) by (eapply Np; [apply (wf_clen m Wm)|assumption]).
    assert (Ect : m_ctype m1 = None) by (eapply Np; [apply (wf_ctype m1), C1|apply T1; [reflexivity|assumption]]).
    assert (Ecs : m_cseq m2 = None).
    { eapply Np; [apply (wf_cseq m2), C2|]. apply T2; [reflexivity|]. apply T1; [reflexivity|assumption]. }
    destruct (X3 Ecs eq_refl) as (q & Aq). pose proof (ad_used _ _ _ _ Aq) as U. rewrite (cl_body m2 C2) in U. cbn [array] in U.
    rewrite U, (X2 Ect), <- !app_assoc.
    assert (U1 : a_used (m_headers m1) = a_used (m_headers m) ++ (if lenN body =? 0 then [] else [header_of (text "Content-Length", [dec (lenN body mod 2 ^ 32)])])).
    { unfold add, v in *. rewrite Ec in *. destruct (N.eqb_spec (lenN body) 0).
      - rewrite app_nil_r. now rewrite N1.
      - destruct (X1 eq_refl eq_refl) as (q1 & Aq1). pose proof (ad_used _ _ _ _ Aq1) as U1. rewrite B in U1. exact U1. }
    rewrite U1, <- app_assoc. reflexivity.
Qed.

(** The cookie a message is sealed with. *)
Definition sealed_cookie (ck : N) (m : message) : N :=
  let c := if m_cookie m =? 0 then next_cookie ck else m_cookie m in
  if is_reply m then with_flag c else c.
