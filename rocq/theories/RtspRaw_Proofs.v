(** Raw values and lines of RTSP messages. *)
From Coq Require Import String.
From Verif Require Import Base Qstr_Model Text RtspMsg_Model RtspMsg_Spec RtspMsg_Proofs RtspBuilt_Proofs.

(** A header is open, behind the headers [x]. *)
Definition at_header (m : message) (x : list header) (o : arr) (h : header) : Prop :=
  is_data m = false /\ m_sealed m = false /\
  exists p, m_iter_header m = Some p /\ p_body p = m_iter_body m /\ p_idx p = lenN x
    /\ a_used (array m (m_iter_body m)) = x ++ [h] /\ p_moves p = a_moves (array m (m_iter_body m))
    /\ array m (negb (m_iter_body m)) = o.
Lemma at_deref m x o h p : at_header m x o h -> m_iter_header m = Some p -> deref m p = Ok h.
Proof.
  intros (_ & _ & q & E & B & I & U & M & _) Ep. assert (q = p) by congruence. subst q.
  apply deref_mid with x []; rewrite ?B; assumption.
Qed.
Lemma at_store m x o h p h' : at_header m x o h -> m_iter_header m = Some p ->
  at_header (store m p h') x o h' /\ m_iter_body (store m p h') = m_iter_body m /\ kept m (store m p h').
Proof.
  intros (D & S & q & E & B & I & U & M & O) Ep. assert (q = p) by congruence. subst q.
  destruct (store_kept m p h') as (K & K1 & K2 & _). split; [|split; assumption].
  destruct K as (S1 & _ & _ & _ & _ & _ & S2 & _). split; [unfold is_data in *; now rewrite S1|]. split; [congruence|].
  exists p. rewrite K1, K2. split; [exact E|]. split; [exact B|]. split; [exact I|]. rewrite <- B.
  rewrite (store_used m p x h [] h'); [|now rewrite B|exact I]. split; [reflexivity|]. rewrite store_moves, store_other, B. split; assumption.
Qed.
Lemma raw_step m x o k v : at_header m x o (mkHeader k None [] None) -> v <> [] ->
  exists m', append_basic m (BRaw v) = Ok (m', None) /\ at_header m' x o (mkHeader k (Some v) (tokenize v) None)
    /\ m_iter_body m' = m_iter_body m /\ kept m m'.
Proof.
  intros H V. pose proof H as (D & S & p & E & _). unfold append_basic. rewrite guard_open, E by assumption.
  rewrite (at_deref m x o _ p H E). cbn [bind]. unfold set_value. destruct v as [|c v]; [congruence|].
  rewrite lenN_cons. replace (1 + lenN v =? 0) with false by lia. cbn [orb negb andb h_value h_tokens h_line h_key].
  replace (takeN (1 + lenN v) (c :: v)) with (c :: v).
  2: { unfold takeN, lenN. rewrite firstn_all2; [reflexivity|]. cbn [List.length]. lia. }
  destruct (at_store m x o _ p (mkHeader k (Some (c :: v)) (tokenize (c :: v)) None) H E) as (A & B & K).
  eexists. split; [reflexivity|]. split; [exact A|]. split; assumption.
Qed.
Lemma raw_refused m x o h v : at_header m x o h -> v = [] \/ h_value h <> None \/ h_tokens h <> [] \/ h_line h <> None ->
  append_basic m (BRaw v) = Ok (m, Some EINVAL).
Proof.
  intros H V. pose proof H as (D & S & p & E & _). unfold append_basic. rewrite guard_open, E by assumption.
  rewrite (at_deref m x o _ p H E). cbn [bind]. unfold set_value. destruct v as [|c v]; [rewrite orb_true_r; reflexivity|].
  rewrite lenN_cons. replace (1 + lenN v =? 0) with false by lia. cbn [orb negb andb].
  destruct V as [V|V]; [discriminate V|].
  destruct (h_value h); [reflexivity|]. destruct (h_tokens h); [|reflexivity]. destruct (h_line h); [reflexivity|].
  exfalso. destruct V as [V|[V|V]]; congruence.
Qed.
Lemma token_step m x o k ts t : at_header m x o (mkHeader k None ts None) ->
  exists m', append_basic m (BToken t) = Ok (m', None) /\ at_header m' x o (mkHeader k None (ts ++ [t]) None).
Proof.
  intros H. pose proof H as (D & S & p & E & _). unfold append_basic. rewrite guard_open, E by assumption.
  rewrite (at_deref m x o _ p H E). cbn [bind append_token h_line h_value h_key h_tokens].
  eexists. split; [reflexivity|]. apply (at_store m x o _ p _ H E).
Qed.
Lemma token_refused m x o h t : at_header m x o h -> h_value h <> None -> append_basic m (BToken t) = Ok (m, Some EINVAL).
Proof.
  intros H V. pose proof H as (D & S & p & E & _). unfold append_basic. rewrite guard_open, E by assumption.
  rewrite (at_deref m x o _ p H E). cbn [bind]. unfold append_token. destruct (h_line h); [reflexivity|]. destruct (h_value h); [reflexivity|congruence].
Qed.
Lemma close_step m x o h : at_header m x o h ->
  exists m', append_basic m BClose = Ok (m', None) /\ a_used (array m' (m_iter_body m)) = x ++ [header_serialize h]
    /\ array m' (negb (m_iter_body m)) = o /\ m_iter_header m' = None /\ m_iter_body m' = m_iter_body m /\ kept m m'.
Proof.
  intros H. pose proof H as (D & S & p & E & B & _). unfold append_basic, close_header. rewrite !guard_open, E by assumption.
  rewrite (at_deref m x o _ p H E). cbn [bind].
  destruct (at_store m x o _ p (header_serialize h) H E) as ((_ & _ & q & _ & _ & _ & U & _ & O) & Bd & K).
  eexists. split; [reflexivity|]. rewrite Bd in U, O.
  split; [destruct (m_iter_body m); exact U|]. split; [destruct (m_iter_body m); exact O|]. split; [reflexivity|]. split; [reflexivity|exact K].
Qed.
Lemma opened_at m key : built m -> in_memory m -> is_data m = false -> m_sealed m = false -> m_iter_header m = None -> key <> [] ->
  exists m', append_basic m (BOpen key) = Ok (m', None)
    /\ at_header m' (a_used (array m (m_iter_body m))) (array m (negb (m_iter_body m))) (mkHeader key None [] None)
    /\ m_iter_body m' = m_iter_body m /\ kept m m'.
Proof.
  intros Bm Mm D S I K. destruct (built_good m Bm) as (Wm & _).
  destruct (open_header_ok m key K Wm (in_memory_fits m Mm) D S I) as (m' & E & O). exists m'.
  unfold append_basic. rewrite guard_open by assumption. split; [exact E|].
  destruct (opened_kept _ _ _ O) as (Kk & Kb). split; [|split; assumption].
  destruct O as [P (m1 & Em & A)]. assert (Ea : forall b, array m' b = array m1 b) by (intros b; rewrite Em; apply set_iter_array).
  destruct Kk as (S1 & _ & _ & _ & _ & _ & S2 & _). split; [unfold is_data in *; now rewrite S1|]. split; [congruence|].
  eexists. split; [exact P|]. cbn [p_body p_idx p_moves]. rewrite Kb. split; [reflexivity|]. split; [reflexivity|].
  split; [rewrite Ea; apply (ad_used _ _ _ _ A)|]. split; [reflexivity|]. rewrite Ea. apply (ad_other _ _ _ _ A).
Qed.

Definition raw_header (key v : list byte) : header := mkHeader key (Some v) (tokenize v) (Some (key ++ [58; 32] ++ v ++ [13; 10])).
Lemma raw_value m key v : built m -> in_memory m -> is_data m = false -> m_sealed m = false -> m_iter_header m = None -> key <> [] -> v <> [] ->
  exists m', append m [BOpen key; BRaw v; BClose] = Ok (m', None)
    /\ a_used (array m' (m_iter_body m)) = a_used (array m (m_iter_body m)) ++ [raw_header key v]
    /\ array m' (negb (m_iter_body m)) = array m (negb (m_iter_body m)) /\ m_iter_header m' = None /\ m_iter_body m' = m_iter_body m.
Proof.
  intros Bm Mm D S I K V. unfold append. rewrite guard_open by assumption. cbn [append_ops].
  destruct (opened_at m key Bm Mm D S I K) as (m1 & E1 & H1 & B1 & _). rewrite E1. cbn [bind].
  destruct (raw_step m1 _ _ key v H1 V) as (m2 & E2 & H2 & B2 & _). rewrite E2. cbn [bind].
  destruct (close_step m2 _ _ _ H2) as (m3 & E3 & U & O & I3 & B3 & _). rewrite E3. cbn [bind].
  rewrite B2, B1 in *. exists m3. split; [reflexivity|]. split; [exact U|]. auto.
Qed.
Lemma raw_once m key v u t : built m -> in_memory m -> is_data m = false -> m_sealed m = false -> m_iter_header m = None -> key <> [] -> v <> [] ->
  (exists m1, append m [BOpen key; BRaw v] = Ok (m1, None) /\ append_basic m1 (BRaw u) = Ok (m1, Some EINVAL) /\ append_basic m1 (BToken t) = Ok (m1, Some EINVAL))
  /\ (exists m1, append m [BOpen key; BToken t] = Ok (m1, None) /\ append_basic m1 (BRaw u) = Ok (m1, Some EINVAL))
  /\ (exists m1, append m [BOpen key] = Ok (m1, None) /\ append_basic m1 (BRaw []) = Ok (m1, Some EINVAL)).
Proof.
  intros Bm Mm D S I K V. unfold append. rewrite guard_open by assumption. cbn [append_ops].
  destruct (opened_at m key Bm Mm D S I K) as (m1 & E1 & H1 & B1 & _). rewrite !guard_open, E1 by assumption. cbn [bind].
  destruct (raw_step m1 _ _ key v H1 V) as (m2 & E2 & H2 & B2 & _). rewrite E2. cbn [bind].
  destruct (token_step m1 _ _ key [] t H1) as (m3 & E3 & H3). rewrite E3. cbn [bind].
  split; [|split].
  - exists m2. split; [reflexivity|]. split; [eapply raw_refused; [exact H2|right; left; discriminate]|].
    eapply token_refused; [exact H2|discriminate].
  - exists m3. split; [reflexivity|]. eapply raw_refused; [exact H3|right; right; left; discriminate].
  - exists m1. split; [reflexivity|]. eapply raw_refused; [exact H1|left; reflexivity].
Qed.
Lemma raw_line m line : built m -> in_memory m -> is_data m = false -> m_sealed m = false -> m_iter_header m = None ->
  exists m' h, append m [BRaw line] = Ok (m', None)
    /\ a_used (array m' (m_iter_body m)) = a_used (array m (m_iter_body m)) ++ [h] /\ h_line h = Some (line ++ [13; 10])
    /\ array m' (negb (m_iter_body m)) = array m (negb (m_iter_body m)) /\ m_iter_header m' = None /\ m_iter_body m' = m_iter_body m.
Proof.
  intros Bm Mm D S I. destruct (built_good m Bm) as (Wm & _).
  destruct (append_line_ok m line Wm (in_memory_fits m Mm) D S I) as (m' & p & E & A & I' & _).
  unfold append. rewrite guard_open by assumption. cbn [append_ops]. unfold append_basic. rewrite guard_open, I, E by assumption. cbn [bind].
  exists m', (line_header line). split; [reflexivity|]. split; [apply (ad_used _ _ _ _ A)|].
  split; [unfold line_header; destruct (split_line line) as [[k v] n]; destruct (n =? 0); reflexivity|].
  split; [apply (ad_other _ _ _ _ A)|]. split; [exact I'|apply (ad_body _ _ _ _ A)].
Qed.
Definition newlines (l : list byte) : N := lenN (filter (N.eqb 10) l).
Lemma no_newlines l : ~ In 10 l -> newlines l = 0.
Proof.
  unfold newlines. induction l as [|c l IH]; intros H; [reflexivity|]. cbn [filter]. replace (10 =? c) with false.
  - apply IH. intros X. apply H. right. exact X.
  - symmetry. apply N.eqb_neq. intros <-. apply H. left. reflexivity.
Qed.
Lemma raw_plain key v : ~ In 10 key -> ~ In 10 v -> newlines (key ++ [58; 32] ++ v ++ [13; 10]) = 1.
Proof.
  intros K V. unfold newlines. rewrite !filter_app, !lenN_app. fold (newlines key). fold (newlines v).
  rewrite (no_newlines key K), (no_newlines v V). reflexivity.
Qed.
Lemma cex_split : exists key v m h, match new_request (text "M") (text "*") with
    | inl m0 => match append m0 [BOpen key; BRaw v; BClose] with Ok (m1, None) => m = m1 | _ => False end | inr _ => False end
  /\ a_used (m_headers m) = [h] /\ exists l, h_line h = Some l /\ newlines l = 2.
Proof.
  exists (text "A"), (text "b" ++ [13; 10] ++ text "CSeq: 9"). eexists. eexists.
  split; [vm_compute; reflexivity|]. split; [vm_compute; reflexivity|]. eexists. split; vm_compute; reflexivity.
Qed.
