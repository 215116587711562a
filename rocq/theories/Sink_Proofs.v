(** Proofs about the sink's RTSP session. *)
From Coq Require Import String.
From Verif Require Import Base Qstr_Model Text Text_Proofs RtspMsg_Model RtspMsg_Spec RtspMsg_Proofs RtspSeal_Proofs RtspBuilt_Proofs RtspText_Proofs RtspSend_Proofs
  RtspBus_Model RtspBus_Spec Wfd_Model Wfd_Spec Wfd_Proofs Sink_Model Sink_Spec.
From Verif Require DhcpVal_Proofs.

(** ** Reading *)
Lemma find_key_find l name : forall i,
  match find (fun h => case_eq (h_key h) name) l with
  | Some h => exists a b, l = a ++ h :: b /\ find_key l name i = Some (i + lenN a)
  | None => find_key l name i = None
  end.
Proof.
  induction l as [|h l IH]; intros i; cbn [find find_key]; [reflexivity|].
  destruct (case_eq (h_key h) name).
  - exists [], l. split; [reflexivity|]. rewrite lenN_nil, N.add_0_r. reflexivity.
  - specialize (IH (i + 1)). destruct (find _ l) as [x|]; [|exact IH]. destruct IH as (a & b & -> & E).
    exists (h :: a), b. split; [reflexivity|]. rewrite E, lenN_cons. f_equal. lia.
Qed.

Definition at_body (m : message) (p : option ptr) (k : N) : message := set_iter m true p k.
Definition rest (m : message) (k : N) : message := set_iter m false None k.
Lemma rest_unread m k : unread m -> unread (rest m k).
Proof. intros (A & B & C & D). repeat split; assumption. Qed.
Lemma rguard_open {A} m (k : res (message * (A + err))) : is_data m = false -> m_sealed m = true -> rguard m k = k.
Proof. intros D S. unfold rguard. now rewrite D, S. Qed.

Section In.
Variable m : message.
Hypothesis U : unread m.
Lemma step_body l : read_ops m (RBody :: l) = read_ops (at_body m None (m_iter_token m)) l.
Proof.
  destruct U as (S & D & B & I). cbn [read_ops]. unfold read_basic. rewrite rguard_open by assumption. unfold enter_body. rewrite rguard_open, I, B by assumption.
  cbn [no_ptr negb orb bind stores]. destruct (read_ops _ l) as [[m' [vs|e]]|]; reflexivity.
Qed.
Lemma step_enter name k l : name <> [] ->
  match line m name with
  | Some h => exists p, deref m p = Ok h /\ read_ops (at_body m None k) (REnter name :: l) = read_ops (at_body m (Some p) 0) l
  | None => read_ops (at_body m None k) (REnter name :: l) = Ok (rest m k, inr ENOENT)
  end.
Proof.
  intros Hn. destruct U as (S & D & B & I). pose proof (find_key_find (a_used (m_body_headers m)) name 0) as F. unfold line.
  assert (E : read_basic (at_body m None k) (REnter name)
    = match find_key (a_used (m_body_headers m)) name 0 with
      | Some i => Ok (at_body m (Some (mkPtr true (a_moves (m_body_headers m)) i)) 0, inl [])
      | None => Ok (at_body m None k, inr ENOENT) end).
  { unfold read_basic. rewrite rguard_open by assumption. unfold enter_header. destruct name; [congruence|]. rewrite rguard_open by assumption. reflexivity. }
  cbn [read_ops]. rewrite E. destruct (find _ _) as [h|].
  - destruct F as (a & b & El & ->). exists (mkPtr true (a_moves (m_body_headers m)) (0 + lenN a)). split.
    + apply (deref_mid m _ a h b); cbn [p_body p_moves p_idx array]; auto.
    + cbn [bind stores]. destruct (read_ops _ l) as [[m' [vs|e]]|]; reflexivity.
  - rewrite F. cbn [bind]. unfold exit_body, at_body. cbn [m_iter_body set_iter m_sealed]. rewrite S. cbn [negb orb].
    unfold is_data in *. cbn [m_start set_iter]. destruct (m_start m); try discriminate; reflexivity.
Qed.
Variables (p : ptr) (h : header).
Hypothesis P : deref m p = Ok h.
Lemma deref_in k : deref (at_body m (Some p) k) p = Ok h.
Proof. exact P. Qed.
Lemma failed k e : (let m' := if m_iter_body (at_body m (Some p) k) then exit_body (at_body m (Some p) k) else at_body m (Some p) k in
  Ok (if no_ptr (m_iter_header m') then m' else exit_header m', @inr (list (list byte)) err e)) = Ok (rest m k, inr e).
Proof.
  destruct U as (S & D & B & I). unfold exit_body, at_body. cbn [m_iter_body set_iter m_sealed]. rewrite S. cbn [negb orb]. unfold is_data in *. cbn [m_start set_iter]. destruct (m_start m); try discriminate; reflexivity.
Qed.
Lemma step_token o k l f : (o = RString /\ f = (fun t => inl t)) \/ (o = RSkip /\ f = (fun _ => inl []))
    \/ (exists scan, o = RNumber scan /\ f = (fun t => match scan t with Some v => inl v | None => inr EINVAL end)) ->
  read_ops (at_body m (Some p) k) (o :: l)
  = match nthN (h_tokens h) k with
    | None => Ok (rest m k, inr ENOENT)
    | Some t => match f t with
                | inl v => do r <- read_ops (at_body m (Some p) (k + 1)) l;
                           Ok (fst r, match snd r with inl vs => inl (if stores o then v :: vs else vs) | inr e => inr e end)
                | inr e => Ok (rest m k, inr e) end
    end.
Proof.
  intros H. destruct U as (S & D & B & I). cbn [read_ops].
  assert (E : read_basic (at_body m (Some p) k) o = match nthN (h_tokens h) k with
    | None => Ok (at_body m (Some p) k, inr ENOENT)
    | Some t => match f t with inl v => Ok (at_body m (Some p) (k + 1), inl v) | inr e => Ok (at_body m (Some p) k, inr e) end end).
  { unfold read_basic. rewrite rguard_open by assumption. destruct H as [(-> & ->)|[(-> & ->)|(scan & -> & ->)]];
      cbn [at_body m_iter_header set_iter m_iter_token m_iter_body]; fold (at_body m (Some p) k); rewrite (deref_in k); cbn [bind]; destruct (nthN (h_tokens h) k) as [t|]; try reflexivity; destruct (scan t); reflexivity. }
  rewrite E. destruct (nthN (h_tokens h) k) as [t|]; [|cbn [bind]; apply failed]. destruct (f t); cbn [bind]; [reflexivity|apply failed].
Qed.
Lemma step_raw k l : read_ops (at_body m (Some p) k) (RRaw :: l)
  = do r <- read_ops (at_body m (Some p) k) l;
    Ok (fst r, match snd r with inl vs => inl (match h_value h with Some v => v | None => [] end :: vs) | inr e => inr e end).
Proof.
  destruct U as (S & D & B & I). cbn [read_ops]. unfold read_basic. rewrite rguard_open by assumption.
  cbn [at_body m_iter_header set_iter]. fold (at_body m (Some p) k). rewrite (deref_in k). reflexivity.
Qed.
Lemma step_end k : read_ops (at_body m (Some p) k) [RExit; RBodyEnd] = Ok (rest m k, inl []).
Proof.
  destruct U as (S & D & B & I). assert (E1 : exit_header (at_body m (Some p) k) = at_body m None k).
  { unfold exit_header, at_body, is_data in *. cbn [m_sealed set_iter m_start m_iter_body m_iter_token]. rewrite S. destruct (m_start m); try discriminate; reflexivity. }
  assert (E2 : exit_body (at_body m None k) = rest m k).
  { unfold exit_body, at_body, rest, is_data in *. cbn [m_sealed set_iter m_start m_iter_body m_iter_token]. rewrite S. destruct (m_start m); try discriminate; reflexivity. }
  cbn [read_ops]. unfold read_basic at 1. rewrite rguard_open by assumption. rewrite E1. cbn [bind].
  unfold read_basic. rewrite rguard_open by assumption. rewrite E2. reflexivity.
Qed.
End In.

Lemma read_open m l : unread m -> read m l = read_ops m l.
Proof. intros (S & D & _). now apply rguard_open. Qed.

Lemma read_asked m name : unread m -> name <> [] ->
  exists k, read m [RBody; REnter name; RExit; RBodyEnd] = Ok (rest m k, if asked m name then inl [] else inr ENOENT).
Proof.
  intros U Hn. rewrite read_open, step_body by assumption. pose proof (step_enter m U name (m_iter_token m) [RExit; RBodyEnd] Hn) as E. unfold asked.
  destruct (line m name) as [h|]; [|eauto]. destruct E as (p & P & ->). exists 0. eapply step_end; eauto.
Qed.
Lemma read_string m name : unread m -> name <> [] ->
  exists k e, read m (string_of name) = Ok (rest m k, match first_word (line m name) with Some t => inl [t] | None => inr e end).
Proof.
  intros U Hn. rewrite read_open by assumption. unfold string_of. rewrite step_body by assumption.
  pose proof (step_enter m U name (m_iter_token m) [RString; RExit; RBodyEnd] Hn) as E.
  destruct (line m name) as [h|]; cbn [first_word]; [|eauto]. destruct E as (p & P & ->).
  rewrite (step_token m U p h P RString 0 _ _ (or_introl (conj eq_refl eq_refl))).
  destruct (h_tokens h) as [|t ts]; [exists 0, ENOENT; reflexivity|]. change (nthN (t :: ts) 0) with (Some t). cbn iota beta.
  rewrite (step_end m U p). cbn [bind fst snd stores]. exists (0 + 1), ENOENT. reflexivity.
Qed.
Lemma read_whole m name : unread m -> name <> [] ->
  exists k, read m [RBody; REnter name; RRaw; RExit; RBodyEnd] = Ok (rest m k, match whole (line m name) with Some t => inl [t] | None => inr ENOENT end).
Proof.
  intros U Hn. rewrite read_open by assumption. rewrite step_body by assumption.
  pose proof (step_enter m U name (m_iter_token m) [RRaw; RExit; RBodyEnd] Hn) as E.
  destruct (line m name) as [h|]; cbn [whole]; [|eauto]. destruct E as (p & P & ->).
  rewrite (step_raw m U p h P). rewrite (step_end m U p). cbn [bind fst snd]. eauto.
Qed.
Lemma read_masks m : unread m ->
  exists k e, read m [RBody; REnter video_formats; RSkip; RSkip; RSkip; RSkip; hex_number; hex_number; hex_number; RExit; RBodyEnd]
    = Ok (rest m k, match masks m with Some (a, b, c) => inl [[a]; [b]; [c]] | None => inr e end).
Proof.
  intros U. rewrite read_open by assumption. rewrite step_body by assumption.
  pose proof (step_enter m U video_formats (m_iter_token m) [RSkip; RSkip; RSkip; RSkip; hex_number; hex_number; hex_number; RExit; RBodyEnd]) as E.
  specialize (E ltac:(discriminate)). unfold masks. change (text "wfd_video_formats") with video_formats. destruct (line m video_formats) as [h|]; [|eauto].
  destruct E as (p & P & ->).
  assert (Skip : forall k l, read_ops (at_body m (Some p) k) (RSkip :: l) = match nthN (h_tokens h) k with None => Ok (rest m k, inr ENOENT)
     | Some t => read_ops (at_body m (Some p) (k + 1)) l end).
  { intros k l. rewrite (step_token m U p h P RSkip k l _ (or_intror (or_introl (conj eq_refl eq_refl)))). destruct (nthN _ k); [|reflexivity].
    destruct (read_ops _ l) as [[m' [vs|e]]|]; reflexivity. }
  assert (Num : forall k l, read_ops (at_body m (Some p) k) (hex_number :: l) = match nthN (h_tokens h) k with None => Ok (rest m k, inr ENOENT)
     | Some t => match scan_hex t with None => Ok (rest m k, inr EINVAL) | Some n =>
        do r <- read_ops (at_body m (Some p) (k + 1)) l; Ok (fst r, match snd r with inl vs => inl ([n] :: vs) | inr e => inr e end) end end).
  { intros k l. unfold hex_number. erewrite (step_token m U p h P (RNumber _) k l) by (right; right; eexists; split; reflexivity). destruct (nthN _ k) as [t|]; [|reflexivity].
    destruct (scan_hex t); reflexivity. }
  rewrite !Skip. rewrite !Num. rewrite (step_end m U p).
  destruct (h_tokens h) as [|t0 [|t1 [|t2 [|t3 [|t4 [|t5 [|t6 ts]]]]]]];
    cbv [nthN nth_error N.to_nat Pos.to_nat Pos.iter_op N.add Pos.add Pos.succ Init.Nat.add]; try (do 2 eexists; reflexivity);
    destruct (scan_hex t4); cbn [bind fst snd]; try (do 2 eexists; reflexivity);
    destruct (scan_hex t5); cbn [bind fst snd]; try (do 2 eexists; reflexivity);
    destruct (scan_hex t6); cbn [bind fst snd]; try (do 2 eexists; reflexivity).
  exists 7, ENOENT. reflexivity.
Qed.

(** ** Sending *)
Lemma get_app b l id : (id < length (b_calls b))%nat -> nth_error (b_calls b ++ l) id = get b id.
Proof. intros H. now rewrite nth_error_app1. Qed.

(** What a sealed message is sent as. *)
Definition cookie_for (b : bus) (f : first_line) (m : message) (c : N) : Prop :=
  match f with
  | Req _ _ => m_cookie m = 0 /\ c = b_ck b + 1
  | Rep _ _ => m_cookie m = with_flag c
  end.
Definition after (b : bus) (f : first_line) : N := match f with Req _ _ => b_ck b + 1 | Rep _ _ => b_ck b end.
Record drafted (m : message) (f : first_line) (hs : list field) (body : list byte) : Prop := {
  dr_closed : closed m; dr_start : m_start m = start_of f; dr_major : m_major m = 1; dr_minor : m_minor m = 0;
  dr_nobody : m_body m = None; dr_used : m_used m = false;
  dr_headers : a_used (m_headers m) = map header_of hs;
  dr_body : text_of (a_used (m_body_headers m)) = body;
  dr_lines : a_used (m_body_headers m) = [] <-> body = [] }.

Lemma with_flag_nz c : with_flag c <> 0.
Proof. unfold with_flag, remote_flag. change (2 ^ 63) with 9223372036854775808. lia. Qed.
Lemma with_flag_has c : has_flag (with_flag c) = true.
Proof. unfold has_flag, with_flag, remote_flag. change (2 ^ 63) with 9223372036854775808. apply N.leb_le. lia. Qed.

Lemma seal_drafted ck f c hs body m : drafted m f hs body -> 0 < c < 2 ^ 63 ->
  sealed_cookie ck m = cookie_of f c -> Forall (fun x => ~ known (fst x)) hs -> lenN hs <= 61 -> lenN body < 2 ^ 32 ->
  exists m', seal ck m = Ok (next_ck ck m, m', None) /\ m_raw m' = Some (sent_text f c hs body) /\ m_sealed m' = true
    /\ m_start m' = start_of f /\ m_cookie m' = cookie_of f c /\ m_used m' = false.
Proof.
  intros [[W1 D1 S1 I1 B1] Es Ea Ei Eb Eu Eh Et El] Hc Ec Hk Hl Hb.
  assert (C : closed (cooked ck m)) by (constructor; auto; now apply with_cookie_wf).
  assert (L1 : lenN (a_used (m_headers (cooked ck m))) <= 61) by (cbn; rewrite Eh, lenN_map; assumption).
  assert (E60 : 2 ^ 60 = 1152921504606846976) by reflexivity.
  destruct (serialize_ok (cooked ck m)) as (m2 & E2 & C2 & A1 & A2 & A3 & A4 & A5 & A6 & A7 & A8 & _ & _ & _ & A9);
    [exact C|lia|left; exact L1|].
  rewrite (seal_eq ck m S1 B1 I1), E2. 
  assert (Ed : match m_start m with Data c p => Ok (serialize_data (cooked ck m) c p, None) | _ => Ok (m2, None) end = Ok (m2, @None err)).
  { unfold is_data in D1. destruct (m_start m); try reflexivity. discriminate. }
  rewrite Ed. cbn [bind]. exists (set_sealed m2). split; [reflexivity|].
  assert (Bo : body_of (cooked ck m) = body). { unfold body_of. cbn [cooked m_body set_cookie' m_body_headers]. now rewrite Eb. }
  assert (Wf : without_flag (m_cookie (cooked ck m)) = c). { cbn [cooked set_cookie' m_cookie]. rewrite Ec. destruct f; cbn; [now apply without_small|now apply without_with]. }
  cbn [set_sealed m_raw m_sealed m_start m_cookie m_used]. split; [|split; [reflexivity|split; [|split]]].
  - rewrite A8. f_equal. unfold sent_text. f_equal.
    + rewrite start_line_status; [|split; [exact Ea|split; [exact Ei|cbn; rewrite Es; now destruct f]]|exact D1].
      cbn [cooked set_cookie' m_start]. rewrite Es. destruct f as [me u|code phrase]; [reflexivity|]. cbn [start_of status_of]. unfold status. now rewrite <- !app_assoc.
    + rewrite Bo. f_equal. rewrite A9; try (cbn [cooked set_cookie' m_headers]; rewrite Eh; apply not_known_none; [assumption|cbn; tauto]).
      cbn [cooked set_cookie' m_headers m_body_headers]. fold (cooked ck m). rewrite Bo, Wf, Eh. unfold generated.
      replace ((if lenN body =? 0 then [] else [header_of (text "Content-Length", [dec (lenN body mod 2 ^ 32)])]) ++
        match a_used (m_body_headers m) with [] => [] | _ :: _ => [header_of (text "Content-Type", [text "text/parameters"])] end ++ [header_of (text "CSeq", [dec c])])
        with (map header_of (match body with [] => [] | _ => [(text "Content-Length", [dec (lenN body)]); (text "Content-Type", [text "text/parameters"])] end ++ [(text "CSeq", [dec c])])).
      { rewrite <- map_app. apply text_of_map. }
      destruct body as [|x body].
      * rewrite (proj2 El) by reflexivity. reflexivity.
      * destruct (a_used (m_body_headers m)) as [|h hs'] eqn:E; [pose proof (proj1 El eq_refl); discriminate|].
        destruct (N.eqb_spec (lenN (x :: body)) 0) as [Z|Z]; [rewrite lenN_cons in Z; lia|]. rewrite N.mod_small by exact Hb. reflexivity.
  - rewrite A1. exact Es.
  - rewrite A2. exact Ec.
  - rewrite A5. exact Eu.
Qed.

Lemma post_ok b f c hs body m cb : drafted m f hs body -> taking b -> 0 < c < 2 ^ 63 -> cookie_for b f m c ->
  Forall (fun x => ~ known (fst x)) hs -> lenN hs <= 61 -> lenN body < 2 ^ 32 ->
  exists b', post b m cb = Ok (b', true) /\ queue b' = queue b ++ [sent_text f c hs body]
    /\ b_dead b' = false /\ b_ck b' = after b f /\ Forall (fun id => (id < length (b_calls b'))%nat) (b_out b').
Proof.
  intros Dr (Hd & Hck & Hq) Hc Hcf Hk Hl Hb. unfold post.
  assert (Es : sealed_cookie (b_ck b) m = cookie_of f c /\ next_ck (b_ck b) m = after b f).
  { unfold sealed_cookie, next_ck, is_reply. rewrite (dr_start _ _ _ _ Dr). destruct f as [me u|code ph]; cbn [start_of cookie_of after] in *; cbn [cookie_for] in Hcf.
    - destruct Hcf as (-> & ->). change (0 =? 0) with true. cbn iota. unfold next_cookie, wrap64, two64. change (2 ^ 63) with 9223372036854775808 in *.
      change (2 ^ 64) with 18446744073709551616. rewrite N.mod_small by lia. destruct (N.eqb_spec (b_ck b + 1) 0); [lia|auto].
    - rewrite Hcf. destruct (N.eqb_spec (with_flag c) 0) as [Z|Z]; [destruct (with_flag_nz c Z)|]. now rewrite with_with. }
  destruct Es as (Es & En). destruct (seal_drafted (b_ck b) f c hs body m Dr Hc Es Hk Hl Hb) as (m' & E & Er & Sm & St & Ck & Us).
  rewrite E, En. cbn [bind]. set (b1 := mkBus _ _ _ _ _ _).
  assert (Ec : call_async b1 m' cb = Ok (mkBus (after b f) (b_dead b) (b_event b) (b_calls b ++ [mkCall (set_used m') cb 0 true true false (b_event b && cb) true])
     (b_out b ++ [length (b_calls b)]) (b_table b ++ [length (b_calls b)]), set_used m', None)).
  { unfold call_async. cbn [b1 b_dead b_ck b_event b_calls b_out b_table]. rewrite Hd, Ck.
    assert (Nz : cookie_of f c <> 0) by (destruct f; [cbn; lia|apply with_flag_nz]).
    destruct (N.eqb_spec (cookie_of f c) 0); [congruence|]. cbn [orb]. rewrite Us, (sealed_seal m' _ Sm). cbn [bind]. rewrite Er. cbn [set_used m_cookie m_start is_reply].
    unfold is_reply. cbn [set_used m_start]. rewrite Ck, St. destruct f as [me u|code ph]; cbn [cookie_of start_of] in *.
    - unfold has_flag, remote_flag. destruct (N.leb_spec (2 ^ 63) c); [lia|]. reflexivity.
    - rewrite with_flag_has. reflexivity. }
  rewrite Ec. cbn [bind no_ptr]. set (c0 := mkCall _ _ _ _ _ _ _ _). set (b2 := mkBus _ _ _ _ _ _). change (b_calls b1) with (b_calls b). set (n := length (b_calls b)).
  assert (G : get b2 n = Some c0). { unfold get, b2. cbn [b_calls]. rewrite nth_error_app2 by (unfold n; lia). unfold n. now rewrite Nat.sub_diag. }
  unfold user_unref. rewrite G. eexists. split; [reflexivity|].
  assert (R : forall id, raw_of (put b2 n (c_set_user c0 false)) id = raw_of b2 id).
  { intros id. unfold raw_of, get, put, set_calls. cbn [b_calls].
    assert (Pn : forall l i j x y, nth_error l i = Some x -> c_raw y = c_raw x -> match nth_error (put_nth l i y) j with Some z => c_raw z | None => [] end = match nth_error l j with Some z => c_raw z | None => [] end).
    { induction l as [|a l IH]; intros [|i] [|j] x y; cbn; try discriminate; try (intros [= ->] ->; reflexivity); auto. intros; eapply IH; eauto. }
    exact (Pn (b_calls b2) n id c0 (c_set_user c0 false) G eq_refl). }
  split; [|split; [|split]].
  - unfold queue. cbn [put set_calls b_out b2]. rewrite map_app. f_equal.
    + apply map_ext_in. intros id Hi. change (raw_of (put b2 n (c_set_user c0 false)) id = raw_of b id). rewrite R. unfold raw_of, get at 1. cbn [b2 b_calls].
      rewrite get_app; [reflexivity|]. rewrite Forall_forall in Hq. auto.
    + cbn [map]. f_equal. change (raw_of (put b2 n (c_set_user c0 false)) n = sent_text f c hs body). rewrite R. unfold raw_of. rewrite G. unfold c_raw. cbn [c0 c_msg set_used m_raw]. now rewrite Er.
  - exact Hd.
  - reflexivity.
  - cbn [put set_calls b_out b_calls b2].
    assert (Ll : forall l i (y : call), length (put_nth l i y) = length l) by (induction l as [|a l IH]; intros [|i] y; cbn; auto).
    rewrite Ll, app_length. cbn [length]. apply Forall_app. split.
    + eapply Forall_impl; [|exact Hq]. cbn. intros; lia.
    + constructor; [unfold n; lia|constructor].
Qed.

Lemma drafted_new f c : drafted (set_cookie' (msg_new (start_of f)) c) f [] [].
Proof.
  constructor; try reflexivity. constructor; try reflexivity; [apply with_cookie_wf, wf_new|now destruct f]. cbn. tauto.
Qed.
Lemma append_field m f name v : drafted m f [] [] -> name <> [] ->
  m_headers m = no_arr -> m_body_headers m = no_arr ->
  exists m', append m [BOpen name; BToken v; BClose] = Ok (m', None) /\ drafted m' f [(name, [v])] [] /\ m_cookie m' = m_cookie m.
Proof.
  intros [Cl Es Ea Ei Eb Eu Eh Et El] Hn Hh Hbh.
  destruct (append_ok m [(name, [v])] [] Cl Hh Hbh) as (m' & E & C' & K & U & V).
  { constructor; [exact Hn|constructor]. } { constructor. } { vm_compute; discriminate. } { reflexivity. }
  change (build_ops [(name, [v])] []) with [BOpen name; BToken v; BClose] in E. exists m'. rewrite E. split; [reflexivity|].
  destruct K as (K1 & K2 & K3 & K4 & K5 & K6 & K7 & K8). split; [|exact K2]. constructor; try congruence.
  - now rewrite V.
  - rewrite V. cbn. tauto.
Qed.
Lemma made_request method uri name v : method <> [] -> uri <> [] -> name <> [] ->
  exists m', made (new_request method uri) [BOpen name; BToken v; BClose] = Ok (Some m') /\ drafted m' (Req method uri) [(name, [v])] [] /\ m_cookie m' = 0.
Proof.
  intros H1 H2 H3. unfold made. destruct method as [|a me]; [congruence|]. destruct uri as [|d u]; [congruence|]. cbn [new_request].
  destruct (append_field (msg_new (Request (a :: me) (d :: u))) (Req (a :: me) (d :: u)) name v) as (m' & E & Dr & Ck); try reflexivity; try assumption.
  { exact (drafted_new (Req (a :: me) (d :: u)) 0). }
  rewrite E. cbn [bind fst snd]. exists m'. auto.
Qed.
Definition blank_reply (c : N) : message := set_cookie' (msg_new (start_of (Rep 200 []))) (with_flag c).
Lemma reply_for m c : m_used m = true -> m_cookie m = with_flag c -> new_reply_for m 200 [] = inl (blank_reply c).
Proof.
  intros U E. unfold new_reply_for, new_reply. rewrite U, E, with_flag_has. destruct (N.eqb_spec (with_flag c) 0) as [Z|Z]; [destruct (with_flag_nz c Z)|].
  unfold new_raw_reply. change (200 =? 2 ^ 32 - 1) with false. cbn [negb orb]. cbn iota. unfold blank_reply. now rewrite with_with.
Qed.
Lemma made_reply m c name v : m_used m = true -> m_cookie m = with_flag c -> name <> [] ->
  exists m', made (new_reply_for m 200 []) [BOpen name; BToken v; BClose] = Ok (Some m') /\ drafted m' (Rep 200 []) [(name, [v])] [] /\ m_cookie m' = with_flag c.
Proof.
  intros Us E Hn. rewrite (reply_for m c Us E). unfold made.
  destruct (append_field (blank_reply c) (Rep 200 []) name v) as (m' & E' & Dr & Ck); try reflexivity; try assumption.
  { apply drafted_new. }
  rewrite E'. cbn [bind fst snd]. exists m'. auto.
Qed.

(** ** OPTIONS *)
Lemma not_known_field name : case_eq name (text "Content-Length") = false -> case_eq name (text "Content-Type") = false -> case_eq name (text "CSeq") = false -> ~ known name.
Proof. intros A B C [H|[H|H]]; congruence. Qed.
Ltac one_field := constructor; [apply not_known_field; reflexivity|constructor].
Lemma taking_next b b' : taking b -> b_dead b' = false -> b_ck b' = b_ck b -> Forall (fun id => (id < length (b_calls b'))%nat) (b_out b') -> taking b'.
Proof. intros (A & B & C) D E F. repeat split; try assumption. now rewrite E. Qed.

Lemma options_handled w m c : request m (text "OPTIONS") c -> taking (w_bus w) ->
  exists b, handle w m = Ok (set_bus w b) /\ goes_on (w_bus w) b
    /\ queue b = queue (w_bus w) ++
      [ok c [(text "Public", [text "org.wfa.wfd1.0, GET_PARAMETER, SET_PARAMETER"])] [];
       ask (text "OPTIONS") (text "*") (b_ck (w_bus w) + 1) [(text "Require", [text "org.wfa.wfd1.0"])]].
Proof.
  intros (U & Us & (uri & Es) & Ec & Hc) T. unfold handle. rewrite Es. change (str_eq (text "OPTIONS") (text "OPTIONS")) with true. cbn iota. unfold handle_options.
  destruct (made_reply m c (text "Public") (text "org.wfa.wfd1.0, GET_PARAMETER, SET_PARAMETER") Us Ec) as (rep & E1 & D1 & C1); [discriminate|].
  rewrite E1. cbn [bind].
  destruct (post_ok (w_bus w) (Rep 200 []) c [(text "Public", [text "org.wfa.wfd1.0, GET_PARAMETER, SET_PARAMETER"])] [] rep false D1 T Hc C1) as (b1 & P1 & Q1 & X1 & Y1 & Z1);
    [one_field|vm_compute; discriminate|reflexivity|].
  rewrite P1. cbn [bind fst snd negb]. cbn [after] in Y1. pose proof (taking_next _ _ T X1 Y1 Z1) as T1.
  destruct (made_request (text "OPTIONS") (text "*") (text "Require") (text "org.wfa.wfd1.0")) as (req & E2 & D2 & C2); try discriminate.
  rewrite E2. cbn [bind]. change (w_bus (set_bus w b1)) with b1.
  destruct (post_ok b1 (Req (text "OPTIONS") (text "*")) (b_ck b1 + 1) [(text "Require", [text "org.wfa.wfd1.0"])] [] req true D2 T1) as (b2 & P2 & Q2 & X2 & Y2 & Z2);
    [rewrite Y1; destruct T as (_ & T & _); lia|split; [exact C2|reflexivity]|one_field|vm_compute; discriminate|reflexivity|].
  rewrite P2. cbn [bind fst]. exists b2. split; [reflexivity|]. split; [cbn [after] in Y2; repeat split; try assumption; lia|]. rewrite Q2, Q1, Y1, <- app_assoc. reflexivity.
Qed.

(** ** GET_PARAMETER *)
Lemma append_raw m f hs body l : drafted m f hs body -> lenN (a_used (m_body_headers m)) < 2 ^ 62 ->
  exists m', append m [BBody; BRaw l; BBodyEnd] = Ok (m', None) /\ drafted m' f hs (body ++ l ++ [13; 10]) /\ m_cookie m' = m_cookie m
    /\ lenN (a_used (m_body_headers m')) = lenN (a_used (m_body_headers m)) + 1.
Proof.
  intros [[Wm D S I B] Es Ea Ei Eb Eu Eh Et El] Hl. unfold append. rewrite guard_open by assumption.
  set (m2 := set_iter m true (m_iter_header m) (m_iter_token m)).
  assert (E2 : append_basic m BBody = Ok (m2, None)).
  { unfold append_basic, open_body. rewrite !guard_open by congruence. unfold m2. rewrite I, B. reflexivity. }
  rewrite (ops_head _ _ _ _ E2).
  assert (W2 : wf m2). { destruct Wm as [? ? ? ? ? Op]. constructor; auto. red in Op |- *. rewrite I in Op. unfold m2. cbn. rewrite I. assumption. }
  destruct (append_line_ok m2 l W2) as (m3 & p & E3 & A & I3 & W3); [unfold fits, m2; cbn; exact Hl|exact D|exact S|unfold m2; cbn; exact I|].
  assert (E3' : append_basic m2 (BRaw l) = Ok (m3, None)).
  { unfold append_basic. rewrite guard_open by assumption. unfold m2 at 1. cbn [set_iter m_iter_header]. rewrite I. exact E3. }
  rewrite (ops_head _ _ _ _ E3').
  destruct A as [_ U O B3 _ K _ _]. change (m_iter_body m2) with true in *. cbn [negb array] in U, O. change (m_body_headers m2) with (m_body_headers m) in U. change (m_headers m2) with (m_headers m) in O.
  destruct (kept_data _ _ K) as (D3 & S3 & _). change (is_data m2) with (is_data m) in D3. change (m_sealed m2) with (m_sealed m) in S3.
  set (m4 := set_iter m3 false (m_iter_header m3) (m_iter_token m3)).
  assert (E4 : append_basic m3 BBodyEnd = Ok (m4, None)).
  { unfold append_basic, close_body. rewrite !guard_open by congruence. unfold m4. rewrite I3, B3. reflexivity. }
  rewrite (ops_head _ _ _ _ E4). exists m4. split; [reflexivity|].
  assert (W4 : wf m4). { destruct W3 as [? ? ? ? ? Op]. constructor; auto. red in Op |- *. rewrite I3 in Op. unfold m4. cbn. rewrite I3. assumption. }
  destruct K as (K1 & K2 & K3 & K4 & K5 & K6 & K7 & K8). cbn [m2 set_iter m_start m_cookie m_major m_minor m_body m_raw m_sealed m_used] in *.
  split; [|split; [exact K2|unfold m4; cbn [set_iter m_body_headers]; rewrite U; len; reflexivity]].
  constructor; unfold m4; cbn [set_iter m_start m_cookie m_major m_minor m_body m_raw m_sealed m_used m_headers m_body_headers]; try congruence.
  - constructor; [exact W4|exact (eq_trans D3 D)|exact (eq_trans S3 S)|exact I3|reflexivity].
  - rewrite U. unfold text_of in *. rewrite flat_map_app, Et. cbn [flat_map]. rewrite app_nil_r. f_equal. unfold line_header. destruct (split_line l) as [[k v] n]. reflexivity.
  - rewrite U. split; intros Z; [destruct (app_cons_not_nil _ _ _ (eq_sym Z))|]. apply (f_equal (@length byte)) in Z. rewrite !app_length in Z. cbn in Z. lia.
Qed.

Lemma respond_ok m l : forall k rep f hs body, unread m -> drafted rep f hs body -> Forall (fun p => fst p <> [] /\ short p) l ->
  lenN (a_used (m_body_headers rep)) + lenN l < 2 ^ 62 ->
  exists rep', respond (rest m k) rep l = Ok (Some rep') /\ drafted rep' f hs (body ++ answer m l) /\ m_cookie rep' = m_cookie rep.
Proof.
  induction l as [|[name v] l IH]; intros k rep f hs body U D F L.
  - exists rep. cbn. rewrite app_nil_r. auto.
  - inversion F as [|? ? (Fn & Fs) F']; subst. cbn [fst snd] in *. rewrite lenN_cons in L. cbn [respond].
    destruct (read_asked (rest m k) name (rest_unread m k U) Fn) as (k' & E). rewrite E. cbn [bind].
    change (asked (rest m k) name) with (asked m name). change (rest (rest m k) k') with (rest m k'). unfold answer. cbn [filter fst].
    destruct (asked m name); [|apply IH; auto; lia].
    unfold short in Fs. cbn [fst snd] in Fs. apply N.ltb_lt in Fs. rewrite Fs.
    destruct (append_raw rep f hs body (name ++ [58; 32] ++ v) D) as (r1 & E1 & D1 & C1 & L1); [lia|]. rewrite E1. cbn [bind].
    destruct (IH k' r1 f hs _ U D1 F') as (r2 & E2 & D2 & C2); [lia|]. exists r2. split; [exact E2|]. split; [|congruence].
    cbn [flat_map]. unfold param_line at 1. cbn [fst snd]. rewrite <- !app_assoc in D2. rewrite <- !app_assoc. exact D2.
Qed.

Lemma str_eq_same a : forall b, str_eq a b = same a b.
Proof.
  unfold same. induction a as [|x a IH]; intros [|y b]; cbn [str_eq]; try reflexivity.
  rewrite IH. destruct (N.eqb_spec x y) as [->|Hx]; cbn [andb].
  - destruct (list_eq_dec N.eq_dec a b) as [->|Ha]; destruct (list_eq_dec N.eq_dec _ _) as [Hb|Hb]; congruence.
  - destruct (list_eq_dec N.eq_dec _ _) as [Hb|Hb]; congruence.
Qed.
Lemma same_iff a b : same a b = true <-> a = b.
Proof. unfold same. destruct (list_eq_dec N.eq_dec a b); split; congruence. Qed.
Lemma lookup_find l key : lookup l key = match find (fun e => same (fst e) key) l with Some e => Some (snd e) | None => None end.
Proof. induction l as [|[k v] l IH]; [reflexivity|]. cbn [lookup find fst]. rewrite str_eq_same. destruct (same k key); [reflexivity|exact IH]. Qed.
Lemma extension_replaced s key d : (key, extension s key d) = replaced (extensions s) (key, d).
Proof.
  unfold extension, replaced, extensions. destruct (s_ext s) as [l|]; [|reflexivity]. rewrite lookup_find. cbn [fst]. destruct (find _ l); reflexivity.
Qed.
Lemma lookup_self l : NoDup (map fst l) -> forall e, In e l -> lookup l (fst e) = Some (snd e).
Proof.
  induction l as [|[k v] l IH]; intros N e H; [destruct H|]. cbn [map fst] in N. inversion N; subst. cbn [lookup]. rewrite str_eq_same. destruct H as [<-|H].
  - cbn [fst]. now rewrite (proj2 (same_iff k k) eq_refl).
  - destruct (same k (fst e)) eqn:E; [|auto]. apply same_iff in E. subst. destruct H2. now apply in_map.
Qed.
Lemma params_options w : NoDup (map fst (extensions (w_sink w))) -> options_of w = params w.
Proof.
  intros N. unfold options_of, params, offered, standard. rewrite !extension_replaced. cbn [app]. repeat f_equal.
  unfold extensions in *. destruct (s_ext (w_sink w)) as [l|] eqn:E; [|reflexivity].
  match goal with |- _ = ?x => rewrite <- (map_id x) end. erewrite filter_ext; [apply map_ext_in|].
  - intros e He. apply filter_In in He. destruct He as (He & _). unfold extension. rewrite E, (lookup_self l N e He). now destruct e.
  - intros e. cbn [existsb fst uibc]. rewrite !str_eq_same, orb_false_r, orb_assoc. reflexivity.
Qed.
Lemma dec_int_len z : (- 2 ^ 31 <= z < 2 ^ 31)%Z -> lenN (dec_int z) <= 11.
Proof.
  change (2 ^ 31)%Z with 2147483648%Z. intros H. unfold dec_int. destruct (Z.ltb_spec z 0).
  - rewrite lenN_cons. assert (lenN (dec (Z.to_N (- z))) <= 10) by (apply DhcpVal_Proofs.dec10; lia). lia.
  - assert (lenN (dec (Z.to_N z)) <= 10) by (apply DhcpVal_Proofs.dec10; lia). lia.
Qed.
Lemma replaced_short ext p : Forall (fun p => fst p <> [] /\ short p) ext -> fst p <> [] -> short p -> fst (replaced ext p) <> [] /\ short (replaced ext p).
Proof.
  intros F Hn Hs. unfold replaced. destruct (find _ ext) as [e|] eqn:E; [|auto]. apply find_some in E. destruct E as (Hi & He). apply same_iff in He.
  rewrite Forall_forall in F. destruct (F e Hi) as (_ & H). unfold short in *. cbn [fst snd]. rewrite <- He. split; [congruence|exact H].
Qed.
Lemma params_short w : modest w -> Forall (fun p => fst p <> [] /\ short p) (params w) /\ lenN (params w) <= 5 + lenN (extensions (w_sink w)).
Proof.
  intros (Hp & N & F & L). unfold params, offered, standard. split.
  - apply Forall_app. split; [|apply Forall_app; split].
    + repeat constructor; try discriminate; try (apply replaced_short; [exact F|discriminate|reflexivity]).
      unfold short. cbn [fst snd]. rewrite !lenN_app. pose proof (dec_int_len _ Hp).
      change (lenN (text "wfd_client_rtp_ports")) with 20. change (lenN (text "RTP/AVP/UDP;unicast ")) with 20. change (lenN (text " 0 mode=play")) with 12. lia.
    + apply Forall_forall. intros e He. apply filter_In in He. destruct He as (He & _). rewrite Forall_forall in F. auto.
    + destruct (w_option w); [|constructor]. constructor; [|constructor]. apply replaced_short; [exact F|discriminate|reflexivity].
  - rewrite !lenN_app. change (lenN [(text "wfd_content_protection", text "none"); _; _; _]) with 4.
    assert (forall (A : Type) (p : A -> bool) l, lenN (filter p l) <= lenN l) as FL.
    { intros A p l. induction l as [|x l IH]; cbn [filter]; [lia|]. destruct (p x); rewrite ?lenN_cons; lia. }
    pose proof (FL _ (fun e => negb (existsb (same (fst e)) [fst (text "wfd_video_formats", text "00 00 03 10 " ++ hex8 (s_cea (w_sink w)) ++ [32] ++ hex8 (s_vesa (w_sink w)) ++ [32] ++ hex8 (s_hh (w_sink w)) ++ text " 00 0000 0000 10 none none"); fst (text "wfd_audio_codecs", text "AAC 00000007 00"); fst uibc])) (extensions (w_sink w))).
    destruct (w_option w); [change (lenN [replaced _ _]) with 1|change (lenN (@nil (list byte * list byte))) with 0]; lia.
Qed.
Lemma answer_len m l : Forall (fun p => fst p <> [] /\ short p) l -> lenN (answer m l) <= 514 * lenN l.
Proof.
  unfold answer. induction 1 as [|p l (_ & H) _ IH]; [reflexivity|]. cbn [filter]. rewrite lenN_cons. destruct (asked m (fst p)); [|lia].
  cbn [flat_map]. rewrite lenN_app. unfold short in H. unfold param_line at 1. rewrite !lenN_app. change (lenN [58; 32]) with 2. change (lenN [13; 10]) with 2. lia.
Qed.

Lemma get_parameter_handled w m c : request m (text "GET_PARAMETER") c -> taking (w_bus w) -> modest w ->
  exists b, handle w m = Ok (set_bus w b) /\ goes_on (w_bus w) b /\ queue b = queue (w_bus w) ++ [ok c [] (answer m (params w))].
Proof.
  intros (U & Us & (uri & Es) & Ec & Hc) T M. unfold handle. rewrite Es. change (str_eq (text "GET_PARAMETER") (text "OPTIONS")) with false.
  change (str_eq (text "GET_PARAMETER") (text "GET_PARAMETER")) with true. cbn iota. unfold handle_get_parameter. rewrite (reply_for m c Us Ec).
  destruct (params_short w M) as (F & L). destruct M as (_ & N & _ & Le). rewrite (params_options w N).
  destruct (respond_ok m (params w) (m_iter_token m) (blank_reply c) (Rep 200 []) [] [] U (drafted_new _ _) F) as (rep & E & D & C).
  { change (lenN (a_used (m_body_headers (blank_reply c)))) with 0. change (2 ^ 20) with 1048576 in Le. change (2 ^ 62) with 4611686018427387904. lia. }
  assert (Er : rest m (m_iter_token m) = m). { unfold rest, set_iter. destruct U as (_ & _ & B & I). destruct m. cbn in *. subst. reflexivity. }
  rewrite Er in E. rewrite E. cbn [bind]. cbn [app] in D.
  destruct (post_ok (w_bus w) (Rep 200 []) c [] (answer m (params w)) rep false D T Hc C) as (b1 & P1 & Q1 & X1 & Y1 & Z1);
    [constructor|vm_compute; discriminate| |].
  { pose proof (answer_len m _ F). change (2 ^ 20) with 1048576 in Le. change (2 ^ 32) with 4294967296. lia. }
  rewrite P1. cbn [bind fst]. exists b1. split; [reflexivity|]. split; [|exact Q1]. cbn [after] in Y1. repeat split; try assumption; lia.
Qed.

(** ** SET_PARAMETER *)
(** The UIBC state after a capability. *)
Definition uibc_told (w : world) (o : option (list byte)) : bool * Z :=
  match o with
  | None => (w_enabled w, w_uibc_port w)
  | Some config =>
      if differs (s_uibc_config (w_sink w)) config then
        if case_eq config (text "none") then (false, w_uibc_port w)
        else let w' := find_port w (strtok config) in (w_enabled w', w_uibc_port w')
      else (w_enabled w, w_uibc_port w)
  end.
Lemma find_port_only l : forall w, exists e p, find_port w l = set_uibc w e p
  /\ forall w', w_option w' = w_option w -> w_enabled w' = w_enabled w -> w_uibc_port w' = w_uibc_port w -> find_port w' l = set_uibc w' e p.
Proof.
  induction l as [|t l IH]; intros w; cbn [find_port].
  - exists (w_enabled w), (w_uibc_port w). split; [now destruct w|]. intros w' _ <- <-. now destruct w'.
  - destruct (scan_port t); [| |].
    + eexists _, _. split; [reflexivity|]. intros w' -> -> _. reflexivity.
    + apply IH.
    + eexists _, _. split; [reflexivity|]. intros w' -> -> ->. reflexivity.
Qed.
Lemma differs_or o x : (if differs o x then Some x else o) = Some x.
Proof.
  unfold differs. destruct o as [y|]; [|reflexivity]. rewrite str_eq_same. destruct (same y x) eqn:E; [|reflexivity]. apply same_iff in E. now subst.
Qed.
Lemma take_url_ok w m : unread m -> exists k, take_url w m = Ok (set_sink w (mkSink (or_else (first_word (line m (text "wfd_presentation_URL"))) (s_url (w_sink w)))
    (s_session (w_sink w)) (s_uibc_config (w_sink w)) (s_uibc_setting (w_sink w)) (s_cea (w_sink w)) (s_vesa (w_sink w)) (s_hh (w_sink w)) (s_hres (w_sink w)) (s_vres (w_sink w)) (s_ext (w_sink w))), rest m k).
Proof.
  intros U. unfold take_url. destruct (read_string m (text "wfd_presentation_URL") U ltac:(discriminate)) as (k & e & E). rewrite E. cbn [bind fst snd]. exists k.
  do 2 f_equal. destruct (first_word _) as [u|]; cbn [or_else].
  - rewrite <- (differs_or (s_url (w_sink w)) u). destruct (differs _ u); [reflexivity|]. now destruct w as [b [] ? ? ? ? ?].
  - now destruct w as [b [] ? ? ? ? ?].
Qed.
Lemma take_setting_ok w m : unread m -> exists k, take_setting w m = Ok (set_sink w (mkSink (s_url (w_sink w)) (s_session (w_sink w)) (s_uibc_config (w_sink w))
    (or_else (first_word (line m (text "wfd_uibc_setting"))) (s_uibc_setting (w_sink w)))
    (s_cea (w_sink w)) (s_vesa (w_sink w)) (s_hh (w_sink w)) (s_hres (w_sink w)) (s_vres (w_sink w)) (s_ext (w_sink w))), rest m k).
Proof.
  intros U. unfold take_setting. destruct (read_string m (text "wfd_uibc_setting") U ltac:(discriminate)) as (k & e & E). rewrite E. cbn [bind fst snd]. exists k.
  do 2 f_equal. destruct (first_word _) as [u|]; cbn [or_else].
  - rewrite <- (differs_or (s_uibc_setting (w_sink w)) u). destruct (differs _ u); [reflexivity|]. now destruct w as [b [] ? ? ? ? ?].
  - now destruct w as [b [] ? ? ? ? ?].
Qed.
Lemma take_config_ok w m : unread m -> let u := uibc_told w (whole (line m uibc_capability)) in
  exists k, take_config w m = Ok (set_uibc (set_sink w (mkSink (s_url (w_sink w)) (s_session (w_sink w))
    (or_else (whole (line m uibc_capability)) (s_uibc_config (w_sink w))) (s_uibc_setting (w_sink w))
    (s_cea (w_sink w)) (s_vesa (w_sink w)) (s_hh (w_sink w)) (s_hres (w_sink w)) (s_vres (w_sink w)) (s_ext (w_sink w)))) (fst u) (snd u), rest m k).
Proof.
  intros U u. unfold take_config. destruct (read_whole m uibc_capability U ltac:(discriminate)) as (k & E). rewrite E. cbn [bind fst snd]. exists k.
  do 2 f_equal. subst u. unfold uibc_told. destruct (whole _) as [x|]; cbn [or_else]; [|now destruct w as [b [] ? ? ? ? ?]].
  rewrite <- (differs_or (s_uibc_config (w_sink w)) x). destruct (differs _ x); [|now destruct w as [b [] ? ? ? ? ?]].
  destruct (case_eq x _); [reflexivity|]. destruct (find_port_only (strtok x) w) as (e & p & Ew & Eo). rewrite Ew. cbn [fst snd set_uibc w_enabled w_uibc_port]. apply Eo; reflexivity.
Qed.
Lemma take_formats_ok w m : unread m -> exists k r known, choose m r known /\
  take_formats w m = Ok (match r with Some x => set_shown (set_sink w (with_res (w_sink w) (fst x) (snd x))) x | None => w end, rest m k, known).
Proof.
  intros U. unfold take_formats. destruct (read_masks m U) as (k & e & E). rewrite E. cbn [bind fst snd]. exists k.
  destruct (masks m) as [[[a b] c]|] eqn:Em.
  - pose proof (set_format_ok a b c) as Ch. destruct (set_format a b c) as [[h v]|].
    + exists (Some (h, v)), true. split; [econstructor; eassumption|reflexivity].
    + exists None, false. split; [econstructor; eassumption|reflexivity].
  - exists None, true. split; [now constructor|reflexivity].
Qed.

Lemma trigger_ok w m : unread m -> taking (w_bus w) -> exists b, take_trigger w m = Ok (set_bus w b) /\ goes_on (w_bus w) b
  /\ queue b = queue (w_bus w) ++ setup_request m (s_url (w_sink w)) true (b_ck (w_bus w) + 1) (dec_int (w_port w)).
Proof.
  intros U T. unfold take_trigger. destruct (read_string m (text "wfd_trigger_method") U ltac:(discriminate)) as (k & e & E). rewrite E. cbn [bind fst snd]. unfold setup_request.
  assert (N : exists b, Ok w = Ok (set_bus w b) /\ goes_on (w_bus w) b /\ queue b = queue (w_bus w) ++ [])
    by (exists (w_bus w); split; [now destruct w|split; [destruct T as (T1 & T2 & T3); repeat split; try assumption; lia|now rewrite app_nil_r]]).
  destruct (first_word _) as [t|]; [|exact N]. destruct (s_url (w_sink w)) as [u|]; [|destruct (str_eq _ _); exact N].
  destruct u as [|x u]; [destruct (str_eq _ _); exact N|]. destruct (str_eq _ _); [|exact N].
  destruct (made_request (text "SETUP") (x :: u) (text "Transport") (text "RTP/AVP/UDP;unicast;client_port=" ++ dec_int (w_port w))) as (req & E2 & D2 & C2); try discriminate.
  rewrite E2. cbn [bind].
  destruct (post_ok (w_bus w) (Req (text "SETUP") (x :: u)) (b_ck (w_bus w) + 1) [(text "Transport", [text "RTP/AVP/UDP;unicast;client_port=" ++ dec_int (w_port w)])] [] req true D2 T) as (b2 & P2 & Q2 & X2 & Y2 & Z2);
    [destruct T as (_ & T & _); lia|split; [exact C2|reflexivity]|one_field|vm_compute; discriminate|reflexivity|].
  rewrite P2. cbn [bind fst]. exists b2. split; [reflexivity|]. split; [|exact Q2]. cbn [after] in Y2. repeat split; try assumption; lia.
Qed.

Lemma choose_rest m k r known : choose (rest m k) r known -> choose m r known.
Proof. intros [H|a b c x H1 H2|a b c H1 H2]; econstructor; eassumption. Qed.
Lemma rest_rest m k j : rest (rest m k) j = rest m j. Proof. reflexivity. Qed.
Lemma set_parameter_handled w m c : request m (text "SET_PARAMETER") c -> taking (w_bus w) ->
  exists w' r known, handle w m = Ok w' /\ goes_on (w_bus w) (w_bus w') /\ choose m r known /\ w_sink w' = told (w_sink w) m r
    /\ w_shown w' = w_shown w ++ match r with Some x => [x] | None => [] end
    /\ w_port w' = w_port w /\ w_option w' = w_option w
    /\ (w_enabled w', w_uibc_port w') = uibc_told w (whole (line m uibc_capability))
    /\ queue (w_bus w') = queue (w_bus w) ++ [ok c [] []] ++ setup_request m (s_url (w_sink w')) known (b_ck (w_bus w) + 1) (dec_int (w_port w)).
Proof.
  intros (U & Us & (uri & Es) & Ec & Hc) T. unfold handle. rewrite Es. change (str_eq (text "SET_PARAMETER") (text "OPTIONS")) with false.
  change (str_eq (text "SET_PARAMETER") (text "GET_PARAMETER")) with false. change (str_eq (text "SET_PARAMETER") (text "SET_PARAMETER")) with true. cbn iota.
  unfold handle_set_parameter. rewrite (reply_for m c Us Ec).
  destruct (post_ok (w_bus w) (Rep 200 []) c [] [] (blank_reply c) false (drafted_new _ _) T Hc eq_refl) as (b1 & P1 & Q1 & X1 & Y1 & Z1);
    [constructor|vm_compute; discriminate|reflexivity|].
  rewrite P1. cbn [bind fst snd negb]. cbn [after] in Y1. pose proof (taking_next _ _ T X1 Y1 Z1) as T1. fold (ok c [] []) in Q1.
  set (w1 := set_bus w b1).
  destruct (take_url_ok w1 m U) as (k1 & E1). rewrite E1. cbn [bind fst snd]. set (w2 := set_sink w1 _).
  pose proof (rest_unread m k1 U) as U1. destruct (take_config_ok w2 (rest m k1) U1) as (k2 & E2). rewrite E2. cbn [bind fst snd]. set (w3 := set_uibc _ _ _). rewrite rest_rest.
  pose proof (rest_unread m k2 U) as U2. destruct (take_setting_ok w3 (rest m k2) U2) as (k3 & E3). rewrite E3. cbn [bind fst snd]. set (w4 := set_sink w3 _). rewrite rest_rest.
  pose proof (rest_unread m k3 U) as U3. destruct (take_formats_ok w4 (rest m k3) U3) as (k4 & r & known & Ch & E4). rewrite E4. cbn [bind]. rewrite rest_rest.
  set (w5 := match r with Some _ => _ | None => w4 end).
  assert (Eu : (w_enabled w5, w_uibc_port w5) = uibc_told w (whole (line m uibc_capability))).
  { assert (forall o, uibc_told w2 o = uibc_told w o) as Ew.
    { intros [x|]; [|reflexivity]. unfold uibc_told. change (s_uibc_config (w_sink w2)) with (s_uibc_config (w_sink w)).
      destruct (find_port_only (strtok x) w) as (e & p & Ef & Eo). rewrite Ef, (Eo w2) by reflexivity. reflexivity. }
    rewrite <- Ew. change (line (rest m k1) uibc_capability) with (line m uibc_capability) in w3. destruct r; subst w5; cbn [set_shown set_sink w_enabled w_uibc_port]; symmetry; apply surjective_pairing. }
  assert (Es5 : w_sink w5 = told (w_sink w) m r) by (destruct r as [[h v]|]; reflexivity).
  assert (Eh5 : w_shown w5 = w_shown w ++ match r with Some x => [x] | None => [] end) by (destruct r as [[h v]|]; [reflexivity|symmetry; apply app_nil_r]).
  assert (Eb5 : w_bus w5 = b1) by (destruct r; reflexivity). assert (Ep5 : w_port w5 = w_port w) by (destruct r; reflexivity). assert (Eo5 : w_option w5 = w_option w) by (destruct r; reflexivity).
  apply choose_rest in Ch. pose proof Ch as Ch'.
  destruct known.
  - destruct (trigger_ok w5 (rest m k4)) as (b2 & E5 & G5 & Q5); [now apply rest_unread|now rewrite Eb5|]. rewrite E5.
    exists (set_bus w5 b2), r, true. split; [reflexivity|]. split; [rewrite Eb5 in G5; unfold goes_on in *; cbn [set_bus w_bus]; now rewrite <- Y1|]. split; [exact Ch'|]. split; [exact Es5|]. split; [exact Eh5|]. split; [exact Ep5|]. split; [exact Eo5|]. split; [exact Eu|].
    cbn [set_bus w_bus w_sink]. rewrite Q5, Eb5, Q1, Y1, Ep5, <- app_assoc. reflexivity.
  - exists w5, r, false. split; [reflexivity|]. split; [rewrite Eb5; repeat split; try assumption; lia|]. split; [exact Ch'|]. split; [exact Es5|]. split; [exact Eh5|]. split; [exact Ep5|]. split; [exact Eo5|]. split; [exact Eu|].
    rewrite Eb5, Q1. unfold setup_request. now rewrite app_nil_r.
Qed.

(** ** The reply to the SETUP *)
Lemma read_session m name : unread m -> name <> [] ->
  exists k e, read m [REnter name; RString; RExit] = Ok (rest m k, match first_word (header_line m name) with Some t => inl [t] | None => inr e end).
Proof.
  intros U Hn. rewrite read_open by assumption. destruct U as (S & D & B & I).
  pose proof (find_key_find (a_used (m_headers m)) name 0) as F. unfold header_line.
  assert (Er : rest m (m_iter_token m) = m). { unfold rest, set_iter. destruct m. cbn in *. subst. reflexivity. }
  assert (E : read_basic m (REnter name)
    = match find_key (a_used (m_headers m)) name 0 with
      | Some i => Ok (set_iter m false (Some (mkPtr false (a_moves (m_headers m)) i)) 0, inl [])
      | None => Ok (m, inr ENOENT) end).
  { unfold read_basic. rewrite rguard_open by assumption. unfold enter_header. destruct name; [congruence|]. rewrite rguard_open, I, B by assumption. reflexivity. }
  cbn [read_ops]. rewrite E. destruct (find _ _) as [h|]; cbn [first_word].
  - destruct F as (a & b & El & ->). cbn [bind]. set (p := mkPtr false (a_moves (m_headers m)) (0 + lenN a)). set (m1 := set_iter m false (Some p) 0).
    assert (P : deref m1 p = Ok h). { apply (deref_mid m1 p a h b); cbn [p p_body p_moves p_idx array]; auto. }
    unfold read_basic at 1. rewrite rguard_open by assumption. unfold m1 at 1. cbn [set_iter m_iter_header]. rewrite P. cbn [bind]. unfold m1 at 1. cbn [set_iter m_iter_token].
    destruct (h_tokens h) as [|t ts]; cbn [nthN].
    + change (nthN [] 0) with (@None (list byte)). cbn [bind]. unfold m1, exit_header. cbn [set_iter m_iter_body m_iter_header no_ptr m_sealed]. rewrite S. cbn [negb orb]. unfold is_data in *. cbn [m_start set_iter].
      destruct (m_start m); try discriminate; (exists 0, ENOENT; reflexivity).
    + change (nthN (t :: ts) 0) with (Some t). cbn [bind]. set (m2 := set_iter m1 _ _ _). unfold read_basic. rewrite rguard_open by assumption.
      assert (E2 : exit_header m2 = rest m 1). { unfold exit_header, m2, m1, is_data in *. cbn [m_sealed set_iter m_start m_iter_body m_iter_token]. rewrite S. destruct (m_start m); try discriminate; reflexivity. }
      rewrite E2. cbn [bind fst snd stores]. exists 1, ENOENT. reflexivity.
  - rewrite F. cbn [bind]. rewrite B, I. cbn [no_ptr]. exists (m_iter_token m), ENOENT. now rewrite Er.
Qed.
Lemma break_before c s : ~ In c (fst (break_at c s)) /\ (s = fst (break_at c s) \/ exists t, s = fst (break_at c s) ++ c :: t).
Proof.
  induction s as [|x s (A & B)]; cbn [break_at]; [split; [intros []|now left]|].
  destruct (N.eqb_spec x c) as [->|Hx]; [split; [intros []|right; now exists s]|]. destruct (break_at c s) as [a r]. cbn [fst] in *. split.
  - intros [H|H]; [congruence|auto].
  - destruct B as [->|(t & ->)]; [now left|right; now exists t].
Qed.
Lemma setup_replied w m : unread m -> taking (w_bus w) ->
  match first_word (header_line m (text "Session")) with
  | None => setup_fn w (Some m) = Ok w
  | Some _ => exists session b, session_given m session /\ setup_fn w (Some m) = Ok (set_bus (set_sink w (in_session (w_sink w) session)) b) /\ goes_on (w_bus w) b
      /\ queue b = queue (w_bus w) ++ play_request (s_url (w_sink w)) (b_ck (w_bus w) + 1) session
  end.
Proof.
  intros U T. unfold setup_fn. destruct (read_session m (text "Session") U ltac:(discriminate)) as (k & e & E). rewrite E. cbn [bind fst snd].
  destruct (first_word _) as [word|] eqn:Ew; [|reflexivity]. set (ns := fst (break_at 59 word)). exists ns.
  assert (G : session_given m ns) by (exists word; split; [exact Ew|apply break_before]).
  cbn [set_sink w_sink with_session s_url]. unfold play_request.
  assert (N : exists b, session_given m ns /\ Ok (set_sink w (with_session (w_sink w) ns)) = Ok (set_bus (set_sink w (in_session (w_sink w) ns)) b) /\ goes_on (w_bus w) b /\ queue b = queue (w_bus w) ++ [])
    by (exists (w_bus w); split; [exact G|split; [reflexivity|split; [destruct T as (T1 & T2 & T3); repeat split; try assumption; lia|now rewrite app_nil_r]]]).
  destruct (s_url (w_sink w)) as [[|x u]|]; [exact N| |exact N].
  destruct (made_request (text "PLAY") (x :: u) (text "Session") ns) as (req & E2 & D2 & C2); try discriminate.
  rewrite E2. cbn [bind].
  destruct (post_ok (w_bus w) (Req (text "PLAY") (x :: u)) (b_ck (w_bus w) + 1) [(text "Session", [ns])] [] req true D2 T) as (b2 & P2 & Q2 & X2 & Y2 & Z2);
    [destruct T as (_ & T & _); lia|split; [exact C2|reflexivity]|one_field|vm_compute; discriminate|reflexivity|].
  change (w_bus (set_sink w (with_session (w_sink w) ns))) with (w_bus w). rewrite P2. cbn [bind fst]. exists b2. split; [exact G|]. split; [reflexivity|]. split; [|exact Q2]. cbn [after] in Y2. repeat split; try assumption; lia.
Qed.

(** ** Other messages *)
Lemma other_handled w m : (forall uri, m_start m <> Request (text "OPTIONS") uri /\ m_start m <> Request (text "GET_PARAMETER") uri /\ m_start m <> Request (text "SET_PARAMETER") uri) ->
  handle w m = Ok w.
Proof.
  intros H. unfold handle. destruct (m_start m) as [| method uri | |]; try reflexivity. destruct (H uri) as (A & B & C). rewrite !str_eq_same.
  destruct (same method (text "OPTIONS")) eqn:E1; [apply same_iff in E1; congruence|].
  destruct (same method (text "GET_PARAMETER")) eqn:E2; [apply same_iff in E2; congruence|].
  destruct (same method (text "SET_PARAMETER")) eqn:E3; [apply same_iff in E3; congruence|]. reflexivity.
Qed.

(** ** Numbers and ports *)
Lemma digits_all base val t : (forall c, In c t -> digit_value c = Some (val c) /\ val c < base) ->
  forall n acc, digits base t n acc = (n + lenN t, fold_left (fun a c => a * base + val c) t acc).
Proof.
  induction t as [|c t IH]; intros H n acc; cbn [digits fold_left]; [rewrite lenN_nil; f_equal; lia|].
  destruct (H c (or_introl eq_refl)) as (-> & L). apply N.ltb_lt in L. rewrite L, IH by (intros; apply H; now right). rewrite lenN_cons. f_equal. lia.
Qed.
Definition hex_val (c : byte) : N := if c <=? 57 then c - 48 else if 97 <=? c then c - 87 else c - 55.
Lemma hex_val_ok c : 48 <= c <= 57 \/ 97 <= c <= 102 \/ 65 <= c <= 70 -> digit_value c = Some (hex_val c) /\ hex_val c < 16.
Proof.
  intros H. unfold digit_value, hex_val.
  destruct (N.leb_spec 48 c), (N.leb_spec c 57), (N.leb_spec 97 c), (N.leb_spec c 102), (N.leb_spec 65 c), (N.leb_spec c 70); cbn [andb]; try lia; split; try reflexivity; lia.
Qed.
Lemma not_space c : 33 <= c -> is_space c = false.
Proof. intros H. unfold is_space. destruct (N.eqb_spec c 32), (N.leb_spec 9 c), (N.leb_spec c 13); cbn; lia || reflexivity. Qed.
Lemma sign_none c t : 48 <= c -> sign (c :: t) = (false, c :: t).
Proof.
  intros H. unfold sign. destruct c as [|p]; [lia|]. do 6 (destruct p as [p|p|]; try reflexivity); lia.
Qed.
Lemma hex_prefix_none t : Forall (fun c => 48 <= c <= 57 \/ 97 <= c <= 102 \/ 65 <= c <= 70) t -> hex_prefix t = t.
Proof.
  intros F. unfold hex_prefix. destruct t as [|a [|b t]]; try reflexivity.
  - destruct a as [|p]; [reflexivity|]. repeat (destruct p as [p|p|]; try reflexivity).
  - inversion F as [|? ? _ F']; subst. inversion F' as [|? ? Hb _]; subst.
    destruct (N.eq_dec b 120) as [->|H1]; [lia|]. destruct (N.eq_dec b 88) as [->|H2]; [lia|].
    destruct a as [|p]; [reflexivity|]. do 6 (destruct p as [p|p|]; try reflexivity).
    all: destruct b as [|q]; [reflexivity|]; do 7 (destruct q as [q|q|]; try reflexivity); congruence.
Qed.
Lemma scan_hex_ok t n : hex_text t n -> n < 2 ^ 32 -> scan_hex t = Some n.
Proof.
  intros (Hn & F & E) L. unfold scan_hex. destruct t as [|c t]; [congruence|].
  assert (Hc : 48 <= c) by (inversion F; lia).
  cbn [skip_space]. rewrite not_space by lia. rewrite sign_none by exact Hc. rewrite hex_prefix_none by exact F.
  rewrite (digits_all 16 hex_val) by (intros x Hx; rewrite Forall_forall in F; now apply hex_val_ok, F).
  change (fold_left (fun a c0 => a * 16 + hex_val c0) (c :: t) 0) with (fold_left (fun acc c0 => acc * 16 + (if c0 <=? 57 then c0 - 48 else if 97 <=? c0 then c0 - 87 else c0 - 55)) (c :: t) 0).
  rewrite <- E. destruct (N.eqb_spec (0 + lenN (c :: t)) 0) as [Z|_]; [rewrite lenN_cons in Z; lia|]. cbn [andb]. change (2 ^ 32) with 4294967296 in *.
  change two64 with 18446744073709551616. destruct (N.ltb_spec n 18446744073709551616); [|lia]. rewrite N.mod_small by exact L. reflexivity.
Qed.

Lemma literal_same a : forall s b, literal (a ++ b) (a ++ s) = literal b s.
Proof. induction a as [|x a IH]; intros s b; [reflexivity|]. cbn [app literal]. now rewrite N.eqb_refl. Qed.
Lemma scan_other p : other_part p -> p = [] \/ scan_port p = Failed.
Proof.
  intros [->|(_ & a & b & c & t & Ep & -> & Hx & Hb)]; [now left|right]. unfold scan_port. rewrite Ep, literal_same.
  destruct b as [|x b]; [congruence|]. cbn [literal]. destruct (N.eqb_spec x c) as [H|_]; [destruct (Hx x b eq_refl H)|reflexivity].
Qed.
Lemma scan_port_named t n : decimal_text t n -> n < 2 ^ 31 -> scan_port (text "port=" ++ t) = Matched (Z.of_N n).
Proof.
  intros (Hn & F & E) L. unfold scan_port. rewrite <- (app_nil_r (text "port=")) at 1. rewrite literal_same. cbn [literal].
  destruct t as [|c t]; [congruence|]. assert (Hc : 48 <= c) by (inversion F; lia).
  cbn [skip_space]. rewrite not_space by lia. rewrite sign_none by exact Hc.
  rewrite (digits_all 10 (fun c => c - 48)).
  2: { intros x Hx. rewrite Forall_forall in F. specialize (F x Hx). unfold digit_value. destruct (N.leb_spec 48 x), (N.leb_spec x 57); cbn [andb]; try lia. split; [reflexivity|lia]. }
  rewrite <- E. destruct (N.eqb_spec (0 + lenN (c :: t)) 0) as [Z|_]; [rewrite lenN_cons in Z; lia|].
  f_equal. unfold to_int. change (2 ^ 63 - 1)%Z with 9223372036854775807%Z. change (2 ^ 31)%Z with 2147483648%Z. change (2 ^ 32)%Z with 4294967296%Z. change (2 ^ 31) with 2147483648 in L.
  rewrite Z.min_l by lia. rewrite Z.mod_small by lia. lia.
Qed.
Lemma strtok_part p : ~ In 59 p -> forall s cur, strtok_loop (p ++ 59 :: s) cur = match rev cur ++ p with [] => [] | q => [q] end ++ strtok_loop s [].
Proof.
  induction p as [|c p IH]; intros H s cur.
  - cbn [app strtok_loop]. rewrite N.eqb_refl, app_nil_r. destruct cur as [|x cur]; [reflexivity|]. cbn [rev]. destruct (rev cur); reflexivity.
  - cbn [app strtok_loop]. destruct (N.eqb_spec c 59) as [->|_]; [destruct H; now left|]. rewrite IH by (intros X; apply H; now right).
    cbn [rev]. rewrite <- app_assoc. reflexivity.
Qed.
Lemma strtok_last p : ~ In 59 p -> forall cur, strtok_loop p cur = match rev cur ++ p with [] => [] | q => [q] end.
Proof.
  induction p as [|c p IH]; intros H cur.
  - cbn [strtok_loop]. rewrite app_nil_r. destruct cur as [|x cur]; [reflexivity|]. cbn [rev]. destruct (rev cur); reflexivity.
  - cbn [strtok_loop]. destruct (N.eqb_spec c 59) as [->|_]; [destruct H; now left|]. rewrite IH by (intros X; apply H; now right).
    cbn [rev]. rewrite <- app_assoc. reflexivity.
Qed.
Lemma other_no_semi p : other_part p -> ~ In 59 p.
Proof. intros [->|(H & _)]; [intros []|exact H]. Qed.
Lemma find_port_skip w before s : Forall other_part before -> find_port w (strtok (flat_map (fun p => p ++ [59]) before ++ s)) = find_port w (strtok s).
Proof.
  unfold strtok. induction 1 as [|p l Hp _ IH]; [reflexivity|]. cbn [flat_map]. rewrite <- !app_assoc. cbn [app]. rewrite strtok_part by now apply other_no_semi.
  cbn [rev app]. rewrite <- IH. destruct (scan_other p Hp) as [->|Hs]; [reflexivity|]. destruct p as [|c p]; [reflexivity|]. cbn [app find_port]. now rewrite Hs.
Qed.
Lemma find_port_named w config n : port_named config n -> find_port w (strtok config) = set_uibc w (w_option w || w_enabled w) (Z.of_N n).
Proof.
  intros (before & number & aft & -> & F & D & L & A). rewrite find_port_skip by exact F. pose proof (scan_port_named number n D L) as S.
  assert (Nn : ~ In 59 (text "port=" ++ number)).
  { intros H. apply in_app_or in H. destruct H as [H|H]; [vm_compute in H; intuition discriminate|]. destruct D as (_ & D & _). rewrite Forall_forall in D. specialize (D _ H). cbn in D. lia. }
  assert (E : exists l, strtok (text "port=" ++ number ++ aft) = (text "port=" ++ number) :: l).
  { unfold strtok. rewrite app_assoc. destruct A as [->|(t & ->)].
    - rewrite app_nil_r, strtok_last by exact Nn. now exists [].
    - rewrite strtok_part by exact Nn. now exists (strtok_loop t []). }
  destruct E as (l & ->). cbn [find_port]. rewrite S. reflexivity.
Qed.
Lemma find_port_none w config : no_port config -> find_port w (strtok config) = w.
Proof.
  intros (before & last & -> & F & D). rewrite find_port_skip by exact F. unfold strtok. rewrite strtok_last by now apply other_no_semi. cbn [rev app].
  destruct (scan_other last D) as [->|S]; [reflexivity|]. destruct last; [reflexivity|]. cbn [find_port]. now rewrite S.
Qed.
Lemma says_none_case config : case_eq config (text "none") = true <-> says_none config.
Proof. rewrite case_eq_lower. unfold says_none. change (map lower (text "none")) with (text "none"). tauto. Qed.

Lemma uibc_taken w m c w' : request m (text "SET_PARAMETER") c -> taking (w_bus w) -> handle w m = Ok w' ->
  match whole (line m (text "wfd_uibc_capability")) with
  | None => (w_enabled w', w_uibc_port w') = (w_enabled w, w_uibc_port w)
  | Some config =>
      (s_uibc_config (w_sink w) = Some config -> (w_enabled w', w_uibc_port w') = (w_enabled w, w_uibc_port w))
      /\ (s_uibc_config (w_sink w) <> Some config ->
           (says_none config -> (w_enabled w', w_uibc_port w') = (false, w_uibc_port w))
           /\ (no_port config -> ~ says_none config -> (w_enabled w', w_uibc_port w') = (w_enabled w, w_uibc_port w))
           /\ forall n, port_named config n -> (w_enabled w', w_uibc_port w') = (w_option w || w_enabled w, Z.of_N n))
  end.
Proof.
  intros R T E. destruct (set_parameter_handled w m c R T) as (w2 & r & known & E2 & _ & _ & _ & _ & _ & _ & Eu & _). rewrite E in E2. injection E2 as ->.
  rewrite Eu. change uibc_capability with (text "wfd_uibc_capability"). unfold uibc_told. destruct (whole _) as [config|]; [|reflexivity]. split.
  - intros ->. cbn [differs]. rewrite str_eq_same, (proj2 (same_iff config config) eq_refl). reflexivity.
  - intros H. assert (D : differs (s_uibc_config (w_sink w)) config = true).
    { unfold differs. destruct (s_uibc_config (w_sink w)) as [y|]; [|reflexivity]. rewrite str_eq_same. destruct (same y config) eqn:X; [|reflexivity]. apply same_iff in X. congruence. }
    rewrite D. split; [|split].
    + intros S. apply says_none_case in S. now rewrite S.
    + intros P S. destruct (case_eq config (text "none")) eqn:X; [apply says_none_case in X; contradiction|]. now rewrite (find_port_none w config P).
    + intros n P. destruct (case_eq config (text "none")) eqn:X; [|now rewrite (find_port_named w config n P)].
      apply says_none_case in X. unfold says_none in X. exfalso. destruct P as (before & number & aft & -> & F & _).
      assert (In (lower 61) (text "none")). { rewrite <- X. apply in_map. rewrite in_app_iff. right. rewrite in_app_iff. left. vm_compute. tauto. }
      vm_compute in H0. intuition discriminate.
Qed.

(** ** A session *)
(** Nothing but a known request changes anything, and a known one is answered first. *)
Lemma request_handled w m method c : request m method c -> In method [text "OPTIONS"; text "GET_PARAMETER"; text "SET_PARAMETER"] ->
  taking (w_bus w) -> modest w ->
  exists w' hs body asks, handle w m = Ok w' /\ goes_on (w_bus w) (w_bus w') /\ modest w'
    /\ queue (w_bus w') = queue (w_bus w) ++ ok c hs body :: asks
    /\ Forall (fun x => exists method uri n hs, x = ask method uri n hs) asks.
Proof.
  intros R H T M. assert (asking : forall me u n hs l, Forall (fun x => exists method uri n hs, x = ask method uri n hs) l -> Forall (fun x => exists method uri n hs, x = ask method uri n hs) (ask me u n hs :: l)).
  { intros. constructor; eauto 6. }
  destruct H as [<-|[<-|[<-|[]]]].
  - destruct (options_handled w m c R T) as (b & E & G & Q). exists (set_bus w b). do 3 eexists. split; [exact E|]. split; [exact G|]. split; [exact M|]. split; [exact Q|]. apply asking. constructor.
  - destruct (get_parameter_handled w m c R T M) as (b & E & G & Q). exists (set_bus w b). do 3 eexists. split; [exact E|]. split; [exact G|]. split; [exact M|]. split; [exact Q|]. constructor.
  - destruct (set_parameter_handled w m c R T) as (w' & r & known & E & G & _ & Es & _ & Ep & _ & _ & Q). exists w'. do 3 eexists. split; [exact E|]. split; [exact G|]. split.
    { unfold modest in *. rewrite Ep, Es. exact M. }
    split; [exact Q|]. unfold setup_request. destruct known; [|constructor]. destruct (first_word _); [|constructor]. destruct (s_url _) as [[|x u]|]; try constructor.
    destruct (str_eq _ _); [apply asking|]; constructor.
Qed.
Lemma session_answered l : forall w cs, Forall2 (fun m c => exists method, request m method c /\ In method known_methods) l cs ->
  taking (w_bus w) -> modest w -> b_ck (w_bus w) + lenN l < 2 ^ 63 ->
  exists w' outs, handle_all w l = Ok w' /\ Forall2 answers cs outs /\ queue (w_bus w') = queue (w_bus w) ++ concat outs.
Proof.
  induction l as [|m l IH]; intros w cs F T M L; inversion F as [|? c ? cs' (method & R & K) F']; subst.
  - exists w, []. split; [reflexivity|]. split; [constructor|]. cbn. now rewrite app_nil_r.
  - destruct (request_handled w m method c R K T M) as (w1 & hs & body & asks & E & (G1 & G2 & G3) & M1 & Q & A). rewrite lenN_cons in L.
    cbn [handle_all]. rewrite E. cbn [bind].
    destruct l as [|m2 l].
    + inversion F'; subst. exists w1, [ok c hs body :: asks]. split; [reflexivity|]. split; [constructor; [do 3 eexists; split; [reflexivity|exact A]|constructor]|].
      rewrite Q. cbn [concat]. now rewrite app_nil_r.
    + rewrite lenN_cons in L. destruct (IH w1 cs' F') as (w2 & outs & E2 & F2 & Q2); [split; [exact G1|split; [lia|exact G3]]|exact M1|rewrite lenN_cons; lia|].
      exists w2, ((ok c hs body :: asks) :: outs). split; [exact E2|]. split; [constructor; [do 3 eexists; split; [reflexivity|exact A]|exact F2]|].
      rewrite Q2, Q, <- app_assoc. reflexivity.
Qed.
Lemma masks_of m h a b c w1 w2 w3 w4 ta tb tc more : line m (text "wfd_video_formats") = Some h -> h_tokens h = w1 :: w2 :: w3 :: w4 :: ta :: tb :: tc :: more ->
  hex_text ta a -> hex_text tb b -> hex_text tc c -> a < 2 ^ 32 -> b < 2 ^ 32 -> c < 2 ^ 32 -> masks m = Some (a, b, c).
Proof. intros E Et A B C La Lb Lc. unfold masks. rewrite E, Et, (scan_hex_ok ta a), (scan_hex_ok tb b), (scan_hex_ok tc c) by assumption. reflexivity. Qed.
