(** Proofs about receiving DHCPv6 messages. *)
From Verif Require Import Base Dhcp6_Model Dhcp6_Spec Dhcp6_Proofs Dhcp6_Ia Dhcp6_More.
Local Open Scope list_scope.

Lemma obind_ret {A B} (x : oc A) (f : A -> oc B) y : obind x f = Ret y -> exists a, x = Ret a /\ f a = Ret y.
Proof. destruct x; cbn [obind]; intros H; try discriminate H. eauto. Qed.
Tactic Notation "ret" ident(H) ident(a) ident(E) := apply obind_ret in H; destruct H as (a & E & H).
Lemma take_request_frame p k k' : take_request p k = Ret k' -> k_server k' = k_server k /\ k_listens k' = k_listens k /\ k_phase k' = k_phase k.
Proof. unfold take_request. intros H. ret H x E. destruct x as [[b st] t]. injection H as <-. repeat split. Qed.

Section Sound.
Context (t : N) (xid : list byte) (os : list option6) (r : rest) (X : lenN xid = 3) (HO : Forall opt_ok os) (HR : rest_ok r).
Let p := message t xid os ++ rest_bytes r.
Lemma type_of : nth 0 p 0 = t. Proof. reflexivity. Qed.
Lemma reply_sound k k' w : reply_case p k = Ret (k', w) ->
  (w = Nothing /\ k' = k) \/
  (w = Reply /\ t = 7 /\ k_listens k' = false /\ k_server k' = k_server k
   /\ exists o q, with_code 2 os = [o] /\ o_data o <> [] /\ forall s, k_server k = Some s -> starts s (o_data o ++ q)).
Proof.
  unfold reply_case. rewrite type_of. destruct (N.eqb_spec t 7) as [T|T]; cbn [negb]; intros H; [|injection H as <- <-; auto].
  ret H f E. destruct f as [[[m len]|] count]; [|injection H as <- <-; auto].
  destruct (negb (count =? 1) || (len =? 0)) eqn:C; [injection H as <- <-; auto|]. ret H same S.
  destruct same; cbn [negb] in H; [|injection H as <- <-; auto]. ret H k2 K. injection H as <- <-. right.
  destruct (take_request_frame _ _ _ K) as (K1 & K2 & K3). rewrite K1, K2. cbn [deaf k_listens k_server]. split; [reflexivity|]. split; [exact T|]. split; [reflexivity|]. split; [reflexivity|].
  destruct (got_some t xid os r 2 m len count X HO HR E) as (o & q & L & -> & -> & ->). exists o, q. split; [apply single; [exact L|lia]|].
  split. { intros Z. rewrite Z in C. rewrite lenN_nil in C. rewrite orb_true_r in C. discriminate C. }
  intros s KS. rewrite KS in S. destruct (N.ltb_spec 0 (lenN s)) as [P|P]; [now apply memcmp_starts|].
  destruct s; [exists (o_data o ++ q); reflexivity|]. rewrite lenN_cons in P. lia.
Qed.
Lemma rebind_sound k k' : rebind_case p k = Ret k' ->
  k' = k \/ exists o q, k_server k = None /\ with_code 2 os = [o] /\ k' = with_server (o_data o) k /\ q = @nil byte.
Proof.
  unfold rebind_case. intros H. ret H f E. destruct f as [[[m len]|] count]; [|injection H as <-; auto]. destruct (k_server k) eqn:KS; [injection H as <-; auto|].
  destruct (N.eqb_spec count 1) as [->|]; [|injection H as <-; auto]. ret H s S. injection H as <-. right.
  destruct (got_some t xid os r 2 m len 1 X HO HR E) as (o & q & L & -> & -> & C). exists o, []. rewrite rd_app in S by reflexivity. injection S as <-.
  split; [reflexivity|]. split; [apply single; [exact L|lia]|]. split; reflexivity.
Qed.
Lemma solicit_sound k k' w : solicit_case p k = Ret (k', w) ->
  (w = Nothing /\ (k' = k \/ exists o, with_code 2 os = [o] /\ k' = with_server (o_data o) k)) \/
  (w = heard t /\ (t = 7 \/ t = 2) /\ k_listens k' = false
   /\ (exists o, with_code 2 os = [o] /\ o_data o <> [] /\ k_server k' = Some (o_data o))
   /\ (t = 7 -> exists o, with_code 14 os = [o] /\ o_data o <> [])).
Proof.
  unfold solicit_case. rewrite type_of. destruct ((t =? 7) || (t =? 2)) eqn:T; cbn [negb]; intros H; [|injection H as <- <-; auto].
  ret H f E. destruct f as [[[m len]|] count]; [|injection H as <- <-; auto].
  destruct (negb (count =? 1) || (len =? 0)) eqn:C; [injection H as <- <-; auto|]. ret H s S. ret H rapid RA.
  destruct (got_some t xid os r 2 m len count X HO HR E) as (o & q & L & -> & -> & ->). rewrite rd_app in S by reflexivity. injection S as <-.
  assert (W : with_code 2 os = [o]) by (apply single; [exact L|lia]).
  destruct rapid; cbn [negb] in H; [|injection H as <- <-; eauto 6]. ret H k2 K. injection H as <- <-. right.
  assert (F : k_server k2 = Some (o_data o) /\ k_listens k2 = false).
  { destruct (k_status _ =? 0); [destruct (take_request_frame _ _ _ K) as (K1 & K2 & _); rewrite K1, K2; split; reflexivity|injection K as <-; split; reflexivity]. }
  destruct F as [F1 F2]. split; [reflexivity|]. split; [apply orb_true_iff in T; lia|]. split; [exact F2|]. split.
  { exists o. split; [exact W|]. split; [|exact F1]. intros Z. rewrite Z in C. rewrite lenN_nil in C. rewrite orb_true_r in C. discriminate C. }
  intros T7. rewrite T7 in RA. change (7 =? 7) with true in RA. cbv iota in RA. ret RA f2 E2. destruct f2 as [[[m2 len2]|] count2]; [|discriminate RA]. injection RA as RA.
  destruct (got_some t xid os r 14 m2 len2 count2 X HO HR E2) as (o2 & q2 & L2 & -> & -> & ->). exists o2. apply andb_true_iff in RA as [R1 R2].
  split; [apply single; [exact L2|lia]|]. intros Z. rewrite Z in R1. discriminate R1.
Qed.
Lemma receive_sound k k' w : receive k (Some p) = Ret (k', w) ->
  (w = Nothing /\ k_bind k' = k_bind k /\ k_values k' = k_values k /\ k_listens k' = k_listens k
   /\ (k_phase k = Replying -> k_server k' = k_server k)) \/
  (w = heard t /\ due (k_phase k) t /\ k_listens k = true /\ k_listens k' = false /\ be xid = k_xid k
   /\ (exists o q, last_of (with_code 1 os) = Some o /\ o_data o <> [] /\ starts (k_duid k) (o_data o ++ q))
   /\ (exists o q, with_code 2 os = [o] /\ o_data o <> []
       /\ (k_phase k <> Solicitation -> forall s, k_server k = Some s -> starts s (o_data o ++ q))
       /\ (k_phase k = Solicitation -> k_server k' = Some (o_data o)))
   /\ (k_phase k = Solicitation -> t = 7 -> exists o, with_code 14 os = [o] /\ o_data o <> [])).
Proof.
  unfold receive. destruct (k_listens k) eqn:KL; cbn [negb]; intros H.
  2:{ injection H as <- <-. left. rewrite KL. auto. }
  ret H h HH. destruct (negb (be (dropN 1 h) =? _)) eqn:XI; [injection H as <- <-; left; cbn; rewrite ?KL; auto|].
  assert (XE : be xid = k_xid k).
  { assert (HH2 : rd p 4 = Ret ([t] ++ xid)).
    { unfold p, message. replace ((t :: xid ++ encs os) ++ rest_bytes r) with (([t] ++ xid) ++ encs os ++ rest_bytes r) by (cbn [app]; now rewrite <- app_assoc). rewrite rd_app by (len; lia). reflexivity. }
    rewrite HH2 in HH. injection HH as <-. change (dropN 1 (t :: xid)) with xid in XI. cbn [with_status k_xid] in XI. lia. }
  ret H f E. destruct f as [[[m len]|] count]; cbn [fst] in H; [|injection H as <- <-; left; cbn; rewrite ?KL; auto].
  destruct (len =? 0) eqn:LZ; [injection H as <- <-; left; cbn; rewrite ?KL; auto|]. ret H same S.
  destruct same; cbn [negb] in H; [|injection H as <- <-; left; cbn; rewrite ?KL; auto].
  destruct (got_some t xid os r 1 m len count X HO HR E) as (o & q & L & -> & -> & ->). apply memcmp_starts in S. cbn [with_status k_duid] in S.
  ret H f2 E2. ret H k2 K2.
  assert (F : k_bind k2 = k_bind k /\ k_values k2 = k_values k /\ k_listens k2 = k_listens k /\ k_server k2 = k_server k /\ k_phase k2 = k_phase k).
  { destruct (fst f2) as [[m2 len2]|]; [|injection K2 as <-; repeat split]. destruct (len2 =? 0); [injection K2 as <-; repeat split|].
    ret K2 b EB. ret K2 u EU. injection K2 as <-. repeat split. }
  clear K2 E2. destruct F as (F1 & F2 & F3 & F4 & F5). rewrite <- F1, <- F2, <- F3, <- F4, <- F5 in *. rewrite F3 in KL.
  assert (OD : o_data o <> []) by (intros Z; rewrite Z in LZ; discriminate LZ).
  assert (CL : exists o q, last_of (with_code 1 os) = Some o /\ o_data o <> [] /\ starts (k_duid k) (o_data o ++ q)) by eauto.
  destruct (k_phase k2) eqn:PH.
  - destruct (solicit_sound _ _ _ H) as [(-> & [-> | (o2 & W & ->)])|(W & T & KD & (o2 & S1 & S2 & S3) & S4)].
    + left. repeat split; cbn [with_server k_listens k_bind k_values k_server]; intros; congruence.
    + left. repeat split; cbn [with_server k_listens k_bind k_values k_server]; intros; congruence.
    + right. split; [exact W|]. split; [unfold due; tauto|]. split; [congruence|]. split; [exact KD|]. split; [exact XE|]. split; [exact CL|]. split; [|auto].
      exists o2, []. split; [exact S1|]. split; [exact S2|]. split; [congruence|auto].
  - ret H k3 K3. destruct (reply_sound _ _ _ H) as [(-> & ->)|(W & T & KD & KS & o2 & q2 & S1 & S2 & S3)].
    + left. destruct (rebind_sound _ _ K3) as [-> | (o3 & q3 & _ & _ & -> & _)]; repeat split; cbn [with_server k_listens k_bind k_values k_server]; intros; congruence.
    + right. split; [rewrite T; exact W|]. split; [unfold due; tauto|]. split; [congruence|]. split; [exact KD|]. split; [exact XE|]. split; [exact CL|]. split; [|discriminate].
      exists o2, q2. split; [exact S1|]. split; [exact S2|]. split; [|discriminate]. intros _ s KSS. apply S3.
      destruct (rebind_sound _ _ K3) as [-> | (o3 & q3 & KN & _ & -> & _)]; [exact KSS|congruence].
  - destruct (reply_sound _ _ _ H) as [(-> & ->)|(W & T & KD & KS & o2 & q2 & S1 & S2 & S3)].
    + left. repeat split; cbn [with_server k_listens k_bind k_values k_server]; intros; congruence.
    + right. split; [rewrite T; exact W|]. split; [unfold due; tauto|]. split; [congruence|]. split; [exact KD|]. split; [exact XE|]. split; [exact CL|]. split; [|discriminate].
      exists o2, q2. split; [exact S1|]. split; [exact S2|]. split; [|discriminate]. auto.
Qed.
End Sound.

(** Messages as a server sends them. *)
Section Gets.
Context (t : N) (xid : list byte) (os : list option6) (X : lenN xid = 3) (HO : Forall opt_ok os).
Let p := message t xid os.
Lemma gets code : exists f, get_option p code = Ret (f, lenN (with_code code os)) /\ finds code os f.
Proof. pose proof (option_found t xid os RNone code X HO I) as F. cbn [outcome rest_bytes] in F. rewrite app_nil_r in F. exact F. Qed.
Lemma got_last code o : last_of (with_code code os) = Some o -> exists q, get_option p code = Ret (Some (o_data o ++ q, lenN (o_data o)), lenN (with_code code os)).
Proof. intros L. destruct (gets code) as (f & E & F). unfold finds in F. rewrite L in F. destruct F as (q & ->). eauto. Qed.
Lemma got_none code : with_code code os = [] -> get_option p code = Ret (None, 0).
Proof. intros L. destruct (gets code) as (f & E & F). unfold finds in F. rewrite L in *. cbn [last_of rev] in F. subst f. exact E. Qed.
End Gets.

(** ** Requested options *)
Lemma shows_read c d v q b st : shows c d v -> value_list b c (lenN d) (d ++ q) st = Ret (v, b, st).
Proof. destruct 1; [now apply server_list|now apply domain_list]. Qed.
Theorem request_read t xid os (X : lenN xid = 3) (HO : Forall opt_ok os) vals b st : forall codes tab, (forall c, In c codes -> says os c (vals c)) ->
  exists tab', get_request codes (message t xid os) b st tab = Ret (b, st, tab') /\ (forall c, In c codes -> tab' c = vals c) /\ (forall c, ~ In c codes -> tab' c = tab c).
Proof.
  induction codes as [|c codes IH]; intros tab H; [exists tab; split; [reflexivity|split; [intros c []|reflexivity]]|]. cbn [get_request].
  assert (ST : exists tab1, tab1 = (fun x => if x =? c then vals c else tab x) /\
     get_request (c :: codes) (message t xid os) b st tab = get_request codes (message t xid os) b st tab1).
  { eexists. split; [reflexivity|]. cbn [get_request]. pose proof (H c (or_introl eq_refl)) as S. unfold says in S. destruct (last_of (with_code c os)) as [o|] eqn:L.
    - destruct (got_last t xid os X HO c o L) as (q & ->). cbn [obind fst]. rewrite (shows_read _ _ _ q b st S). reflexivity.
    - rewrite (got_none t xid os X HO c). 2:{ unfold last_of in L. destruct (with_code c os) as [|y l]; [reflexivity|]. cbn [rev] in L. destruct (rev l); discriminate L. }
      cbn [obind fst]. rewrite S. reflexivity. }
  destruct ST as (tab1 & E & ST). cbn [get_request] in ST. rewrite ST. destruct (IH tab1) as (tab' & -> & A & B); [intros; apply H; now right|].
  exists tab'. split; [reflexivity|]. split.
  - intros x [<-|I]; [|now apply A]. destruct (in_dec N.eq_dec c codes) as [I|I]; [now apply A|]. rewrite B, E by exact I. now rewrite N.eqb_refl.
  - intros x N. rewrite B, E by (intros I; apply N; now right). destruct (N.eqb_spec x c) as [->|]; [|reflexivity]. exfalso. apply N. now left.
Qed.
Section Complete.
Context (t : N) (xid : list byte) (os : list option6) (X : lenN xid = 3) (HO : Forall opt_ok os).
Let p := message t xid os.
Lemma gets_some code o : last_of (with_code code os) = Some o -> exists q, get_option p code = Ret (Some (o_data o ++ q, lenN (o_data o)), lenN (with_code code os)).
Proof. exact (got_last t xid os X HO code o). Qed.
Lemma gets_none code : with_code code os = [] -> get_option p code = Ret (None, 0).
Proof. exact (got_none t xid os X HO code). Qed.
Lemma not_nil (l : list byte) : l <> [] -> lenN l =? 0 = false.
Proof. intros N. apply N.eqb_neq. destruct l; [contradiction|]. rewrite lenN_cons. lia. Qed.
(** What the client keeps of the message: the lists it asked for. *)
Definition keeps (vals : N -> list value) (k k' : client) : Prop :=
  k_server k' = k_server k /\ k_listens k' = k_listens k /\ k_status k' = k_status k /\ k_bind k' = k_bind k
  /\ (forall c, In c (k_requests k) -> k_values k' c = vals c) /\ (forall c, ~ In c (k_requests k) -> k_values k' c = k_values k c).
Lemma takes vals k : (forall c, In c (k_requests k) -> says os c (vals c)) -> exists k', take_request p k = Ret k' /\ keeps vals k k'.
Proof.
  intros Q. unfold take_request. destruct (request_read t xid os X HO vals (k_bind k) (k_status k) (k_requests k) (k_values k) Q) as (tab & E & A & B).
  fold p in E. rewrite E. cbn [obind]. eexists. split; [reflexivity|]. repeat split; assumption.
Qed.
Lemma reply_complete vals k o : t = 7 -> with_code 2 os = [o] -> o_data o <> [] -> (forall s, k_server k = Some s -> o_data o = s) -> (forall c, In c (k_requests k) -> says os c (vals c)) ->
  exists k', reply_case p k = Ret (k', Reply) /\ keeps vals (deaf k) k'.
Proof.
  intros T W N S Q. unfold reply_case. change (nth 0 p 0) with t. rewrite T. change (negb (7 =? 7)) with false. cbv iota.
  destruct (gets_some 2 o) as (q & E); [now rewrite W|]. rewrite E, W. cbn [obind]. rewrite not_nil by exact N. change (negb (lenN [o] =? 1) || false) with false. cbv iota.
  replace (match k_server k with Some s => _ | None => _ end) with (Ret true); [|].
  2:{ destruct (k_server k) as [s|]; [|reflexivity]. rewrite (S s eq_refl). destruct (0 <? lenN s); [|reflexivity]. now rewrite memcmp_same. }
  cbn [obind negb]. destruct (takes vals (deaf k) Q) as (k' & -> & K). cbn [obind]. eauto.
Qed.
Theorem receive_complete vals k o : for_client k xid os -> k_duid k <> [] -> k_listens k = true -> due (k_phase k) t -> (forall c, In c (k_requests k) -> says os c (vals c)) -> statuses_ok os ->
  with_code 2 os = [o] -> o_data o <> [] -> (k_phase k <> Solicitation -> forall s, k_server k = Some s -> o_data o = s) ->
  (k_phase k = Solicitation -> t = 7 -> exists o, with_code 14 os = [o] /\ o_data o <> []) ->
  exists k', receive k (Some p) = Ret (k', heard t) /\ k_listens k' = false /\ k_status k' = status_of os /\ k_bind k' = k_bind k
    /\ (forall c, In c (k_requests k) -> k_phase k <> Solicitation \/ status_of os = 0 -> k_values k' c = vals c) /\ (forall c, ~ In c (k_requests k) -> k_values k' c = k_values k c)
    /\ k_server k' = match k_phase k, k_server k with Replying, s => s | Rebind, Some s => Some s | _, _ => Some (o_data o) end.
Proof.
  intros (XI & c & C1 & C2) KD KL DU Q ST W N S RC. unfold receive. rewrite KL. cbn [negb].
  assert (HH : rd p 4 = Ret ([t] ++ xid)).
  { unfold p, message. change (t :: xid ++ encs os) with ([t] ++ xid ++ encs os). rewrite app_assoc, rd_app by (len; lia). reflexivity. }
  rewrite HH. cbn [obind]. rewrite drop_app_exact by reflexivity. set (k0 := with_status 0 k). change (k_xid k0) with (k_xid k). change (k_duid k0) with (k_duid k). rewrite XI, N.eqb_refl. cbn [negb].
  destruct (gets_some 1 c C1) as (q & E). rewrite E. cbn [obind fst]. rewrite C2, not_nil by exact KD. rewrite memcmp_same. cbn [obind negb].
  assert (K : exists f, get_option p 13 = Ret f /\ (match fst f with
                             | Some (m, len) =>
                                 if len =? 0 then Ret k0
                                 else
                                   let* b := rd m 2 in
                                   let* _ := (if negb (be b =? 0) && (2 <? len) then strndup (N.to_nat (len - 2)) (dropN 2 m) else Ret []) in
                                   Ret (with_status (be b) k0)
                             | None => Ret k0
                             end) = Ret (with_status (status_of os) k0)).
  { unfold status_of. destruct (last_of (with_code 13 os)) as [s|] eqn:LS.
    - destruct (gets_some 13 s LS) as (q2 & E2). rewrite E2. eexists. split; [reflexivity|]. cbn [fst].
      assert (L2 : 2 <= lenN (o_data s)).
      { unfold statuses_ok in ST. rewrite Forall_forall in ST. apply ST. apply in_rev. unfold last_of in LS. destruct (rev _); [discriminate LS|]. injection LS as ->. left. reflexivity. }
      replace (lenN (o_data s) =? 0) with false by lia.
      assert (R2 : rd (o_data s ++ q2) 2 = Ret (takeN 2 (o_data s))).
      { rewrite <- (takeN_dropN 2 (o_data s)) at 1. rewrite <- app_assoc. apply rd_app. rewrite lenN_takeN. lia. }
      rewrite R2. cbn [obind].
      destruct (negb _ && _); [|reflexivity]. destruct (strndup_safe (N.to_nat (lenN (o_data s) - 2)) (dropN 2 (o_data s ++ q2))) as [u ->]; [len; lia|]. reflexivity.
    - exists (None, 0). split; [|reflexivity]. apply gets_none. unfold last_of in LS. destruct (with_code 13 os) as [|y l]; [reflexivity|]. cbn [rev] in LS. destruct (rev l); discriminate LS. }
  destruct K as (f & -> & K). cbn [obind]. rewrite K. cbn [obind]. clear K f. set (k2 := with_status (status_of os) k0).
  change (k_phase k2) with (k_phase k). destruct (k_phase k) eqn:PH.
  - unfold solicit_case. change (nth 0 p 0) with t. replace ((t =? 7) || (t =? 2)) with true by (destruct DU as [-> | [-> _]]; reflexivity). cbn [negb].
    destruct (gets_some 2 o) as (q2 & E2); [now rewrite W|]. rewrite E2, W. cbn [obind]. rewrite not_nil by exact N. change (negb (lenN [o] =? 1) || false) with false. cbv iota.
    rewrite rd_app by reflexivity. cbn [obind].
    replace (if t =? 7 then _ else Ret true) with (Ret true).
    2:{ destruct (N.eqb_spec t 7) as [T|T]; [|reflexivity]. destruct (RC eq_refl T) as (o4 & W4 & N4). destruct (gets_some 14 o4) as (q4 & E4); [now rewrite W4|].
        rewrite E4, W4. cbn [obind]. rewrite not_nil by exact N4. reflexivity. }
    cbn [obind negb]. set (k3 := deaf (with_server (o_data o) k2)).
    destruct (takes vals k3 Q) as (k4 & T4 & K1 & K2 & K3 & K4 & K5 & K6). rewrite T4. change (k_status k3) with (status_of os).
    destruct (N.eqb_spec (status_of os) 0) as [Z|Z]; cbn [obind].
    + exists k4. rewrite K1, K2, K3, K4. repeat split; auto.
    + exists k3. repeat split. intros c1 I [C|C]; congruence.
  - destruct DU as [T|[_ T]]; [|discriminate T]. unfold rebind_case. destruct (gets_some 2 o) as (q2 & E2); [now rewrite W|].  rewrite E2, W. cbn [obind].
    change (k_server k2) with (k_server k). destruct (k_server k) as [s|] eqn:KS.
    + cbn [obind]. destruct (reply_complete vals k2 o T W N) as (k4 & -> & K1 & K2 & K3 & K4 & K5 & K6); [|exact Q|].
      { intros s' KK. change (k_server k = Some s') in KK. apply S; [discriminate|congruence]. }
      exists k4. rewrite K1, K2, K3, K4. split; [rewrite T; reflexivity|]. repeat split; auto.
    + change (lenN [o] =? 1) with true. cbv iota. rewrite rd_app by reflexivity. cbn [obind].
      destruct (reply_complete vals (with_server (o_data o) k2) o T W N) as (k4 & -> & K1 & K2 & K3 & K4 & K5 & K6); [|exact Q|].
      { intros s' KK. now injection KK. }
      exists k4. rewrite K1, K2, K3, K4. split; [rewrite T; reflexivity|]. repeat split; auto.
  - destruct DU as [T|[_ T]]; [|discriminate T]. destruct (reply_complete vals k2 o T W N) as (k4 & -> & K1 & K2 & K3 & K4 & K5 & K6); [|exact Q|].
    { intros s' KK. apply S; [discriminate|exact KK]. }
    exists k4. rewrite K1, K2, K3, K4. split; [rewrite T; reflexivity|]. repeat split; auto.
Qed.
End Complete.

(** ** Safety *)
Theorem ia_safe b code iaid t1 t2 ss status : iaid < 2 ^ 32 -> t1 < 2 ^ 32 -> t2 < 2 ^ 32 -> Forall sub_ok ss ->
  exists x, forall r, get_addresses b code (lenN (ia_data code iaid t1 t2 ss)) (ia_data code iaid t1 t2 ss ++ r) status = Ret x.
Proof.
  intros LI L1 L2 H. destruct (N.eq_dec (b_iaid b) iaid) as [E|E]; [|eexists; intros r; apply ia_ignored; auto].
  destruct (timed code) eqn:T; [destruct (N.le_gt_cases t1 t2) as [L|L]|].
  - assert (F : exists x, finish b code (if timed code then t1 else 0) (if timed code then t2 else 0) (the_loop code status ss) = Ret x).
    { unfold finish. destruct (_ && _); [eauto|]. destruct (_ && _); destruct (_ && _); eauto. }
    destruct F as (x & F). exists x. intros r. rewrite addresses_read by auto. exact F.
  - eexists. intros r. apply ia_ignored; auto.
  - assert (F : exists x, finish b code (if timed code then t1 else 0) (if timed code then t2 else 0) (the_loop code status ss) = Ret x).
    { unfold finish. destruct (_ && _); [eauto|]. destruct (_ && _); destruct (_ && _); eauto. }
    destruct F as (x & F). exists x. intros r. rewrite addresses_read; auto. rewrite T. discriminate.
Qed.
