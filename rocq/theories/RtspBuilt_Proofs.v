(** Every message of the builder; sealed messages. *)
From Coq Require Import String.
From Verif Require Import Base Align_Model Atoi_Model Qstr_Model Text Text_Proofs RtspMsg_Model RtspMsg_Spec RtspMsg_Proofs RtspSeal_Proofs.

Definition plain_start (m : message) : Prop :=
  m_major m = 1 /\ m_minor m = 0 /\ match m_start m with Unknown _ => False | _ => True end.
Definition good (m : message) : Prop :=
  wf m /\ plain_start m /\ (m_sealed m = false -> m_body m = None)
  /\ (m_sealed m = true -> is_data m = false -> complete m).

Lemma start_line_status m : plain_start m -> is_data m = false -> start_line m = status_of (m_start m).
Proof.
  intros (A & B & C) D. unfold start_line, status_of, is_data in *. rewrite A, B.
  destruct (m_start m); [contradiction| | |discriminate].
  - unfold status. rewrite <- !app_assoc. reflexivity.
  - reflexivity.
Qed.

Lemma with_cookie_wf m c : wf m -> wf (set_cookie' m c).
Proof. intros []; constructor; auto. Qed.
Lemma with_cookie_closed m c : closed m -> closed (set_cookie' m c).
Proof. intros []; constructor; auto using with_cookie_wf. Qed.

(** The message as it is serialised: with its cookie. *)
Definition cooked (ck : N) (m : message) : message := set_cookie' m (sealed_cookie ck m).
Definition next_ck (ck : N) (m : message) : N := if m_cookie m =? 0 then next_cookie ck else ck.
Lemma set_cookie_same m : set_cookie' m (m_cookie m) = m.
Proof. now destruct m. Qed.
Lemma seal_eq ck m : m_sealed m = false -> m_iter_body m = false -> m_iter_header m = None ->
  seal ck m = do r <- match m_start m with Data c p => Ok (serialize_data (cooked ck m) c p, None) | _ => serialize_common (cooked ck m) end;
              match r with (m', Some e) => Ok (next_ck ck m, m', Some e) | (m', None) => Ok (next_ck ck m, set_sealed m', None) end.
Proof.
  intros S B I. unfold seal. rewrite S, B, I. cbn [orb no_ptr negb]. unfold cooked, sealed_cookie, next_ck, is_reply.
  destruct (m_cookie m =? 0) eqn:Ec; cbn [set_cookie' m_start m_cookie].
  - destruct (m_start m) eqn:Es; cbn [set_cookie' m_start m_cookie]; rewrite ?Es; reflexivity.
  - destruct (m_start m) eqn:Es; rewrite ?set_cookie_same; cbn [set_cookie' m_start m_cookie]; rewrite ?Es; reflexivity.
Qed.
Lemma seal_open ck m : m_sealed m = false -> m_iter_body m = true \/ m_iter_header m <> None -> seal ck m = Ok (ck, m, Some EINVAL).
Proof.
  intros S H. unfold seal. rewrite S. replace (m_iter_body m || negb (no_ptr (m_iter_header m))) with true; [reflexivity|].
  destruct (m_iter_body m); [reflexivity|]. destruct H as [H|H]; [discriminate|]. destruct (m_iter_header m); [reflexivity|congruence].
Qed.

(** Sealing a message under the invariant. *)
Lemma seal_ok ck m : wf m -> m_sealed m = false -> m_iter_body m = false -> m_iter_header m = None -> is_data m = false ->
  lenN (a_used (m_headers m)) < 2 ^ 60 -> lenN (a_used (m_headers m)) <= 61 \/ seal ck m <> UB ->
  exists m', serialize_common (cooked ck m) = Ok (m', None) /\ seal ck m = Ok (next_ck ck m, set_sealed m', None).
Proof.
  intros Wm S B I D Lb L. rewrite (seal_eq ck m S B I) in *.
  assert (C : closed (cooked ck m)) by (constructor; auto; now apply with_cookie_wf).
  assert (E : match m_start m with Data c p => Ok (serialize_data (cooked ck m) c p, None) | _ => serialize_common (cooked ck m) end = serialize_common (cooked ck m)).
  { unfold is_data in D. now destruct (m_start m). }
  rewrite E in *. destruct (serialize_ok (cooked ck m) C Lb) as (m' & E' & _).
  { destruct L as [L|L]; [now left|right]. intros E'. apply L. rewrite E'. reflexivity. }
  exists m'. rewrite E'. split; reflexivity.
Qed.

Lemma sealed_wf m : wf m -> wf (set_sealed m).
Proof. intros []; constructor; auto. Qed.

Lemma seal_good ck m ck' m' e : good m -> in_memory m -> seal ck m = Ok (ck', m', e) -> good m'.
Proof.
  intros (Wm & P & Hb & Hc) (Lb & _) E. destruct (m_sealed m) eqn:S.
  { unfold seal in E. rewrite S in E. injection E as <- <- <-. unfold good. rewrite S. auto. }
  destruct (m_iter_body m) eqn:B. { rewrite seal_open in E by auto. injection E as <- <- <-. unfold good. rewrite S. auto. }
  destruct (m_iter_header m) as [q|] eqn:I. { rewrite seal_open in E by (auto; right; congruence). injection E as <- <- <-. unfold good. rewrite S. auto. }
  destruct (is_data m) eqn:D.
  - rewrite (seal_eq ck m S B I) in E. unfold is_data in D. destruct (m_start m) as [| | |c p] eqn:Es; try discriminate.
    cbn [bind] in E. injection E as <- <- <-. split; [|split; [|split]].
    + apply sealed_wf. destruct (with_cookie_wf m (sealed_cookie ck m) Wm). constructor; auto.
    + destruct P as (P1 & P2 & P3). split; [exact P1|]. split; [exact P2|]. cbn. exact P3.
    + discriminate.
    + intros _ D'. unfold is_data in D'. cbn in D'. rewrite Es in D'. discriminate.
  - destruct (seal_ok ck m Wm S B I D Lb) as (m1 & E1 & E2). { right. rewrite E. discriminate. }
    rewrite E2 in E. injection E as <- <- <-.
    assert (C : closed (cooked ck m)) by (constructor; auto; now apply with_cookie_wf).
    destruct (serialize_ok (cooked ck m) C Lb) as (m2 & E1' & [W2 D2 S2 I2 B2] & Q1 & Q2 & Q3 & Q4 & Q5 & Q6 & Q7 & Q8 & Q9 & Q10 & Q11 & _).
    { right. rewrite E1. discriminate. }
    rewrite E1 in E1'. injection E1' as <-. split; [now apply sealed_wf|]. split.
    { destruct P as (P1 & P2 & P3). split; [exact (eq_trans Q3 P1)|]. split; [exact (eq_trans Q4 P2)|]. cbn. rewrite Q1. exact P3. }
    split; [discriminate|]. intros _ _. exists (body_of (cooked ck m)). split; [exact Q7|]. split.
    { cbn [set_sealed m_raw m_start m_headers]. rewrite Q8. do 2 f_equal. rewrite start_line_status; [now rewrite Q1|exact P|exact D]. }
    split; [|split].
    + intros Hl. destruct Q11 as [(H1 & _)|[(H1 & _)|(H1 & H2 & _)]].
      * left. rewrite N.mod_small in H1 by exact Hl. exact H1.
      * left. exact H1.
      * right. auto.
    + cbn [set_sealed m_body_headers]. rewrite Q6. exact Q10.
    + cbn [set_sealed m_cookie]. rewrite Q2. exact Q9.
Qed.

Lemma in_memory_fits m : in_memory m -> fits m.
Proof.
  assert (E60 : 2 ^ 60 = 1152921504606846976) by reflexivity.
  intros (A & B). red. destruct (m_iter_body m); red; rewrite p62; cbn [array]; lia.
Qed.
Lemma kept_good m m' : good m -> wf m' -> kept m m' -> (m_sealed m = true \/ is_data m = true -> m' = m) -> good m'.
Proof.
  intros G W' K T. destruct (m_sealed m) eqn:S; [rewrite T by auto; exact G|].
  destruct G as (Wm & (P1 & P2 & P3) & Hb & Hc). destruct K as (K1 & K2 & K3 & K4 & K5 & K6 & K7 & K8).
  split; [assumption|]. split; [split; [congruence|split; [congruence|now rewrite K1]]|]. split.
  - intros _. rewrite K5. auto.
  - congruence.
Qed.
Lemma built_good m : built m -> good m.
Proof.
  induction 1 as [method uri m E|cookie code phrase m E|channel payload m E|m o m' e B IH M E|m c B IH|m ck ck' m' e B IH M E].
  - destruct method, uri; try discriminate. injection E as <-. split; [apply wf_new|]. split; [repeat split|]. split; [reflexivity|discriminate].
  - unfold new_reply, new_raw_reply in E. destruct (cookie =? 0); [discriminate|]. destruct (code =? 2 ^ 32 - 1); [discriminate|].
    injection E as <-. split; [apply with_cookie_wf, wf_new|]. split; [repeat split|]. split; [reflexivity|discriminate].
  - unfold new_data in E. destruct (channel =? 2 ^ 32 - 1); [discriminate|]. injection E as <-.
    split; [apply wf_new|]. split; [repeat split|]. split; [reflexivity|discriminate].
  - destruct IH as (Wm & IH). destruct (append_basic_ok m o Wm (in_memory_fits m M)) as (m2 & e2 & E2 & W2 & K2 & _ & T2).
    rewrite E in E2. injection E2 as <- <-. apply kept_good with m; auto. split; assumption.
  - unfold set_cookie. destruct (m_sealed m) eqn:S; [exact IH|]. destruct IH as (Wm & P & Hb & Hc). cbn [fst].
    split; [now apply with_cookie_wf|]. split; [exact P|]. split; [exact Hb|]. cbn. congruence.
  - exact (seal_good _ _ _ _ _ IH M E).
Qed.

Lemma built_complete m : built m -> m_sealed m = true -> is_data m = false -> complete m.
Proof. intros B S D. apply built_good in B as (_ & _ & _ & H). auto. Qed.

(** No undefined behaviour while the message is small. *)
Lemma built_append_safe m o : built m -> in_memory m -> append_basic m o <> UB.
Proof.
  intros B M. destruct (append_basic_ok m o) as (m' & e & E & _); [apply built_good, B|now apply in_memory_fits|]. congruence.
Qed.
Lemma built_seal_safe ck m : built m -> lenN (a_used (m_headers m)) <= 61 ->
  exists ck' m' e, seal ck m = Ok (ck', m', e)
    /\ (e = None <-> m_sealed m = true \/ m_iter_body m = false /\ m_iter_header m = None).
Proof.
  intros B L. destruct (built_good m B) as (Wm & _).
  destruct (m_sealed m) eqn:S. { exists ck, m, None. unfold seal. rewrite S. tauto. }
  destruct (m_iter_body m) eqn:Bd.
  { exists ck, m, (Some EINVAL). rewrite seal_open by auto. split; [reflexivity|]. split; [discriminate|intros [?|[]]; discriminate]. }
  destruct (m_iter_header m) as [q|] eqn:I.
  { exists ck, m, (Some EINVAL). rewrite seal_open by (auto; right; congruence). split; [reflexivity|]. split; [discriminate|intros [?|[]]; discriminate]. }
  destruct (is_data m) eqn:D.
  - rewrite (seal_eq ck m S Bd I). unfold is_data in D. destruct (m_start m) as [| | |c p] eqn:Es; try discriminate.
    cbn [bind]. do 3 eexists. split; [reflexivity|]. tauto.
  - destruct (seal_ok ck m Wm S Bd I D) as (m1 & E1 & E2); [|now left|].
    { assert (E60 : 2 ^ 60 = 1152921504606846976) by reflexivity. lia. }
    rewrite E2. do 3 eexists. split; [reflexivity|]. tauto.
Qed.

(** ** Sealed messages *)
Lemma sealed_append m o : m_sealed m = true -> exists e, append_basic m o = Ok (m, Some e).
Proof. intros S. unfold append_basic, guard. rewrite S. destruct (is_data m); eauto. Qed.
Lemma sealed_line m s : m_sealed m = true -> exists e, append_line m s = Ok (m, Some e).
Proof. intros S. unfold append_line, guard. rewrite S. destruct (is_data m); eauto. Qed.
Lemma sealed_ops m s : m_sealed m = true -> exists e, append m s = Ok (m, Some e).
Proof. intros S. unfold append, guard. rewrite S. destruct (is_data m); eauto. Qed.
Lemma sealed_cookie_kept m c : m_sealed m = true -> set_cookie m c = (m, Some EBUSY).
Proof. intros S. unfold set_cookie. now rewrite S. Qed.
Lemma sealed_seal m ck : m_sealed m = true -> seal ck m = Ok (ck, m, None).
Proof. intros S. unfold seal. now rewrite S. Qed.
Lemma same_contents_refl m : same_contents m m.
Proof. unfold same_contents. now destruct m. Qed.
Lemma same_contents_iter m b h t : same_contents m (set_iter m b h t).
Proof. unfold same_contents. now destruct m. Qed.
Lemma same_contents_trans a b c : same_contents a b -> same_contents b c -> same_contents a c.
Proof. unfold same_contents. intros H1 H2. rewrite H2, H1. reflexivity. Qed.
Lemma same_contents_sealed a b : same_contents a b -> m_sealed b = m_sealed a.
Proof. unfold same_contents. intros ->. reflexivity. Qed.
Lemma read_same m r a x : read_basic m r = Ok (a, x) -> same_contents m a.
Proof.
  unfold read_basic, rguard.
  destruct (is_data m) eqn:D; [intros [= <- <-]; apply same_contents_refl|].
  destruct (m_sealed m) eqn:S; cbn [negb]; [|intros [= <- <-]; apply same_contents_refl].
  assert (T : forall f : list byte -> list byte + err,
    match m_iter_header m with
    | None => Ok (m, inr EINVAL)
    | Some p => do h <- deref m p;
        match nthN (h_tokens h) (m_iter_token m) with
        | None => Ok (m, inr ENOENT)
        | Some t => match f t with
                    | inl v => Ok (set_iter m (m_iter_body m) (m_iter_header m) (m_iter_token m + 1), inl v)
                    | inr e => Ok (m, inr e)
                    end
        end
    end = Ok (a, x) -> same_contents m a).
  { intros f. destruct (m_iter_header m) as [p|]; [|intros [= <- <-]; apply same_contents_refl].
    destruct (deref m p) as [h|]; cbn [bind]; [|discriminate].
    destruct (nthN (h_tokens h) (m_iter_token m)) as [t|]; [|intros [= <- <-]; apply same_contents_refl].
    destruct (f t); intros [= <- <-]; [apply same_contents_iter|apply same_contents_refl]. }
  destruct r as [|name| | | | | |scan|].
  - destruct (m_iter_header m) as [p|]; [|intros [= <- <-]; apply same_contents_refl].
    destruct (deref m p) as [h|]; cbn [bind]; [|discriminate]. intros [= <- <-]; apply same_contents_refl.
  - unfold enter_header, rguard. rewrite D, S. destruct name as [|c name]; [intros [= <- <-]; apply same_contents_refl|].
    cbn [negb]. destruct (negb (no_ptr (m_iter_header m))); [intros [= <- <-]; apply same_contents_refl|].
    destruct (find_key _ _ _); intros [= <- <-]; [apply same_contents_iter|apply same_contents_refl].
  - intros [= <- <-]. unfold exit_header. rewrite D, S. apply same_contents_iter.
  - unfold enter_body, rguard. rewrite D, S. cbn [negb].
    destruct (_ || _); intros [= <- <-]; [apply same_contents_refl|apply same_contents_iter].
  - intros [= <- <-]. unfold exit_body. rewrite D, S. cbn [negb orb]. destruct (m_iter_body m); [apply same_contents_iter|apply same_contents_refl].
  - exact (T (fun t => inl t)).
  - exact (T (fun _ => inl [])).
  - exact (T (fun t => match scan t with Some v => inl v | None => inr EINVAL end)).
  - exact (T (fun _ => inr EINVAL)).
Qed.
Lemma later_same m m' : later m m' -> m_sealed m = true -> same_contents m m'.
Proof.
  intros L. induction L as [m|m o a e b E L IH|m s a e b E L IH|m l a e b E L IH|m c b L IH|m ck ck' a e b E L IH|m r a x b E L IH]; intros S.
  - apply same_contents_refl.
  - destruct (sealed_append m o S) as (e' & E'). rewrite E in E'. injection E' as -> ->. auto.
  - destruct (sealed_line m s S) as (e' & E'). rewrite E in E'. injection E' as -> ->. auto.
  - destruct (sealed_ops m l S) as (e' & E'). rewrite E in E'. injection E' as -> ->. auto.
  - rewrite (sealed_cookie_kept m c S) in IH. auto.
  - rewrite (sealed_seal m ck S) in E. injection E as <- <- <-. auto.
  - pose proof (read_same _ _ _ _ E) as H. apply same_contents_trans with a; auto. apply IH.
    rewrite (same_contents_sealed _ _ H). exact S.
Qed.
