(** Proofs about the link-local address client. *)
From Verif Require Import Base LinkLocal_Model LinkLocal_Spec.
From Coq Require Import Lia.

(** ** At most one timer *)
Definition wf (c : client) : Prop :=
  0 < next_id c /\ timeout c < next_id c /\ (arp c = false -> watch c = false) /\
  (srcs c = [] \/ (0 < timeout c /\ exists k d, srcs c = [Src (timeout c) k d])).
Lemma wf_fresh : wf fresh_client.
Proof. unfold wf; cbn; repeat split; auto; lia. Qed.

Arguments without : simpl never.
Arguments delay : simpl never.
Arguments seen : simpl never.
Arguments names : simpl never.
Lemma without_hd : forall i k d, without i [Src i k d] = [].
Proof. intros; unfold without, other; cbn; rewrite N.eqb_refl; reflexivity. Qed.
Lemma without_ne : forall i j k d, i <> j -> without i [Src j k d] = [Src j k d].
Proof. intros i j k d H; unfold without, other; cbn; destruct (N.eqb_spec j i); [lia | reflexivity]. Qed.
Lemma without_app : forall i l m, without i (l ++ m) = without i l ++ without i m.
Proof. intros; unfold without; apply filter_app. Qed.

Lemma remove_eq : forall c, wf c ->
  remove_timeouts c = set_timeout 0 (set_srcs [] (next_id c) c).
Proof.
  intros [s a w r q tm rq asg n l nx h] (H1 & H2 & H3 & H4); unfold remove_timeouts, set_timeout, set_srcs; cbn in *.
  destruct H4 as [-> | (H4 & k & d & ->)].
  - destruct (tm =? 0); reflexivity.
  - destruct (N.eqb_spec tm 0); [lia|]. cbn. rewrite without_hd. reflexivity.
Qed.

Lemma deaf_eq : forall c, wf c -> deaf c = set_listen false false c.
Proof.
  intros [s a w r q tm rq asg n l nx h] (H1 & H2 & H3 & H4); unfold deaf, set_listen; cbn in *.
  destruct a; [reflexivity|]. rewrite H3 by reflexivity. reflexivity.
Qed.
Lemma wf_deaf : forall c, wf c -> wf (set_listen false false c).
Proof. intros c (H1 & H2 & H3 & H4); repeat split; auto. Qed.
Lemma wf_remove : forall c, wf c -> wf (set_timeout 0 (set_srcs [] (next_id c) c)).
Proof. intros c (H1 & H2 & H3 & H4); unfold wf; cbn; repeat split; auto. Qed.
Lemma wf_emit : forall x c, wf c -> wf (emit x c).
Proof. intros x c H; exact H. Qed.
Lemma wf_set_st : forall x c, wf c -> wf (set_st x c).
Proof. intros x c H; exact H. Qed.
Lemma wf_set_retry : forall x c, wf c -> wf (set_retry x c).
Proof. intros x c H; exact H. Qed.
Lemma wf_set_conflicts : forall x c, wf c -> wf (set_conflicts x c).
Proof. intros x c H; exact H. Qed.
Lemma wf_set_assigned : forall x c, wf c -> wf (set_assigned x c).
Proof. intros x c H; exact H. Qed.

(** *** What each function does *)
Lemma start_eq : forall e c, wf c ->
  start e c = Client INIT_SELECTING false false 1 (conflicts c) (next_id c) (e_ip e) (assigned c)
    (now c) [Src (next_id c) KSend (now c + delay e)] (next_id c + 1) (log c).
Proof.
  intros e c H. unfold start, ll_start. rewrite remove_eq by (apply wf_set_st, H).
  rewrite deaf_eq by (apply wf_remove, wf_set_st, H). reflexivity.
Qed.
Lemma stop_eq : forall c, wf c ->
  stop c = Client RELEASED false false 0 (conflicts c) 0 0 (assigned c) (now c) [] (next_id c) (log c).
Proof.
  intros c H. unfold stop. rewrite deaf_eq by exact H. rewrite remove_eq by (apply wf_deaf, H). reflexivity.
Qed.
Lemma ll_stop_eq : forall c, wf c ->
  ll_stop c = Client PROBE false false 0 (conflicts c) 0 0 None (now c) [] (next_id c) (log c).
Proof.
  intros c H. unfold ll_stop. rewrite deaf_eq by exact H. rewrite remove_eq by (apply wf_deaf, H). reflexivity.
Qed.
Lemma wf_start : forall e c, wf c -> wf (start e c).
Proof.
  intros e c H. rewrite start_eq by exact H. destruct H as (H1 & H2 & H3 & H4). unfold wf; cbn.
  repeat split; auto; try lia. right. split; [exact H1|]. eauto.
Qed.
Lemma wf_stop : forall c, wf c -> wf (stop c).
Proof.
  intros c H. rewrite stop_eq by exact H. destruct H as (H1 & H2 & H3 & H4). unfold wf; cbn. repeat split; auto.
Qed.
Lemma wf_react : forall e c, wf c -> wf (react e c).
Proof.
  intros e c H. unfold react. destruct (e_react e); [exact H| |].
  - apply wf_emit, wf_stop, H.
  - apply wf_start, wf_emit, H.
Qed.

Definition again (e : env) (c : client) : client :=
  Client PROBE false false 1 (conflicts c) (next_id c) 0 None (now c)
    [Src (next_id c) KSend (now c + delay e)] (next_id c + 1) (log c).
Definition off (c : client) : client :=
  Client PROBE false false 0 (conflicts c) 0 0 None (now c) [] (next_id c) (log c).
Lemma give_up_eq : forall e c, wf c ->
  give_up e c = if conflicts c <? 10 then again e c else react e (emit NoLease (off c)).
Proof. intros e c H. unfold give_up. rewrite ll_stop_eq by exact H. reflexivity. Qed.
Lemma wf_again : forall e c, wf c -> wf (again e c).
Proof.
  intros e c (H1 & H2 & H3 & H4). unfold wf, again; cbn. repeat split; auto; try lia.
  right. split; [exact H1|]. eauto.
Qed.
Lemma wf_off : forall c, wf c -> wf (off c).
Proof. intros c (H1 & H2 & H3 & H4). unfold wf, off; cbn. repeat split; auto. Qed.
Lemma wf_give_up : forall e c, wf c -> wf (give_up e c).
Proof.
  intros e c H. rewrite give_up_eq by exact H. destruct (conflicts c <? 10).
  - apply wf_again, H.
  - apply wf_react, wf_emit, wf_off, H.
Qed.
Definition ann_kind (s : state) : kind := match s with DEFEND => KDefend | _ => KAnnounce end.
Definition ann_ms (s : state) : N := match s with DEFEND => 10000 | _ => 2000 end.
Lemma announce_eq : forall c, wf c ->
  send_announce c = Client (st c) (arp c) (watch c) (retry c) (conflicts c) (next_id c) (req_ip c)
    (assigned c) (now c) [Src (next_id c) (ann_kind (st c)) (now c + ann_ms (st c))] (next_id c + 1)
    (log c ++ [(now c, Announce (req_ip c))]).
Proof.
  intros c H. unfold send_announce. rewrite remove_eq by (apply wf_emit, H).
  destruct c as [s a w r q tm rq asg n l nx h]; destruct s; reflexivity.
Qed.
Lemma wf_announce : forall c, wf c -> wf (send_announce c).
Proof.
  intros c H. rewrite announce_eq by exact H. destruct H as (H1 & H2 & H3 & H4). unfold wf; cbn.
  repeat split; auto; try lia. right. split; [exact H1|]. eauto.
Qed.
Lemma wf_receive : forall e o s g c, wf c -> wf (receive e o s g c).
Proof.
  intros e o s g c H. unfold receive. destruct (negb _); [exact H|]. destruct (_ && _); [exact H|].
  assert (H' : wf (set_conflicts ((conflicts c + 1) mod 256) c)) by exact H.
  destruct (st (set_conflicts _ c)); try apply wf_give_up, H'.
  - destruct (negb _); [exact H'|]. apply wf_announce. exact H'.
  - destruct (negb _); [exact H'|]. apply wf_give_up, wf_react. exact H'.
Qed.

(** A source that has just run goes away. *)
Definition drop (id : N) (c : client) : client := set_srcs (without id (srcs c)) (next_id c) c.
Lemma drop_wf : forall id c, wf c -> wf (drop id c).
Proof.
  intros id c (H1 & H2 & H3 & H4). unfold wf, drop; cbn. repeat split; auto.
  destruct H4 as [-> | (H4 & k & d & ->)]; [left; reflexivity|].
  destruct (N.eq_dec id (timeout c)) as [->|E].
  - left. apply without_hd.
  - right. split; [exact H4|]. exists k, d. apply without_ne, E.
Qed.
Lemma probe_drop : forall e id c, wf c -> timeout c = id ->
  wf (drop id (send_probe e c)).
Proof.
  intros e id [s a w r q tm rq asg n l nx h] (H1 & H2 & H3 & H4) Hid.
  cbn in Hid; subst id. cbn [next_id timeout arp watch srcs] in *.
  unfold send_probe. cbn [req_ip]. set (c0 := if rq =? 0 then _ else _).
  assert (E0 : exists rq', c0 = Client s a w r q tm rq' asg n l nx h)
    by (subst c0; destruct (rq =? 0); eexists; reflexivity).
  destruct E0 as (rq' & ->). cbn [retry]. set (c1 := if r =? 1 then _ else _).
  assert (E1 : exists s' a' w', c1 = Client s' a' w' r q tm rq' asg n l nx h /\ (a' = false -> w' = false)).
  { subst c1. destruct (r =? 1); [|do 3 eexists; split; [reflexivity | exact H3]].
    unfold listen; cbn [set_st arp]. destruct a; [do 3 eexists; split; [reflexivity | intros; discriminate]|].
    destruct (e_sock e); do 3 eexists; (split; [reflexivity|]); [intros; discriminate | exact H3]. }
  destruct E1 as (s' & a' & w' & -> & H3').
  unfold wf, drop, add, emit; cbn. repeat split; auto; try lia.
  right. split; [exact H1|]. rewrite without_app.
  destruct H4 as [-> | (H4 & k & d & ->)].
  - cbn [without filter app]. exists KProbe. eexists. apply without_ne. lia.
  - rewrite without_hd. cbn [app]. exists KProbe. eexists. apply without_ne. lia.
Qed.
Lemma find_one : forall c id x, wf c -> find (fun s => s_id s =? id) (srcs c) = Some x ->
  srcs c = [x] /\ timeout c = id /\ s_id x = id.
Proof.
  intros c id x (H1 & H2 & H3 & H4) F. destruct H4 as [E | (H4 & k & d & E)]; rewrite E in *; cbn in F; [discriminate|].
  destruct (N.eqb_spec (timeout c) id); inversion F; subst. auto.
Qed.
Lemma wf_step : forall e o c, wf c -> wf (step e o c).
Proof.
  intros e o c H. destruct o; cbn [step].
  - apply wf_start, wf_emit, H.
  - apply wf_emit, wf_stop, H.
  - destruct (find _ (srcs c)) as [x|] eqn:F; [|exact H].
    destruct (s_due x <=? now c); [|exact H].
    destruct (find_one _ _ _ H F) as (E1 & E2 & E3).
    change (set_srcs (without id (srcs (fire e (s_kind x) c))) (next_id (fire e (s_kind x) c)) (fire e (s_kind x) c))
      with (drop id (fire e (s_kind x) c)).
    destruct (s_kind x); cbn [fire].
    + apply probe_drop; assumption.
    + destruct (retry c =? 3); [apply drop_wf, wf_announce, H | apply probe_drop; [exact H | exact E2]].
    + destruct (negb _); [apply drop_wf, wf_announce, H|].
      apply drop_wf, wf_set_conflicts, wf_react, wf_emit. exact H.
    + apply drop_wf. exact H.
  - destruct (watch (emit _ c)); [apply wf_receive|]; apply wf_emit, H.
  - destruct (watch c); [|exact H]. destruct H as (H1 & H2 & H3 & H4). repeat split; auto.
  - exact H.
Qed.
Lemma runs_wf : forall P c, runs P c -> wf c.
Proof. intros P c H; induction H; [apply wf_fresh | apply wf_step; assumption]. Qed.

(** ** Stages *)
Inductive stage : client -> Prop :=
| s_idle s r q tm rq a n nx h :
    cand (seen h) = None -> held (seen h) = None -> on (seen h) = false ->
    stage (Client s false false r q tm rq a n [] nx h)
| s_wait s q tm rq a n due nx h :
    cand (seen h) = None -> held (seen h) = None -> rq = 0 \/ link_local rq ->
    stage (Client s false false 1 q tm rq a n [Src tm KSend due] nx h)
| s_probe k q tm ip a n due nx h t :
    cand (seen h) = Some ip -> held (seen h) = None -> link_local ip ->
    1 <= k <= 3 -> claiming ip k t h -> t + (if k <? 3 then 1000 else 2000) <= due ->
    stage (Client PROBE true true k q tm ip a n [Src tm KProbe due] nx h)
| s_announce k q tm ip a n due nx h t :
    cand (seen h) = Some ip -> held (seen h) = None -> link_local ip ->
    1 <= k <= 2 -> claiming ip (3 + k) t h -> t + 2000 <= due ->
    stage (Client ANNOUNCE true true k q tm ip a n [Src tm KAnnounce due] nx h)
| s_monitor r q tm ip n nx h :
    cand (seen h) = Some ip -> held (seen h) = Some ip -> link_local ip ->
    match defence (seen h) with Some t => t + 10000 <= n | None => True end ->
    stage (Client MONITOR true true r q tm ip (Some ip) n [] nx h)
| s_defend r q tm ip n nx h t :
    cand (seen h) = Some ip -> held (seen h) = Some ip -> link_local ip ->
    defence (seen h) = Some t ->
    stage (Client DEFEND true true r q tm ip (Some ip) n [Src tm KDefend (t + 10000)] nx h).

Lemma seen_app : forall h x, seen (h ++ [x]) = look (seen h) x.
Proof. intros; unfold seen; rewrite fold_left_app; reflexivity. Qed.
Lemma link_local_nz : forall ip, link_local ip -> (ip =? 0) = false.
Proof. unfold link_local; intros; apply N.eqb_neq; lia. Qed.

(** *** One more event *)
Lemma snoc_split : forall (A : Type) (h h1 h2 : list A) x y, h ++ [x] = h1 ++ y :: h2 ->
  (h2 = [] /\ h1 = h /\ x = y) \/ (exists h2', h2 = h2' ++ [x] /\ h = h1 ++ y :: h2').
Proof.
  intros A h h1 h2 x y E. destruct h2 as [|z h2'] using rev_ind.
  - left. apply app_inj_tail in E. destruct E; subst; auto.
  - right. exists h2'. rewrite app_comm_cons, app_assoc in E. apply app_inj_tail in E. destruct E; subst; auto.
Qed.
Lemma claimed_other : forall h t e, claimed h -> (forall ip, e <> Available ip) -> claimed (h ++ [(t, e)]).
Proof.
  intros h t e H N h1 t1 ip h2 E. apply snoc_split in E. destruct E as [(-> & -> & E) | (h2' & -> & E)].
  - inversion E; subst. now destruct (N ip).
  - eapply H, E.
Qed.
Lemma claimed_yes : forall h t ip, claimed h -> link_local ip -> (exists t5, claiming ip 5 t5 h /\ t5 + 2000 <= t) ->
  claimed (h ++ [(t, Available ip)]).
Proof.
  intros h t ip H L C h1 t1 ip1 h2 E. apply snoc_split in E. destruct E as [(-> & -> & E) | (h2' & -> & E)].
  - inversion E; subst. auto.
  - eapply H, E.
Qed.
Lemma claimed_nil : claimed [].
Proof. intros h1 t ip h2 E. destruct h1; discriminate. Qed.
Ltac oth := apply claimed_other; [|intros; discriminate].

Definition inv (c : client) : Prop := wf c /\ stage c /\ claimed (log c).
Lemma inv_fresh : inv fresh_client.
Proof. split; [apply wf_fresh|]. split; [|apply claimed_nil]. apply s_idle; reflexivity. Qed.

(** *** Start, stop and callbacks *)
Lemma stage_start : forall e c, wf c -> cand (seen (log c)) = None -> held (seen (log c)) = None ->
  link_local (e_ip e) -> stage (start e c).
Proof. intros e c H C D L. rewrite start_eq by exact H. apply s_wait; auto. Qed.
Lemma stage_stop : forall c, wf c -> stage (emit Stop (stop c)).
Proof.
  intros c H. rewrite stop_eq by exact H. unfold emit, set_log; cbn.
  apply s_idle; rewrite seen_app; reflexivity.
Qed.
Lemma inv_start : forall e c, wf c -> claimed (log c) -> link_local (e_ip e) -> inv (start e (emit Start c)).
Proof.
  intros e c H C L. split; [apply wf_start, wf_emit, H|]. split.
  - apply stage_start; [apply wf_emit, H| | |exact L]; cbn; rewrite seen_app; reflexivity.
  - rewrite start_eq by (apply wf_emit, H). cbn. oth. exact C.
Qed.
Lemma inv_stop : forall c, wf c -> claimed (log c) -> inv (emit Stop (stop c)).
Proof.
  intros c H C. split; [apply wf_emit, wf_stop, H|]. split; [apply stage_stop, H|].
  rewrite stop_eq by exact H. cbn. oth. exact C.
Qed.
(** A callback in any client: nothing, or a stage of its own. *)
Lemma inv_react : forall e c, inv c -> link_local (e_ip e) -> inv (react e c).
Proof.
  intros e c H L. unfold react. destruct (e_react e); [exact H| |].
  - apply inv_stop; apply H.
  - apply inv_start; try apply H. exact L.
Qed.
Lemma react_wf : forall e c, wf c -> claimed (log c) -> wf (react e c) /\ claimed (log (react e c)).
Proof.
  intros e c H C. split; [apply wf_react, H|]. unfold react. destruct (e_react e); [exact C| |].
  - rewrite stop_eq by exact H. cbn. oth. exact C.
  - rewrite start_eq by (apply wf_emit, H). cbn. oth. exact C.
Qed.

Lemma inv_give_up : forall e c, wf c -> claimed (log c) -> cand (seen (log c)) = None ->
  held (seen (log c)) = None -> link_local (e_ip e) -> inv (give_up e c).
Proof.
  intros e c H C Hc Hh L. rewrite give_up_eq by exact H. destruct (conflicts c <? 10).
  - split; [apply wf_again, H|]. split; [|exact C]. apply s_wait; auto.
  - apply inv_react; [|exact L]. split; [apply wf_emit, wf_off, H|]. split.
    + apply s_idle; cbn; rewrite seen_app; cbn; [exact Hc | exact Hh | reflexivity].
    + cbn. oth. exact C.
Qed.
(** The history after the lost callback. *)
Lemma react_seen : forall e c, wf c -> cand (seen (log c)) = None -> held (seen (log c)) = None ->
  cand (seen (log (react e c))) = None /\ held (seen (log (react e c))) = None.
Proof.
  intros e c H C D. unfold react. destruct (e_react e); [auto| |].
  - rewrite stop_eq by exact H. cbn. rewrite seen_app. auto.
  - rewrite start_eq by (apply wf_emit, H). cbn. rewrite seen_app. auto.
Qed.

(** *** Receiving *)
Lemma names_split : forall ip o s g, names ip o s g =
  negb (negb ((o =? 2) || (o =? 1))) && negb (negb (s =? ip) && negb (g =? ip)).
Proof. intros; unfold names; destruct (o =? 1), (o =? 2), (s =? ip), (g =? ip); reflexivity. Qed.
Lemma receive_quiet : forall e o s g c, names (req_ip c) o s g = false -> receive e o s g c = c.
Proof.
  intros e o s g c H. rewrite names_split in H. unfold receive.
  destruct (negb ((o =? 2) || (o =? 1))); [reflexivity|]. cbn in H.
  destruct (negb (s =? req_ip c) && negb (g =? req_ip c)); [reflexivity | discriminate].
Qed.
Definition count (c : client) : client := set_conflicts ((conflicts c + 1) mod 256) c.
Lemma receive_named : forall e o s g c, names (req_ip c) o s g = true ->
  receive e o s g c =
  match st c with
  | MONITOR => if negb (s =? req_ip c) then count c else send_announce (set_st DEFEND (count c))
  | DEFEND => if negb (s =? req_ip c) then count c else give_up e (react e (emit Lost (count c)))
  | _ => give_up e (count c)
  end.
Proof.
  intros e o s g c H. rewrite names_split in H. apply andb_prop in H. destruct H as (H1 & H2).
  unfold receive. apply negb_true_iff in H1. apply negb_true_iff in H2. rewrite H1, H2. reflexivity.
Qed.

Lemma claiming_quiet : forall ip k t h t' o s g, claiming ip k t h -> names ip o s g = false ->
  claiming ip k t (h ++ [(t', Wire o s g)]).
Proof. intros; apply claim_quiet; assumption. Qed.

Lemma stage_quiet : forall c o s g, stage c ->
  (forall ip, cand (seen (log c)) = Some ip -> names ip o s g = false) -> stage (emit (Wire o s g) c).
Proof.
  intros c o s g H Q. unfold emit, set_log.
  destruct H; cbn in *; match goal with |- stage (Client _ _ _ _ _ _ _ _ ?n _ _ ?l) =>
    assert (E : seen l = seen h) by
      (rewrite seen_app; cbn; destruct (cand (seen h)) eqn:C; [rewrite (Q _ eq_refl); reflexivity | reflexivity]) end.
  - apply s_idle; rewrite E; assumption.
  - apply s_wait; try rewrite E; assumption.
  - eapply s_probe; try rewrite E; eauto. apply claiming_quiet; [eassumption|]. apply Q; assumption.
  - eapply s_announce; try rewrite E; eauto. apply claiming_quiet; [eassumption|]. apply Q; assumption.
  - apply s_monitor; try rewrite E; assumption.
  - apply s_defend; try rewrite E; assumption.
Qed.

(** Whoever listens tries or holds the address asked for. *)
Lemma stage_cand : forall c, stage c ->
  if watch c then cand (seen (log c)) = Some (req_ip c) else cand (seen (log c)) = None.
Proof. intros c H; destruct H; cbn; assumption. Qed.

Lemma seen_named : forall h ip t o s g, cand (seen h) = Some ip -> names ip o s g = true ->
  seen (h ++ [(t, Wire o s g)]) =
  match held (seen h) with
  | Some _ => View (cand (seen h)) (since (seen h)) (held (seen h)) (defence (seen h)) (hits (seen h) + 1) (on (seen h))
  | None => View None t None (defence (seen h)) (hits (seen h) + 1) (on (seen h))
  end.
Proof. intros h ip t o s g C N. rewrite seen_app. cbn. rewrite C, N. reflexivity. Qed.

Lemma inv_recv : forall e o s g c, inv c -> link_local (e_ip e) -> inv (step e (ORecv o s g) c).
Proof.
  intros e o s g c (W & S & C) L. cbn [step].
  change (watch (emit (Wire o s g) c)) with (watch c).
  pose proof (stage_cand c S) as K.
  assert (C' : claimed (log (emit (Wire o s g) c))) by (cbn; oth; exact C).
  assert (W' : wf (emit (Wire o s g) c)) by (apply wf_emit, W).
  destruct (watch c) eqn:Wt.
  2:{ split; [exact W'|]. split; [|exact C']. apply stage_quiet; [exact S|]. rewrite K; discriminate. }
  destruct (names (req_ip c) o s g) eqn:Nm.
  2:{ rewrite receive_quiet by exact Nm. split; [exact W'|]. split; [|exact C'].
      apply stage_quiet; [exact S|]. intros ip E. rewrite K in E. inversion E; subst. exact Nm. }
  rewrite receive_named by exact Nm.
  pose proof (seen_named (log c) _ (now c) o s g K Nm) as Sn.
  destruct S; cbn [watch] in Wt; try discriminate Wt; cbn [st emit set_log log now held req_ip] in *.
  - apply inv_give_up; [exact W' | exact C' | | | exact L]; cbn; rewrite Sn, H0; reflexivity.
  - apply inv_give_up; [exact W' | exact C' | | | exact L]; cbn; rewrite Sn, H0; reflexivity.
  - destruct (s =? ip) eqn:Es; cbn [negb].
    + rewrite announce_eq by exact W'. split.
      { rewrite <- announce_eq by exact W'. apply wf_announce. exact W'. }
      split; [|cbn; oth; exact C']. cbn.
      apply s_defend; try (rewrite seen_app, Sn, H0; cbn; auto).
      exact H1.
    + split; [exact W'|]. split; [|exact C'].
      apply s_monitor; cbn; try (rewrite Sn, H0; cbn; auto). exact H1.
  - destruct (s =? ip) eqn:Es; cbn [negb].
    + set (c1 := emit Lost _).
      assert (W1 : wf c1) by exact W'.
      assert (C1 : claimed (log c1)) by (cbn; oth; exact C').
      assert (S1 : seen (log c1) = View None n None None (hits (seen h) + 1) (on (seen h)))
        by (cbn; rewrite seen_app, Sn, H0; reflexivity).
      destruct (react_wf e c1 W1 C1) as (W2 & C2).
      destruct (react_seen e c1 W1) as (K2 & H2'); [rewrite S1; reflexivity | rewrite S1; reflexivity |].
      apply inv_give_up; assumption.
    + split; [exact W'|]. split; [|exact C'].
      apply s_defend; cbn; try (rewrite Sn, H0; cbn; auto). exact H1.
Qed.

(** *** Timers *)
Lemma probe_eq : forall e s a w r q id rq asg n k d nx h, e_sock e = true -> id < nx ->
  let ip := if rq =? 0 then e_ip e else rq in
  drop id (send_probe e (Client s a w r q id rq asg n [Src id k d] nx h)) =
  Client (if r =? 1 then PROBE else s) (if r =? 1 then true else a)
    (if r =? 1 then (if a then w else true) else w) r q nx ip asg n
    [Src nx KProbe (n + (if r <? 3 then delay e + 1000 else 2000))] (nx + 1) (h ++ [(n, Probe ip)]).
Proof.
  intros e s a w r q id rq asg n k d nx h Sk Hid ip.
  assert (Wo : forall k' d', without id ([Src id k d] ++ [Src nx k' d']) = [Src nx k' d'])
    by (intros; rewrite without_app, without_hd, without_ne by lia; reflexivity).
  subst ip. unfold send_probe, listen. cbn [req_ip].
  destruct (rq =? 0); cbn [set_req retry]; destruct (r =? 1); cbn [set_st arp]; rewrite ?Sk;
    try destruct a; unfold drop, add, emit; cbn [set_log set_listen set_srcs set_timeout srcs next_id now log retry
      req_ip st arp watch conflicts timeout assigned set_st]; rewrite Wo; reflexivity.
Qed.
Lemma drop_announce : forall id c, wf c -> timeout c = id -> drop id (send_announce c) = send_announce c.
Proof.
  intros id c W E. rewrite announce_eq by exact W. destruct W as (W1 & W2 & _). unfold drop. cbn.
  rewrite without_ne by lia. reflexivity.
Qed.
Lemma delay_lt : forall e, delay e < 1000.
Proof. intros; apply N.mod_upper_bound; lia. Qed.

Lemma inv_drop : forall id c, inv c -> timeout c <> id -> inv (drop id c).
Proof.
  intros id c I N. assert (E : drop id c = c); [|rewrite E; exact I].
  destruct I as (W & _). destruct c as [s a w r q tm rq asg n l nx h]. unfold drop, set_srcs; cbn in *. f_equal.
  destruct W as (_ & _ & _ & [W | (_ & k & d & W)]); cbn in W; subst; [reflexivity|]. apply without_ne. auto.
Qed.
Lemma inv_fire : forall e id c, inv c -> link_local (e_ip e) -> e_sock e = true -> inv (step e (OFire id) c).
Proof.
  intros e id c I L Sk. pose proof I as (W & S & C). cbn [step].
  destruct (find _ (srcs c)) as [x|] eqn:F; [|exact I].
  destruct (N.leb_spec (s_due x) (now c)) as [D|D]; [|exact I].
  destruct (find_one _ _ _ W F) as (E1 & E2 & E3). clear F.
  change (set_srcs (without id (srcs (fire e (s_kind x) c))) (next_id (fire e (s_kind x) c)) (fire e (s_kind x) c))
    with (drop id (fire e (s_kind x) c)).
  pose proof W as (W1 & W2 & W3 & _).
  destruct S; cbn [srcs timeout now next_id arp watch log] in *; try discriminate E1; subst tm; inversion E1; subst x;
    cbn [s_kind fire s_due s_id retry] in *; clear E1 E3.
  - (* the first probe *)
    set (ip := if rq =? 0 then e_ip e else rq).
    assert (Lip : link_local ip) by (subst ip; destruct (N.eqb_spec rq 0); [exact L | destruct H1; [contradiction | assumption]]).
    split; [apply probe_drop; [exact W | reflexivity]|].
    rewrite probe_eq by assumption. cbv zeta. fold ip. change (1 =? 1) with true. cbn iota. split.
    + apply s_probe with (t := n); [rewrite seen_app; reflexivity | rewrite seen_app; exact H0 | exact Lip | lia | apply claim_first |].
      change (1 <? 3) with true. cbn iota. lia.
    + cbn. oth. exact C.
  - destruct (N.eqb_spec k 3) as [->|Nk].
    + rewrite drop_announce by (exact W || reflexivity). split; [apply wf_announce; exact W|].
      rewrite announce_eq by exact W. cbn. split; [|oth; exact C].
      apply s_announce with (t := n); [rewrite seen_app; exact H | rewrite seen_app; exact H0 | exact H1 | lia | | lia].
      apply claim_announce with (t := t); [exact H3 | lia |]. change (3 <? 3) with false in H4. cbn iota in H4. lia.
    + rewrite N.mod_small by lia. unfold set_retry; cbn.
      split; [apply probe_drop; [exact W | reflexivity]|].
      rewrite probe_eq by assumption. cbv zeta. rewrite link_local_nz by assumption.
      destruct (N.eqb_spec (k + 1) 1); [lia|]. split; [|cbn; oth; exact C].
      destruct (N.ltb_spec k 3); [|lia].
      apply s_probe with (t := n); [rewrite seen_app; reflexivity | rewrite seen_app; exact H0 | exact H1 | lia | |].
      * apply claim_probe with (t := t); [exact H3 | lia | lia].
      * destruct (k + 1 <? 3); lia.
  - destruct (N.eqb_spec k 2) as [->|Nk]; cbn [negb].
    + set (c1 := emit (Available _) _).
      assert (I1 : inv (drop id c1)).
      { split; [apply drop_wf; exact W|]. unfold c1, drop, emit, set_srcs, set_log; cbn. rewrite without_hd. split.
        - apply s_monitor; try rewrite seen_app; cbn; auto.
        - apply claimed_yes; [exact C | exact H1 |]. exists t. split; [exact H3 | lia]. }
      assert (W1' : wf c1) by exact W.
      unfold react. destruct (e_react e).
      * change (drop id (set_conflicts 0 c1)) with (set_conflicts 0 (drop id c1)).
        destruct I1 as (A & B & D'). split; [exact A|]. split; [|exact D'].
        revert B. unfold drop, set_srcs, c1; cbn. rewrite without_hd. intros B. inversion B; subst. apply s_monitor; auto.
      * pose proof (inv_stop c1 W1' (proj2 (proj2 I1))) as I2. rewrite stop_eq in * by exact W1'.
        unfold drop, set_conflicts, set_srcs; cbn. cbn in I2.
        destruct I2 as (A & B & D'). split; [exact A|]. split; [|exact D'].
        inversion B; subst. apply s_idle; auto.
      * pose proof (inv_start e c1 W1' (proj2 (proj2 I1)) L) as I2. rewrite start_eq in * by (apply wf_emit, W1').
        unfold drop, set_conflicts, set_srcs; cbn. cbn in I2. rewrite without_ne by lia.
        destruct I2 as (A & B & D'). split; [exact A|]. split; [|exact D'].
        inversion B; subst. apply s_wait; auto.
    + rewrite N.mod_small by lia. unfold set_retry; cbn.
      rewrite drop_announce by (exact W || reflexivity). split; [apply wf_announce; exact W|].
      rewrite announce_eq by exact W. cbn. split; [|oth; exact C].
      apply s_announce with (t := n); [rewrite seen_app; exact H | rewrite seen_app; exact H0 | exact H1 | lia | | lia].
      replace (3 + (k + 1)) with (3 + k + 1) by lia. apply claim_announce with (t := t); [exact H3 | lia |]. lia.
  - split; [apply drop_wf; exact W|]. split; [|exact C].
    unfold drop, set_srcs; cbn. rewrite without_hd. apply s_monitor; auto. rewrite H2. exact D.
Qed.

Lemma inv_wait : forall ms c, inv c -> inv (set_now (now c + ms) c).
Proof.
  intros ms c (W & S & C). split; [exact W|]. split; [|exact C]. destruct S; cbn.
  - apply s_idle; assumption.
  - apply s_wait; assumption.
  - eapply s_probe; eassumption.
  - eapply s_announce; eassumption.
  - unfold set_now; cbn. apply s_monitor; auto. destruct (defence (seen h)); [lia | trivial].
  - apply s_defend; assumption.
Qed.
Lemma inv_step : forall e o c, inv c -> sockets e o c -> inv (step e o c).
Proof.
  intros e o c I (L & Sk & Ne). destruct o.
  - apply inv_start; [apply I | apply I | exact L].
  - apply inv_stop; apply I.
  - apply inv_fire; assumption.
  - apply inv_recv; assumption.
  - contradiction.
  - apply inv_wait, I.
Qed.
Lemma runs_inv : forall (P : rule) c, (forall e o c, P e o c -> sockets e o c) -> runs P c -> inv c.
Proof. intros P c HP H; induction H; [apply inv_fresh | apply inv_step; auto]. Qed.

(** ** Timers run when due *)
Definition limit (k : kind) (r : N) : N :=
  match k with
  | KSend => 999
  | KProbe => if r <? 3 then 999 + 1999 * r else 6997
  | KAnnounce => 6997 + 2000 * r
  | KDefend => 0
  end.
Definition timely (c : client) : Prop := forall x, srcs c = [x] ->
  now c <= s_due x /\ (s_kind x = KDefend \/ s_due x <= since (seen (log c)) + limit (s_kind x) (retry c)).
Lemma t_start : forall e c, wf c -> timely (start e (emit Start c)).
Proof.
  intros e c W x. rewrite start_eq by (apply wf_emit, W). cbn [srcs]. intros E; inversion E; subst x.
  cbn [s_due s_kind now log emit set_log retry limit]. pose proof (delay_lt e). rewrite seen_app. cbn [look since]. lia.
Qed.
Lemma t_stop : forall c, wf c -> timely (emit Stop (stop c)).
Proof. intros c W x. rewrite stop_eq by exact W. discriminate. Qed.
Lemma react_since : forall e c, wf c -> since (seen (log c)) = now c ->
  since (seen (log (react e c))) = now c /\ now (react e c) = now c.
Proof.
  intros e c W H. unfold react. destruct (e_react e); [auto| |].
  - rewrite stop_eq by exact W. cbn. rewrite seen_app. auto.
  - rewrite start_eq by (apply wf_emit, W). cbn. rewrite seen_app. auto.
Qed.
Lemma t_react : forall e c, wf c -> timely c -> timely (react e c).
Proof.
  intros e c W T. unfold react. destruct (e_react e); [exact T | apply t_stop, W | apply t_start, W].
Qed.
Lemma t_give_up : forall e c, wf c -> since (seen (log c)) = now c -> timely (give_up e c).
Proof.
  intros e c W H. rewrite give_up_eq by exact W. destruct (conflicts c <? 10).
  - intros x. unfold again; cbn [srcs]. intros E; inversion E; subst x.
    cbn [s_due s_kind now log limit]. pose proof (delay_lt e). rewrite H. lia.
  - apply t_react; [apply wf_emit, wf_off, W|]. intros x; discriminate.
Qed.
Lemma t_recv : forall e o s g c, inv c -> timely c -> timely (step e (ORecv o s g) c).
Proof.
  intros e o s g c (W & S & _) T. cbn [step]. change (watch (emit (Wire o s g) c)) with (watch c).
  pose proof (stage_cand c S) as K.
  assert (Q : (forall ip, cand (seen (log c)) = Some ip -> names ip o s g = false) -> timely (emit (Wire o s g) c)).
  { intros Q x E. cbn [emit set_log srcs] in E. specialize (T x E). cbn [now emit set_log log retry].
    rewrite seen_app. cbn [look]. destruct (cand (seen (log c))); [rewrite (Q _ eq_refl)|]; exact T. }
  destruct (watch c) eqn:Wt.
  2:{ apply Q. rewrite K; discriminate. }
  destruct (names (req_ip c) o s g) eqn:Nm.
  2:{ rewrite receive_quiet by exact Nm. apply Q. intros ip E. rewrite K in E. inversion E; subst. exact Nm. }
  rewrite receive_named by exact Nm.
  pose proof (seen_named (log c) _ (now c) o s g K Nm) as Sn.
  destruct S; cbn [watch] in Wt; try discriminate Wt; cbn [st emit set_log log now held req_ip] in *.
  - apply t_give_up; [exact W|]. cbn. rewrite Sn, H0. reflexivity.
  - apply t_give_up; [exact W|]. cbn. rewrite Sn, H0. reflexivity.
  - destruct (s =? ip) eqn:Es; cbn [negb].
    + rewrite announce_eq by exact W. intros x. cbn [srcs]. intros E; inversion E; subst x. cbn. split; [lia | auto].
    + intros x; discriminate.
  - destruct (s =? ip) eqn:Es; cbn [negb].
    + set (c1 := emit Lost _).
      assert (W1 : wf c1) by exact W.
      assert (S1 : since (seen (log c1)) = now c1) by (cbn; rewrite seen_app; reflexivity).
      destruct (react_since e c1 W1 S1) as (A & B). apply t_give_up; [apply wf_react, W1|]. rewrite A, B. reflexivity.
    + intros x E. cbn in E. inversion E; subst x. split; [|left; reflexivity]. cbn. apply (T _ eq_refl).
Qed.
Lemma t_fire : forall e id c, inv c -> timely c -> e_sock e = true -> timely (step e (OFire id) c).
Proof.
  intros e id c I T Sk. pose proof I as (W & S & C). cbn [step].
  destruct (find _ (srcs c)) as [x|] eqn:F; [|exact T].
  destruct (N.leb_spec (s_due x) (now c)) as [D|D]; [|exact T].
  destruct (find_one _ _ _ W F) as (E1 & E2 & E3). clear F.
  change (set_srcs (without id (srcs (fire e (s_kind x) c))) (next_id (fire e (s_kind x) c)) (fire e (s_kind x) c))
    with (drop id (fire e (s_kind x) c)).
  pose proof W as (W1 & W2 & W3 & _). pose proof (delay_lt e) as Dl. pose proof (T x E1) as (T1 & T2).
  destruct S; cbn [srcs timeout now next_id arp watch log] in *; try discriminate E1; subst tm; inversion E1; subst x;
    cbn [s_kind fire s_due s_id retry] in *; clear E1 E3.
  - destruct T2 as [T2|T2]; [discriminate|]. cbn [limit] in T2.
    rewrite probe_eq by assumption. cbv zeta. intros x. cbn [srcs]. intros E; inversion E; subst x.
    cbn [s_due s_kind now log retry limit]. rewrite seen_app. cbn [look since]. change (1 <? 3) with true. cbn iota.
    split; [lia | right; lia].
  - destruct T2 as [T2|T2]; [discriminate|]. cbn [limit] in T2. destruct (N.eqb_spec k 3) as [->|Nk].
    + rewrite drop_announce by (exact W || reflexivity). rewrite announce_eq by exact W.
      intros x. cbn [srcs]. intros E; inversion E; subst x. cbn [s_due s_kind now log retry set_retry set_st st ann_kind ann_ms limit].
      rewrite seen_app. cbn [look since]. change (3 <? 3) with false in T2. cbn iota in T2. split; [lia | right; lia].
    + rewrite N.mod_small by lia. unfold set_retry. cbn [st arp watch retry conflicts timeout req_ip assigned now srcs next_id log].
      rewrite probe_eq by assumption. cbv zeta. intros x. cbn [srcs]. intros E; inversion E; subst x.
      cbn [s_due s_kind now log retry limit]. rewrite seen_app. cbn [look since].
      destruct (N.ltb_spec k 3); [|lia].
      destruct (N.ltb_spec (k + 1) 3); split; try lia; right; lia.
  - destruct T2 as [T2|T2]; [discriminate|]. cbn [limit] in T2. destruct (N.eqb_spec k 2) as [->|Nk]; cbn [negb].
    + set (c1 := emit (Available _) _).
      assert (W1' : wf c1) by exact W.
      unfold react. destruct (e_react e).
      * intros x. unfold drop, c1; cbn. rewrite without_hd. discriminate.
      * rewrite stop_eq by exact W1'. intros x; discriminate.
      * pose proof (t_start e c1 W1') as T'. rewrite start_eq in * by (apply wf_emit, W1').
        intros x. unfold drop, c1; cbn. rewrite without_ne by lia. intros E. apply (T' x E).
    + rewrite N.mod_small by lia. unfold set_retry. cbn [st arp watch retry conflicts timeout req_ip assigned now srcs next_id log].
      rewrite drop_announce by (exact W || reflexivity). rewrite announce_eq by exact W.
      intros x. cbn [srcs]. intros E; inversion E; subst x. cbn [s_due s_kind now log retry st ann_kind ann_ms limit].
      rewrite seen_app. cbn [look since]. split; [lia | right; lia].
  - intros x. unfold drop; cbn. rewrite without_hd. discriminate.
Qed.
Lemma t_step : forall e o c, inv c -> timely c -> sockets e o c -> in_time e o c -> timely (step e o c).
Proof.
  intros e o c I T (L & Sk & Ne) It. destruct o.
  - apply t_start, I.
  - apply t_stop, I.
  - apply t_fire; assumption.
  - apply t_recv; assumption.
  - contradiction.
  - intros x E. cbn in E, It. split; [|apply (T x E)]. cbn. rewrite E in It. inversion It; assumption.
Qed.

(** *** Losing the address *)
Lemma lost_other : forall h t e, lost_rightly h -> e <> Lost -> lost_rightly (h ++ [(t, e)]).
Proof.
  intros h t e H N h1 t1 h2 E. apply snoc_split in E. destruct E as [(-> & -> & E) | (h2' & -> & E)].
  - inversion E; subst. now destruct N.
  - eapply H, E.
Qed.
Ltac lst := apply lost_other; [|discriminate].
Lemma l_react : forall e c, wf c -> lost_rightly (log c) -> lost_rightly (log (react e c)).
Proof.
  intros e c H C. unfold react. destruct (e_react e); [exact C| |].
  - rewrite stop_eq by exact H. cbn. lst. exact C.
  - rewrite start_eq by (apply wf_emit, H). cbn. lst. exact C.
Qed.
Lemma l_give_up : forall e c, wf c -> lost_rightly (log c) -> lost_rightly (log (give_up e c)).
Proof.
  intros e c H C. rewrite give_up_eq by exact H. destruct (conflicts c <? 10); [exact C|].
  apply l_react; [apply wf_emit, wf_off, H|]. cbn. lst. exact C.
Qed.
Lemma l_announce : forall c, wf c -> lost_rightly (log c) -> lost_rightly (log (send_announce c)).
Proof. intros c H C. rewrite announce_eq by exact H. cbn. lst. exact C. Qed.
Lemma l_probe : forall e c, lost_rightly (log c) -> lost_rightly (log (send_probe e c)).
Proof.
  intros e c C. unfold send_probe, listen. cbn.
  assert (E : forall b c', lost_rightly (log c') -> lost_rightly (log (if b : bool then set_req (e_ip e) c' else c')))
    by (intros [] c' H; exact H).
  lst. destruct (retry _ =? 1); [|apply E, C]. cbn. destruct (arp _); [apply E, C|].
  destruct (e_sock e); apply E, C.
Qed.
Lemma l_step : forall e o c, inv c -> timely c -> lost_rightly (log c) -> lost_rightly (log (step e o c)).
Proof.
  intros e o c (W & S & _) T C. destruct o; cbn [step].
  - rewrite start_eq by (apply wf_emit, W). cbn. lst. exact C.
  - rewrite stop_eq by exact W. cbn. lst. exact C.
  - destruct (find _ (srcs c)) as [x|]; [|exact C]. destruct (s_due x <=? now c); [|exact C]. cbn [log set_srcs].
    destruct (s_kind x); cbn [fire].
    + apply l_probe, C.
    + destruct (retry c =? 3); [apply l_announce; [exact W | exact C] | apply l_probe, C].
    + destruct (negb _); [apply l_announce; [exact W | exact C]|]. cbn [log set_conflicts].
      apply l_react; [exact W|]. cbn. lst. exact C.
    + exact C.
  - change (watch (emit (Wire o src tgt) c)) with (watch c).
    assert (C' : lost_rightly (log (emit (Wire o src tgt) c))) by (cbn; lst; exact C).
    destruct (watch c) eqn:Wt; [|exact C'].
    destruct (names (req_ip c) o src tgt) eqn:Nm.
    2:{ rewrite receive_quiet by exact Nm. exact C'. }
    rewrite receive_named by exact Nm.
    destruct S; cbn [watch] in Wt; try discriminate Wt; cbn [st emit set_log req_ip] in *.
    + apply l_give_up; [exact W | exact C'].
    + apply l_give_up; [exact W | exact C'].
    + destruct (negb _); [exact C'|]. apply l_announce; [exact W | exact C'].
    + destruct (N.eqb_spec src ip) as [->|Es]; cbn [negb]; [|exact C'].
      apply l_give_up; [apply wf_react; exact W|]. apply l_react; [exact W|]. cbn.
      intros h1 t1 h2 E. apply snoc_split in E. destruct E as [(-> & -> & E) | (h2' & -> & E)].
      * inversion E; subst t1. exists h, o, tgt, ip, t. split; [reflexivity|]. split.
        { unfold names in Nm. destruct (N.eqb_spec o 1); [auto|]. destruct (N.eqb_spec o 2); [auto | discriminate]. }
        split; [exact H0|]. split; [exact H2|]. apply (T _ eq_refl).
      * eapply C', E.
  - destruct (watch c); exact C.
  - exact C.
Qed.
Lemma lost_nil : lost_rightly [].
Proof. intros h1 t h2 E. destruct h1; discriminate. Qed.
Lemma runs_timed : forall c, runs (both sockets in_time) c -> inv c /\ timely c /\ lost_rightly (log c).
Proof.
  intros c H; induction H as [|c e o H (I & T & L) (Hs & Ht)].
  - split; [apply inv_fresh|]. split; [intros x; discriminate | apply lost_nil].
  - split; [apply inv_step; assumption|]. split; [apply t_step; assumption | apply l_step; assumption].
Qed.

(** ** Theorems *)
Lemma claimed_ok : forall c, runs sockets c -> claimed (log c).
Proof. intros c H. apply (runs_inv _ _ (fun _ _ _ X => X) H). Qed.

Lemma uses_names : forall ip o s g, uses ip o s = true -> names ip o s g = true /\ s = ip.
Proof.
  intros ip o s g H. unfold uses, names in *. apply andb_prop in H. destruct H as (A & B).
  apply N.eqb_eq in B. subst. rewrite A, N.eqb_refl. auto.
Qed.
Lemma keep_ok : forall c e ip o s g, runs sockets c -> held (seen (log c)) = Some ip -> uses ip o s = false ->
  log (step e (ORecv o s g) c) = log c ++ [(now c, Wire o s g)] /\
  held (seen (log (step e (ORecv o s g) c))) = Some ip.
Proof.
  intros c e ip o s g R H U. destruct (runs_inv _ _ (fun _ _ _ X => X) R) as (W & S & _).
  assert (E : log (step e (ORecv o s g) c) = log c ++ [(now c, Wire o s g)]).
  { cbn [step]. destruct (watch (emit (Wire o s g) c)); [|reflexivity].
    destruct (names (req_ip c) o s g) eqn:Nm; [|rewrite receive_quiet by exact Nm; reflexivity].
    rewrite receive_named by exact Nm.
    destruct S; cbn [log] in H; rewrite ?H1, ?H0 in H; try discriminate H; cbn [st emit set_log req_ip] in *;
      inversion H; subst ip0; (destruct (N.eqb_spec s ip); [|reflexivity]);
      unfold uses, names in *; subst s; rewrite N.eqb_refl in U; rewrite andb_true_r in U; rewrite U in Nm; discriminate. }
  split; [exact E|]. rewrite E, seen_app. cbn. destruct (cand _); [|exact H]. destruct (names _ _ _ _); [|exact H].
  rewrite H. reflexivity.
Qed.
Lemma defend_ok : forall c e ip o g, runs sockets c -> held (seen (log c)) = Some ip -> (o = 1 \/ o = 2) ->
  caught_up c -> (forall t, defence (seen (log c)) = Some t -> t + 10000 <= now c) ->
  log (step e (ORecv o ip g) c) = log c ++ [(now c, Wire o ip g); (now c, Announce ip)] /\
  held (seen (log (step e (ORecv o ip g) c))) = Some ip.
Proof.
  intros c e ip o g R H Ho Cu Df. destruct (runs_inv _ _ (fun _ _ _ X => X) R) as (W & S & _).
  assert (E : log (step e (ORecv o ip g) c) = log c ++ [(now c, Wire o ip g); (now c, Announce ip)]).
  { cbn [step]. change (watch (emit (Wire o ip g) c)) with (watch c).
    destruct S; cbn [log now srcs] in *; rewrite ?H1, ?H0 in H; try discriminate H; inversion H; subst ip0.
    - cbn [watch]. rewrite receive_named; cbn [emit set_log st req_ip].
      2:{ unfold names. rewrite N.eqb_refl. destruct Ho as [-> | ->]; reflexivity. }
      rewrite N.eqb_refl. cbn [negb]. rewrite announce_eq by exact W. cbn. rewrite <- app_assoc. reflexivity.
    - specialize (Df t H3). inversion Cu; subst. cbn in *. unfold caught_up in Cu. cbn in Cu. lia. }
  split; [exact E|]. rewrite E.
  change [(now c, Wire o ip g); (now c, Announce ip)] with ([(now c, Wire o ip g)] ++ [(now c, Announce ip)]).
  rewrite app_assoc, !seen_app. cbn. destruct (cand _); [|exact H]. destruct (names _ _ _ _); [|exact H].
  rewrite H. reflexivity.
Qed.
Lemma react_ext : forall e c, wf c -> exists r, log (react e c) = log c ++ r /\ assigned (react e c) = assigned c.
Proof.
  intros e c W. unfold react. destruct (e_react e).
  - exists []. rewrite app_nil_r. auto.
  - rewrite stop_eq by exact W. cbn. eauto.
  - rewrite start_eq by (apply wf_emit, W). cbn. eauto.
Qed.
Lemma give_up_ext : forall e c, wf c -> exists r, log (give_up e c) = log c ++ r /\ assigned (give_up e c) = None.
Proof.
  intros e c W. rewrite give_up_eq by exact W. destruct (conflicts c <? 10).
  - exists []. rewrite app_nil_r. auto.
  - destruct (react_ext e (emit NoLease (off c))) as (r & E & A); [apply wf_emit, wf_off, W|].
    rewrite E, A. cbn. rewrite <- app_assoc. eauto.
Qed.
Lemma lose_ok : forall c e ip o g t, runs sockets c -> held (seen (log c)) = Some ip -> (o = 1 \/ o = 2) ->
  link_local (e_ip e) -> defence (seen (log c)) = Some t -> now c < t + 10000 ->
  exists rest,
    log (step e (ORecv o ip g) c) = log c ++ (now c, Wire o ip g) :: (now c, Lost) :: rest /\
    held (seen (log (step e (ORecv o ip g) c))) = None /\
    assigned (step e (ORecv o ip g) c) = None.
Proof.
  intros c e ip o g t R H Ho L Df Lt. destruct (runs_inv _ _ (fun _ _ _ X => X) R) as (W & S & C).
  assert (Nm : names ip o ip g = true) by (unfold names; rewrite N.eqb_refl; destruct Ho as [-> | ->]; reflexivity).
  cbn [step]. change (watch (emit (Wire o ip g) c)) with (watch c).
  destruct S; cbn [log now srcs] in *; rewrite ?H1, ?H0 in H; try discriminate H; inversion H; subst ip0.
  - rewrite Df in *. lia.
  - cbn [watch]. rewrite receive_named; cbn [emit set_log st req_ip]; [|exact Nm].
    rewrite N.eqb_refl. cbn [negb]. match goal with |- context [react e ?x] => set (c1 := x) end.
    assert (W1 : wf c1) by exact W.
    assert (C1 : log c1 = h ++ [(n, Wire o ip g); (n, Lost)]) by (cbn; rewrite <- app_assoc; reflexivity).
    assert (S1 : cand (seen (log c1)) = None /\ held (seen (log c1)) = None) by (cbn; rewrite seen_app; auto).
    destruct S1 as (S1 & S2).
    destruct (react_ext e c1 W1) as (r1 & E1 & _).
    destruct (react_seen e c1 W1 S1 S2) as (S3 & S4).
    destruct (give_up_ext e (react e c1) (wf_react _ _ W1)) as (r2 & E2 & A2).
    exists (r1 ++ r2). split; [rewrite E2, E1, C1, <- !app_assoc; reflexivity|]. split; [|exact A2].
    rewrite give_up_eq by (apply wf_react, W1).
    destruct (conflicts (react e c1) <? 10); [exact S4|].
    apply (react_seen e); [apply wf_emit, wf_off, wf_react, W1| |]; cbn; rewrite seen_app; assumption.
Qed.
Lemma lost_ok : forall c, runs (both sockets in_time) c -> lost_rightly (log c).
Proof. intros c H. apply (runs_timed c H). Qed.

(** *** Giving up *)
Lemma avail_app : forall h x, existsb is_avail (h ++ [x]) = existsb is_avail h || is_avail x.
Proof. intros; rewrite existsb_app; cbn; rewrite orb_false_r; reflexivity. Qed.
Lemma held_avail : forall h ip, held (seen h) = Some ip -> existsb is_avail h = true.
Proof.
  induction h as [|(t, x) h IH] using rev_ind; intros ip H; [discriminate|].
  rewrite avail_app. rewrite seen_app in H. destruct x; cbn in H; try discriminate; try (rewrite (IH _ H); reflexivity).
  - apply orb_true_r.
  - destruct (cand (seen h)); [|rewrite (IH _ H); reflexivity].
    destruct (names _ _ _ _); [|rewrite (IH _ H); reflexivity].
    destruct (held (seen h)) eqn:E; [rewrite (IH _ eq_refl); reflexivity | discriminate].
Qed.
Definition fewer (c : client) : Prop :=
  existsb is_avail (log c) = false -> conflicts c = hits (seen (log c)) mod 256.
Lemma f_emit : forall c e, fewer c -> match e with Wire _ _ _ => False | _ => True end -> fewer (emit e c).
Proof.
  intros c e F Ne A. cbn in A. rewrite avail_app in A. apply orb_false_iff in A. destruct A as (A & _).
  cbn [emit set_log log conflicts]. rewrite seen_app, (F A). destruct e; try contradiction; reflexivity.
Qed.
Lemma f_start : forall e c, wf c -> fewer c -> fewer (start e (emit Start c)).
Proof. intros e c W F. rewrite start_eq by (apply wf_emit, W). apply (f_emit c Start F I). Qed.
Lemma f_stop : forall c, wf c -> fewer c -> fewer (emit Stop (stop c)).
Proof. intros c W F. rewrite stop_eq by exact W. apply (f_emit c Stop F I). Qed.
Lemma f_react : forall e c, wf c -> fewer c -> fewer (react e c).
Proof. intros e c W F. unfold react. destruct (e_react e); [exact F | apply f_stop | apply f_start]; assumption. Qed.
Lemma f_give_up : forall e c, wf c -> fewer c -> fewer (give_up e c).
Proof.
  intros e c W F. rewrite give_up_eq by exact W. destruct (conflicts c <? 10); [exact F|].
  apply f_react; [apply wf_emit, wf_off, W|]. exact (f_emit (off c) NoLease F I).
Qed.
Lemma f_announce : forall c, wf c -> fewer c -> fewer (send_announce c).
Proof. intros c W F. rewrite announce_eq by exact W. apply (f_emit c (Announce (req_ip c)) F I). Qed.
Lemma f_probe : forall e c, fewer c -> fewer (send_probe e c).
Proof.
  intros e c F. unfold send_probe, listen.
  assert (E : forall b c', fewer c' -> fewer (if b : bool then set_req (e_ip e) c' else c'))
    by (intros [] c' H; exact H).
  assert (E2 : forall k ms c', fewer c' -> fewer (add k ms c')) by (intros k ms c' H; exact H).
  apply E2, f_emit; [|exact I]. destruct (retry _ =? 1); [|apply E, F]. cbn. destruct (arp _); [apply E, F|].
  destruct (e_sock e); apply E, F.
Qed.
Lemma f_count : forall c o s g, stage c -> watch c = true -> names (req_ip c) o s g = true -> fewer c ->
  fewer (count (emit (Wire o s g) c)).
Proof.
  intros c o s g S Wt Nm F A. pose proof (stage_cand c S) as K. rewrite Wt in K.
  cbn in A. rewrite avail_app in A. apply orb_false_iff in A. destruct A as (A & _). specialize (F A).
  cbn [count emit set_log set_conflicts log conflicts].
  rewrite (seen_named _ _ _ _ _ _ K Nm), F, N.add_mod_idemp_l by lia.
  destruct (held (seen (log c))); reflexivity.
Qed.
Lemma f_step : forall e o c, inv c -> fewer c -> fewer (step e o c).
Proof.
  intros e o c (W & S & _) F. destruct o; cbn [step].
  - apply f_start; assumption.
  - apply f_stop; assumption.
  - destruct (find _ (srcs c)) as [x|] eqn:Fx; [|exact F]. destruct (s_due x <=? now c); [|exact F].
    change (fewer (drop id (fire e (s_kind x) c))).
    assert (E : forall c', fewer c' -> fewer (drop id c')) by (intros c' H; exact H). apply E.
    destruct (s_kind x) eqn:Kx; cbn [fire].
    + apply f_probe, F.
    + destruct (retry c =? 3); [apply f_announce; [exact W | exact F] | apply f_probe, F].
    + destruct (negb _); [apply f_announce; [exact W | exact F]|].
      intros A. exfalso. cbn [log set_conflicts] in A.
      destruct (react_ext e (emit (Available (req_ip c)) (set_assigned (Some (req_ip c)) (set_st MONITOR c)))) as (r & E1 & _); [exact W|].
      cbn [req_ip set_assigned set_st] in A. cbn [set_assigned set_st req_ip] in E1. rewrite E1 in A. cbn in A.
      rewrite !existsb_app in A. cbn in A. rewrite orb_true_r in A. discriminate.
    + intros A. exfalso. cbn [log set_st set_conflicts] in A.
      destruct (find_one _ _ _ W Fx) as (E1 & _ & _).
      destruct S; cbn [srcs] in E1; try discriminate E1; inversion E1; subst x; try discriminate Kx.
      cbn [log] in A. rewrite (held_avail _ _ H0) in A. discriminate.
  - change (watch (emit (Wire o src tgt) c)) with (watch c).
    pose proof (stage_cand c S) as K.
    assert (Q : (forall ip, cand (seen (log c)) = Some ip -> names ip o src tgt = false) -> fewer (emit (Wire o src tgt) c)).
    { intros Q A. cbn in A. rewrite avail_app in A. apply orb_false_iff in A. destruct A as (A & _). specialize (F A).
      cbn [emit set_log log conflicts]. rewrite F, seen_app. cbn [look].
      destruct (cand (seen (log c))); [rewrite (Q _ eq_refl)|]; reflexivity. }
    destruct (watch c) eqn:Wt; [|apply Q; rewrite K; discriminate].
    destruct (names (req_ip c) o src tgt) eqn:Nm.
    2:{ rewrite receive_quiet by exact Nm. apply Q. intros ip E. rewrite K in E. inversion E; subst. exact Nm. }
    rewrite receive_named by exact Nm.
    pose proof (f_count c o src tgt S Wt Nm F) as F1.
    assert (W1 : wf (count (emit (Wire o src tgt) c))) by exact W.
    cbn [st emit set_log req_ip]. revert F1 W1. unfold emit, set_log. generalize (count
      (Client (st c) (arp c) (watch c) (retry c) (conflicts c) (timeout c) (req_ip c) (assigned c) (now c) (srcs c)
         (next_id c) (log c ++ [(now c, Wire o src tgt)]))). intros c1 F1 W1.
    destruct (st c); try (apply f_give_up; assumption).
    + destruct (negb _); [exact F1|]. apply f_announce; [exact W1 | exact F1].
    + destruct (negb _); [exact F1|].
      assert (F2 : fewer (emit Lost c1)) by (apply f_emit; [exact F1 | exact I]).
      apply f_give_up; [apply wf_react; exact W1|]. apply f_react; [exact W1 | exact F2].
  - destruct (watch c); exact F.
  - exact F.
Qed.
Lemma runs_fewer : forall c, runs sockets c -> fewer c.
Proof.
  intros c H. induction H as [|c e o H IH P]; [intros _; reflexivity|].
  apply f_step; [apply (runs_inv _ _ (fun _ _ _ X => X) H) | exact IH].
Qed.
Lemma conflict_ok : forall c e ip o s g, runs sockets c -> e_react e = Nothing ->
  existsb is_avail (log c) = false -> cand (seen (log c)) = Some ip -> names ip o s g = true ->
  hits (seen (log c)) < 255 ->
  log (step e (ORecv o s g) c) = log c ++ (now c, Wire o s g) ::
    (if hits (seen (log c)) + 1 <? 10 then [] else [(now c, NoLease)]).
Proof.
  intros c e ip o s g R Re A K Nm Hl. destruct (runs_inv _ _ (fun _ _ _ X => X) R) as (W & S & _).
  pose proof (runs_fewer c R A) as F. rewrite N.mod_small in F by lia.
  pose proof (stage_cand c S) as K'. cbn [step]. change (watch (emit (Wire o s g) c)) with (watch c).
  destruct (watch c) eqn:Wt; [|rewrite K' in K; discriminate].
  assert (ip = req_ip c) by congruence. subst ip. clear K'.
  rewrite receive_named by exact Nm.
  assert (G : log (give_up e (count (emit (Wire o s g) c))) = log c ++ (now c, Wire o s g) ::
    (if hits (seen (log c)) + 1 <? 10 then [] else [(now c, NoLease)])).
  { rewrite give_up_eq by exact W. unfold react. rewrite Re. cbn [count set_conflicts conflicts emit set_log].
    rewrite F, N.mod_small by lia. destruct (_ <? 10); cbn; [reflexivity|]. rewrite <- app_assoc. reflexivity. }
  destruct S; cbn [watch] in Wt; try discriminate Wt.
  - exact G.
  - exact G.
  - cbn [log] in *. rewrite (held_avail _ _ H0) in A. discriminate.
  - cbn [log] in *. rewrite (held_avail _ _ H0) in A. discriminate.
Qed.

(** *** Packets about other addresses *)
Lemma others_ok : forall c e o s g, runs sockets c ->
  (forall ip, cand (seen (log c)) = Some ip -> names ip o s g = false) ->
  step e (ORecv o s g) c = emit (Wire o s g) c.
Proof.
  intros c e o s g R Q. destruct (runs_inv _ _ (fun _ _ _ X => X) R) as (W & S & _).
  pose proof (stage_cand c S) as K. cbn [step]. change (watch (emit (Wire o s g) c)) with (watch c).
  destruct (watch c) eqn:Wt; [|reflexivity]. apply receive_quiet. apply Q. exact K.
Qed.

(** *** Stopping *)
Definition silent (c : client) : Prop := srcs c = [] /\ watch c = false.
Lemma silent_step : forall e o c, silent c -> call o = false ->
  silent (step e o c) /\ filter own (log (step e o c)) = filter own (log c).
Proof.
  intros e o c (A & B) Cl. destruct o; try discriminate Cl; cbn [step].
  - rewrite A. cbn. repeat split; assumption.
  - cbn [emit set_log watch]. rewrite B. split; [split; assumption|]. cbn. rewrite filter_app. cbn. apply app_nil_r.
  - rewrite B. repeat split; assumption.
  - repeat split; assumption.
Qed.
Lemma silent_run : forall os c, silent c -> Forall (fun x => call (snd x) = false) os ->
  filter own (log (run os c)) = filter own (log c).
Proof.
  induction os as [|(e, o) os IH]; intros c S F; [reflexivity|]. inversion F; subst. cbn [run].
  destruct (silent_step e o c S H1) as (S' & E). rewrite IH by assumption. exact E.
Qed.
Lemma stop_ok : forall P c e os, runs P c -> Forall (fun x => call (snd x) = false) os ->
  filter own (log (run os (step e OStop c))) = filter own (log c) ++ [(now c, Stop)].
Proof.
  intros P c e os R F. pose proof (runs_wf _ _ R) as W. rewrite silent_run; [|split|exact F]; cbn [step]; rewrite stop_eq by exact W.
  - cbn. rewrite filter_app. reflexivity.
  - reflexivity.
  - reflexivity.
Qed.
Lemma app_two : forall (A : Type) (h : list A) x y z, h ++ [x] <> h ++ [y; z].
Proof. intros A h x y z E. apply (f_equal (@length A)) in E. rewrite !app_length in E. cbn in E. lia. Qed.
Lemma app_none : forall (A : Type) (h : list A) y z, h <> h ++ [y; z].
Proof. intros A h y z E. apply (f_equal (@length A)) in E. rewrite app_length in E. cbn in E. lia. Qed.
Lemma probe_log : forall e c, exists ip, log (send_probe e c) = log c ++ [(now c, Probe ip)].
Proof.
  intros e c. unfold send_probe, listen.
  assert (E : forall b c', log (if b : bool then set_req (e_ip e) c' else c') = log c' /\
    now (if b then set_req (e_ip e) c' else c') = now c') by (intros [] c'; auto).
  cbn [add set_timeout set_srcs log emit set_log].
  destruct (retry _ =? 1); [cbn; destruct (arp _); [|destruct (e_sock e)]|]; cbn;
    destruct (E (req_ip c =? 0) c) as (-> & ->); eauto.
Qed.
Lemma stop_available_ok : forall P c e id t ip os, runs P c -> Forall (fun x => call (snd x) = false) os ->
  log (step e (OFire id) c) = log c ++ [(t, Available ip); (t, Stop)] ->
  filter own (log (run os (step e (OFire id) c))) = filter own (log (step e (OFire id) c)).
Proof.
  intros P c e id t ip os R F E. apply silent_run; [|exact F]. pose proof (runs_wf _ _ R) as W. revert E. cbn [step].
  destruct (find _ (srcs c)) as [x|] eqn:Fx; [|intros E; now apply app_none in E].
  destruct (s_due x <=? now c); [|intros E; now apply app_none in E].
  change (log (drop id (fire e (s_kind x) c)) = log c ++ [(t, Available ip); (t, Stop)] -> silent (drop id (fire e (s_kind x) c))).
  cbn [drop set_srcs log].
  destruct (s_kind x); cbn [fire].
  - destruct (probe_log e c) as (i & ->). intros E; now apply app_two in E.
  - destruct (retry c =? 3).
    + rewrite announce_eq by exact W. intros E; now apply app_two in E.
    + destruct (probe_log e (set_retry ((retry c + 1) mod 256) c)) as (i & ->). intros E; now apply app_two in E.
  - destruct (negb _).
    + rewrite announce_eq by exact W. intros E; now apply app_two in E.
    + unfold react. destruct (e_react e).
      * intros E; now apply app_two in E.
      * rewrite stop_eq by exact W. intros _. split; reflexivity.
      * rewrite start_eq by exact W. cbn. rewrite <- app_assoc. intros E. apply app_inv_head in E. discriminate.
  - intros E; now apply app_none in E.
Qed.

(** *** Finding an address *)
Lemma live_ok : forall c, runs (both sockets in_time) c -> caught_up c -> on (seen (log c)) = true ->
  since (seen (log c)) + 10997 <= now c -> held (seen (log c)) <> None.
Proof.
  intros c R Cu On Lt. destruct (runs_timed c R) as ((W & S & _) & T & _).
  assert (B : forall x, srcs c = [x] -> s_kind x <> KDefend -> limit (s_kind x) (retry c) <= 10997 -> False).
  { intros x E Nk Lim. destruct (T x E) as (_ & [T2|T2]); [contradiction|].
    unfold caught_up in Cu. rewrite E in Cu. inversion Cu; subst. lia. }
  destruct S; cbn [log] in *.
  - congruence.
  - exfalso. eapply B; [reflexivity | discriminate | cbn; lia].
  - exfalso. eapply B; [reflexivity | discriminate |]. cbn [s_kind limit retry]. destruct (N.ltb_spec k 3); lia.
  - exfalso. eapply B; [reflexivity | discriminate |]. cbn [s_kind limit retry]. lia.
  - congruence.
  - congruence.
Qed.

(** *** Asking for the address *)
Lemma address_ok : forall c ip, runs sockets c -> held (seen (log c)) = Some ip -> assigned c = Some ip.
Proof.
  intros c ip R H. destruct (runs_inv _ _ (fun _ _ _ X => X) R) as (W & S & _).
  destruct S; cbn [log assigned] in *; congruence.
Qed.

(** ** Histories *)
Lemma runs_run : forall P os c, runs P c -> obeys P os c -> runs P (run os c).
Proof.
  intros P os. induction os as [|(e, o) os IH]; intros c R O; [exact R|]. destruct O as (O1 & O2).
  cbn [run]. apply IH; [apply runs_step; assumption | exact O2].
Qed.
Definition ev : env := Env true 0 0xa9fe0100 Nothing.
(** Claiming an address, the timers having ids from [n] on. *)
Definition claim (n : N) : list (env * op) :=
  [(ev, OFire n); (ev, OWait 1000); (ev, OFire (n + 1)); (ev, OWait 1000); (ev, OFire (n + 2)); (ev, OWait 2000);
   (ev, OFire (n + 3)); (ev, OWait 2000); (ev, OFire (n + 4)); (ev, OWait 2000); (ev, OFire (n + 5))].
Definition first : client := run ((ev, OStart) :: claim 1) fresh_client.
Ltac obey := vm_compute; repeat split; repeat constructor; try discriminate.
Lemma claiming_last : forall ip n t h t' o s g, claiming ip n t (h ++ [(t', Wire o s g)]) -> names ip o s g = false.
Proof.
  intros ip n t h t' o s g H. remember (h ++ [(t', Wire o s g)]) as h' eqn:E.
  destruct H; apply app_inj_tail in E; destruct E as (_ & E); inversion E; subst; assumption.
Qed.
Lemma not_claimed : forall h t t' ip o s g, names ip o s g = true ->
  ~ claimed (h ++ [(t, Wire o s g); (t', Available ip)]).
Proof.
  intros h t t' ip o s g N C.
  destruct (C (h ++ [(t, Wire o s g)]) t' ip []) as (_ & t5 & H & _); [rewrite <- app_assoc; reflexivity|].
  apply claiming_last in H. congruence.
Qed.
Definition no_socket (x : env * op) : env * op := let (e, o) := x in (Env false (e_rnd e) (e_ip e) (e_react e), o).
Definition deaf_run : list (env * op) :=
  map no_socket ((ev, OStart) :: firstn 10 (claim 1) ++ [(ev, ORecv 2 0xa9fe0100 0xa9fe0100); (ev, OFire 6)]).
Lemma deaf_refuted : exists c, runs (both (fun e o _ => link_local (e_ip e) /\ o <> OError) in_time) c /\ ~ claimed (log c).
Proof.
  exists (run deaf_run fresh_client). split; [apply runs_run; [constructor|obey]|].
  assert (E : log (run deaf_run fresh_client) = firstn 6 (log (run deaf_run fresh_client)) ++
    [(8000, Wire 2 0xa9fe0100 0xa9fe0100); (8000, Available 0xa9fe0100)]) by (vm_compute; reflexivity).
  rewrite E. apply not_claimed. reflexivity.
Qed.
Definition error_run : list (env * op) :=
  (ev, OStart) :: firstn 10 (claim 1) ++ [(ev, OError); (ev, ORecv 2 0xa9fe0100 0xa9fe0100); (ev, OFire 6)].
Lemma error_refuted : exists c, runs (both (fun e _ _ => link_local (e_ip e) /\ e_sock e = true) in_time) c /\ ~ claimed (log c).
Proof.
  exists (run error_run fresh_client). split; [apply runs_run; [constructor|obey]|].
  assert (E : log (run error_run fresh_client) = firstn 6 (log (run error_run fresh_client)) ++
    [(8000, Wire 2 0xa9fe0100 0xa9fe0100); (8000, Available 0xa9fe0100)]) by (vm_compute; reflexivity).
  rewrite E. apply not_claimed. reflexivity.
Qed.

(** Ordinary requests for the address: ten of them (with the first use) and one more use. *)
Definition ask : env * op := (ev, ORecv 1 0xa9fe1234 0xa9fe0100).
Definition use : env * op := (ev, ORecv 1 0xa9fe0100 0xa9fe0100).
Definition ask_run : list (env * op) :=
  (ev, OStart) :: claim 1 ++ repeat ask 8 ++ [use; use].
(** Ten conflicts, then starting again and one more. *)
Definition hit (n : N) : list (env * op) := [(ev, OFire n); use].
Definition ten_run : list (env * op) :=
  (ev, OStart) :: flat_map hit [1; 3; 5; 7; 9; 11; 13; 15; 17; 19].
Definition again_run : list (env * op) := ten_run ++ [(ev, OStop); (ev, OStart)] ++ hit 21.
Definition ev2 : env := Env true 0 0xa9fe0200 Nothing.
Definition drop_run : list (env * op) := [(ev, OStart); (ev, OFire 1); ask; (ev2, OFire 3)].
Definition evs : env := Env true 0 0xa9fe0100 DoStop.
Definition stop_run : list (env * op) :=
  (ev, OStart) :: claim 1 ++ [use; (evs, ORecv 1 0xa9fe0100 0xa9fe0100)] ++ claim 8.

Ltac walk := apply runs_run; [constructor | obey].
Lemma requests_refuted : exists c h t ip, runs (both sockets in_time) c /\
  log c = h ++ [(t, Lost); (t, NoLease)] /\ length (filter (used ip) h) = 2%nat /\ existsb gave_up h = false /\
  hits (seen h) = 10.
Proof.
  exists (run ask_run fresh_client), (firstn 18 (log (run ask_run fresh_client))), 8000, 0xa9fe0100.
  split; [walk|]. vm_compute. auto.
Qed.
Lemma started_again_refuted : exists c h t ip, runs (both sockets in_time) c /\
  log c = h ++ [(t, Stop); (t, Start); (t, Probe ip); (t, Wire 1 ip ip); (t, NoLease)].
Proof.
  exists (run again_run fresh_client), (firstn 22 (log (run again_run fresh_client))), 0, 0xa9fe0100.
  split; [walk|]. vm_compute. auto.
Qed.
Lemma asked_refuted : exists c h t ip s ip', runs (both sockets in_time) c /\
  log c = h ++ [(t, Probe ip); (t, Wire 1 s ip); (t, Probe ip')] /\ s <> 0 /\ s <> ip /\ ip' <> ip.
Proof.
  exists (run drop_run fresh_client), [(0, Start)], 0, 0xa9fe0100, 0xa9fe1234, 0xa9fe0200.
  split; [walk|]. vm_compute. repeat split; discriminate.
Qed.
Lemma stop_refuted : exists c h t h' t' ip, runs (both sockets in_time) c /\
  log c = h ++ [(t, Lost); (t, Stop)] ++ h' ++ [(t', Available ip)] /\ existsb started h' = false.
Proof.
  exists (run stop_run fresh_client), (firstn 10 (log (run stop_run fresh_client))), 8000,
    (firstn 5 (skipn 12 (log (run stop_run fresh_client)))), 16000, 0xa9fe0100.
  split; [walk|]. vm_compute. auto.
Qed.
Lemma stopped_address_refuted : exists c ip h t, runs (both sockets in_time) c /\ log c = h ++ [(t, Stop)] /\
  held (seen (log c)) = None /\ assigned c = Some ip.
Proof.
  exists (step ev OStop first), 0xa9fe0100, (log first), 8000.
  split; [unfold first; apply runs_step; [walk | vm_compute; repeat split; discriminate]|]. vm_compute. auto.
Qed.
