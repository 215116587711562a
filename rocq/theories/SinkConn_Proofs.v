(** Proofs about the connection of the sink. *)
From Coq Require FinFun.
From Verif Require Import Base SinkConn_Model SinkConn_Spec.

(** ** The table of descriptors *)
Lemma taken_in : forall fd l, taken fd l = true <-> In fd (map fst l).
Proof.
  intros fd l. unfold taken. rewrite existsb_exists, in_map_iff. split.
  - intros [x [I E]]. exists x. split; [lia | exact I].
  - intros [x [E I]]. exists x. split; [exact I | lia].
Qed.

Definition range (fd : N) (n : nat) : list N := map (fun i => fd + N.of_nat i) (seq 0 n).
Lemma range_nodup : forall fd n, NoDup (range fd n).
Proof.
  intros. apply FinFun.Injective_map_NoDup; [| apply seq_NoDup]. intros a b E. lia.
Qed.
Lemma lowest_spec : forall f fd l, In (lowest f fd l) (map fst l) -> forall x, In x (range fd f) -> In x (map fst l).
Proof.
  induction f as [| f IH]; intros fd l H x I; [destruct I |]. cbn [lowest] in H.
  destruct (taken fd l) eqn:T.
  - unfold range in I. cbn [seq map In] in I. destruct I as [E | I].
    + apply taken_in. rewrite <- E. replace (fd + N.of_nat 0) with fd by lia. exact T.
    + apply (IH (fd + 1) l H). unfold range. rewrite <- seq_shift, map_map in I.
      apply in_map_iff in I as [y [E I]]. apply in_map_iff. exists y. split; [lia | exact I].
  - apply taken_in in H. congruence.
Qed.
Lemma free_fresh : forall l, ~ In (free_fd l) (map fst l).
Proof.
  intros l H. unfold free_fd in H. pose proof (lowest_spec _ _ _ H) as A.
  pose proof (NoDup_incl_length (range_nodup 3 (S (length l))) A) as L.
  unfold range in L. rewrite !map_length, seq_length in L. lia.
Qed.

Lemma without_in : forall fd l x, In x (without fd l) <-> In x l /\ fst x <> fd.
Proof. intros. unfold without. rewrite filter_In. split; intros [A B]; split; auto; lia. Qed.
Lemma without_keys : forall fd l x, In x (map fst (without fd l)) <-> In x (map fst l) /\ x <> fd.
Proof.
  intros. rewrite !in_map_iff. split.
  - intros [y [E I]]. apply without_in in I as [I N]. split; [exists y; auto | congruence].
  - intros [[y [E I]] N]. exists y. split; [exact E | apply without_in; split; [exact I | congruence]].
Qed.
Lemma without_nodup : forall fd l, NoDup (map fst l) -> NoDup (map fst (without fd l)).
Proof.
  intros fd l. induction l as [| [a o] l IH]; intros D; [constructor |]. inversion D as [| ? ? N D']; subst.
  unfold without in *. cbn [filter map fst]. destruct (a =? fd); cbn [negb]; [apply IH; exact D' |].
  cbn [map fst]. constructor; [| apply IH; exact D'].
  intros I. apply N. apply (without_keys fd l) in I. apply I.
Qed.
Lemma object_at_none : forall fd l, ~ In fd (map fst l) -> object_at fd l = None.
Proof.
  intros fd l N. unfold object_at. destruct (find _ l) eqn:F; [| reflexivity]. exfalso.
  apply find_some in F as [I E]. apply N. apply in_map_iff. exists p. split; [lia | exact I].
Qed.
Lemma object_at_in : forall fd o l, NoDup (map fst l) -> In (fd, o) l -> object_at fd l = Some o.
Proof.
  intros fd o l D I. unfold object_at. induction l as [| [a b] l IH]; [destruct I |].
  inversion D as [| ? ? N D']; subst. cbn [find fst]. destruct I as [E | I].
  - inversion E; subst. rewrite N.eqb_refl. reflexivity.
  - destruct (a =? fd) eqn:Q; [| apply IH; assumption]. exfalso. apply N. apply in_map_iff. exists (fd, o). split; [cbn; lia | exact I].
Qed.
Lemma object_at_some : forall fd o l, object_at fd l = Some o -> In (fd, o) l.
Proof.
  intros fd o l H. unfold object_at in H. destruct (find _ l) eqn:F; [| discriminate]. apply find_some in F as [I E].
  inversion H; subst. destruct p as [a b]. cbn [fst snd] in *. replace fd with a by lia. exact I.
Qed.

(** ** Whatever the user does *)
Record base {U} (w : world U) : Prop := {
  b_conn : s_conn (w_sink w) = true -> s_fd (w_sink w) <> None;
  b_bus : forall b, s_bus (w_sink w) = Some b -> s_fd (w_sink w) = Some (b_fd b);
  b_nodup : NoDup (map fst (k_open (w_kern w)));
  b_leak : no_leak w }.

Ltac sinks := cbn [w_kern w_sink w_inside w_dying w_log w_user note put put_kern put_user frame
  with_fd with_conn with_hup with_bus with_src with_addr s_fd s_conn s_hup s_bus s_src s_addr
  k_open k_next b_fd b_attached b_stuck fst snd] in *.

Section base.
Context {U : Type}.
Implicit Types w : world U.

Lemma base_note : forall x w, base w -> base (note x w).
Proof. intros x w [A B C D]; split; assumption. Qed.
Lemma base_user : forall u w, base w -> base (put_user u w).
Proof. intros x w [A B C D]; split; assumption. Qed.
Lemma base_frame : forall a b w, base w -> base (frame a b w).
Proof. intros x y w [A B C D]; split; assumption. Qed.
Lemma base_hup : forall b w, base w -> base (put (with_hup b (w_sink w)) w).
Proof. intros x w [A B C D]; split; assumption. Qed.
Lemma base_src : forall b w, base w -> base (put (with_src b (w_sink w)) w).
Proof. intros x w [A B C D]; split; assumption. Qed.
Lemma base_addr : forall b w, base w -> base (put (with_addr b (w_sink w)) w).
Proof. intros x w [A B C D]; split; assumption. Qed.

Lemma base_close : forall fd w, base w -> base (k_close fd w).
Proof.
  intros fd w [A B C D]; split; unfold k_close; sinks; auto.
  - apply without_nodup; exact C.
  - intros f n I. sinks. apply without_in in I as [I _]. exact (D f n I).
Qed.
Lemma base_bus_unref : forall w, base w -> base (bus_unref w).
Proof.
  intros w H. unfold bus_unref. destruct (s_bus (w_sink w)); [| exact H]. destruct (b_stuck b); [exact H |].
  destruct (w_inside w); [apply base_frame | apply base_close]; exact H.
Qed.
Lemma bus_unref_sink : forall w, w_sink (bus_unref w) = w_sink w.
Proof. intros. unfold bus_unref. destruct (s_bus (w_sink w)) as [b |]; [destruct (b_stuck b), (w_inside w) |]; reflexivity. Qed.
Lemma base_sink_close : forall w, base w -> base (sink_close w).
Proof.
  intros w H. unfold sink_close. destruct (s_fd (w_sink w)) as [fd |] eqn:F; [| exact H].
  pose proof (base_bus_unref w H) as [A B C D]. rewrite bus_unref_sink in *.
  unfold k_close. split; sinks; try discriminate.
  - apply without_nodup; exact C.
  - intros f n I. sinks. apply without_in in I as [I N]. cbn [fst] in N. exfalso.
    specialize (D f n I). rewrite bus_unref_sink in D. congruence.
Qed.
Lemma base_ctl_close : forall w, base w -> base (ctl_sink_close w).
Proof. intros w H. unfold ctl_sink_close. destruct (s_fd _); [apply base_sink_close, base_note |]; exact H. Qed.

Lemma base_new_file : forall w, base w -> base (snd (k_new File w)).
Proof.
  intros w [A B C D]. unfold k_new. split; sinks; auto.
  - cbn [map fst]. constructor; [apply free_fresh | exact C].
  - intros f n [I | I]; [discriminate | exact (D f n I)].
Qed.
Lemma base_connect : forall t a w, base w -> base (fst (ctl_sink_connect t a w)).
Proof.
  intros t a w H. unfold ctl_sink_connect. destruct (s_fd (w_sink w)) eqn:F; [exact H |].
  destruct t as [addr |]; [| exact H]. destruct (a_dup a); [| exact H].
  unfold sink_connect. sinks. rewrite F. destruct (a_socket a); [| apply base_note, base_addr; exact H].
  unfold k_new. sinks. destruct H as [A B C D].
  assert (Fr := free_fresh (k_open (w_kern w))).
  destruct (a_connect a && a_add a); unfold k_close; split; sinks; auto; try discriminate.
  - intros b E. specialize (B b E). congruence.
  - cbn [map fst]. constructor; assumption.
  - intros f n [I | I]; [inversion I; reflexivity |]. sinks. specialize (D f n I). congruence.
  - apply without_nodup. cbn [map fst]. constructor; assumption.
  - intros f n I. sinks. apply without_in in I as [[I | I] N]; [inversion I; cbn [fst] in N; congruence | exact (D f n I)].
Qed.
Lemma base_ucall : forall c w, base w -> base (ucall_do c w).
Proof. intros [| t a |] w H; [apply base_ctl_close | apply base_connect | apply base_new_file]; exact H. Qed.
Lemma base_ucalls : forall l w, base w -> base (ucalls_do l w).
Proof. induction l as [| c l IH]; intros w H; [exact H |]. apply (IH (ucall_do c w)). apply base_ucall. exact H. Qed.

Variable h : handlers U.
Hypothesis Hc : forall w, base w -> base (h_connected h w).
Hypothesis Hd : forall w, base w -> base (h_disconnected h w).
Hypothesis Hm : forall w, base w -> base (h_message h w).

Lemma base_connected : forall p w, base w -> base (sink_connected h p w).
Proof.
  intros p w H. unfold sink_connected. destruct (s_conn (w_sink w) || s_hup (w_sink w)) eqn:E; [exact H |].
  destruct p; try (apply base_hup, base_src; exact H); sinks; destruct (s_fd (w_sink w)) as [fd |] eqn:F;
    try (match goal with |- base (put (with_hup _ _) _) => idtac end; apply base_hup, base_src; exact H).
  - destruct H as [A B C D]. split; sinks; auto. intros b E'. inversion E'; subst. exact F.
  - destruct H as [A B C D]. split; sinks; auto. intros b E'. inversion E'; subst. exact F.
  - apply Hc, base_note. destruct H as [A B C D]. split; sinks; auto; [congruence |].
    intros b E'. inversion E'; subst. exact F.
Qed.
Lemma base_lost : forall w, base w -> base (sink_lost h w).
Proof. intros w H. unfold sink_lost. destruct (s_hup _); [apply Hd, base_note, base_sink_close |]; exact H. Qed.
Lemma base_callbacks : forall l w, base w -> base (callbacks h l w).
Proof.
  induction l as [| x l IH]; intros w H; [exact H |]. cbn [callbacks]. destruct (s_bus _); [| exact H].
  apply IH. unfold sink_rtsp. apply base_lost. destruct x; [apply base_hup | apply Hm]; exact H.
Qed.
Lemma base_io : forall l w, base w -> base (rtsp_io h l w).
Proof.
  intros l w H. unfold rtsp_io. assert (B := base_callbacks l _ (base_frame true None w H)).
  destruct (w_dying _); [apply base_close |]; apply base_frame; exact B.
Qed.
Lemma base_event : forall e w, base w -> base (event h e w).
Proof.
  intros [out hup p | n | | q] w H; cbn [event].
  - destruct (s_src (w_sink w)) as [[] |]; try exact H. unfold sink_io. apply base_lost.
    destruct out, hup; try apply base_hup; try apply base_connected; exact H.
  - destruct (s_bus (w_sink w)) as [b |]; [destruct (b_attached b) |]; try exact H. apply base_io; exact H.
  - destruct (s_bus (w_sink w)) as [b |]; [destruct (b_attached b) |]; try exact H. apply base_io; exact H.
  - destruct (s_bus (w_sink w)) as [b |] eqn:E; [| exact H]. destruct H as [A B C D]. split; sinks; auto.
    intros b' E'. inversion E'; subst. cbn [b_fd]. apply B. exact E.
Qed.
End base.

Lemma base_start : forall u, base (start u).
Proof.
  intros u. split; sinks; try discriminate; [constructor |]. intros fd n I. destruct I.
Qed.
Ltac by_script := clear; intros w H; cbn [user h_connected h_disconnected h_message];
  destruct (_ (w_user w)); [exact H | apply base_ucalls, base_user; exact H].
Lemma base_input : forall i w, base w -> base (input_do i w).
Proof.
  intros [c | e] w H; [apply base_ucall; exact H |]. apply base_event; try exact H; by_script.
Qed.
Lemma base_run : forall l w, base w -> base (run l w).
Proof. induction l as [| i l IH]; intros w H; [exact H |]. apply (IH (input_do i w)), base_input, H. Qed.

Definition status (s : sink) : life :=
  match s_fd s with None => Idle | Some _ => if s_conn s then Up else Trying end.
Lemma base_answer : forall {U} (w : world U), base w -> answer w (status (w_sink w)).
Proof.
  intros U w H. unfold answer, is_closed, is_connecting, is_connected, status.
  destruct (s_fd (w_sink w)) eqn:F; destruct (s_conn (w_sink w)) eqn:C; repeat split; try reflexivity.
  exfalso. exact (b_conn w H C F).
Qed.

Lemma one_answer_ok : forall u l, exists s, answer (run l (start u)) s.
Proof. intros. exists (status (w_sink (run l (start u)))). apply base_answer, base_run, base_start. Qed.
Lemma close_ok : forall u l, let w := run l (start u) in
  is_closed (ctl_sink_close w) = true /\ is_connecting (ctl_sink_close w) = false /\ is_connected (ctl_sink_close w) = false.
Proof.
  intros u l w. assert (B : base w) by apply base_run, base_start.
  pose proof (base_answer _ (base_ctl_close w B)) as [X [Y Z]].
  assert (E : s_fd (w_sink (ctl_sink_close w)) = None).
  { unfold ctl_sink_close. destruct (s_fd (w_sink w)) eqn:F; [| exact F]. unfold sink_close. sinks. rewrite F. reflexivity. }
  unfold status in X, Y, Z. rewrite E in X, Y, Z. auto.
Qed.
Lemma connect_refused_ok : forall {U} (w : world U) t a, is_closed w = false -> ctl_sink_connect t a w = (w, false).
Proof. intros U w t a H. unfold is_closed in H. unfold ctl_sink_connect. destruct (s_fd (w_sink w)); [reflexivity | discriminate]. Qed.
Lemma no_leak_ok : forall u l, no_leak (run l (start u)).
Proof. intros. apply b_leak, base_run, base_start. Qed.

(** ** A user that leaves the sink alone when it is connected *)
Lemma lives_app : forall a b l, lives (a ++ b) l = match lives a l with Some l' => lives b l' | None => None end.
Proof.
  induction a as [| x a IH]; intros b l; [reflexivity |]. cbn [app lives]. destruct (advance x l); [apply IH | reflexivity].
Qed.
Lemma lives_snoc : forall a x l l', lives a l = Some l' -> lives (a ++ [x]) l = advance x l'.
Proof. intros a x l l' H. rewrite lives_app, H. cbn [lives]. destruct (advance x l'); reflexivity. Qed.

(** The sink between events. *)
Record calm (s : sink) : Prop := {
  c_hup : s_hup s = false;
  c_src : s_src s = match s_fd s with None => None | Some _ => Some (negb (s_conn s)) end;
  c_bus : s_bus s <> None <-> s_conn s = true;
  c_fd : s_conn s = true -> s_fd s <> None }.
Definition told {U} (w : world U) : Prop := lives (w_log w) Idle = Some (status (w_sink w)).

Lemma calm_closed : forall a, calm {| s_fd := None; s_conn := false; s_hup := false; s_bus := None; s_src := None; s_addr := a |}.
Proof. intros. split; cbn; try reflexivity; try discriminate. split; [intros X; exfalso; apply X; reflexivity | discriminate]. Qed.

(** What closing does to the sink and to the log. *)
Definition quiet (x : obs) : Prop := match x with Opened _ _ | Closed _ _ => True | _ => False end.
Lemma lives_quiet : forall q l, Forall quiet q -> lives q l = Some l.
Proof.
  induction q as [| x q IH]; intros l F; [reflexivity |]. inversion F as [| ? ? Q F']; subst. cbn [lives].
  destruct x; cbn in Q; try contradiction; cbn [advance]; apply IH; exact F'.
Qed.
Lemma sink_close_log : forall {U} (w : world U), exists q, w_log (sink_close w) = w_log w ++ q /\ Forall quiet q.
Proof.
  intros U w. unfold sink_close. destruct (s_fd (w_sink w)) as [fd |]; [| exists []; rewrite app_nil_r; auto].
  unfold bus_unref, k_close. destruct (s_bus (w_sink w)) as [b |]; [destruct (b_stuck b), (w_inside w) |]; sinks;
    try (eexists; split; [reflexivity | repeat constructor]; fail).
  eexists. rewrite <- app_assoc. split; [reflexivity | repeat constructor].
Qed.
Lemma sink_close_sink : forall {U} (w : world U) fd, s_fd (w_sink w) = Some fd ->
  w_sink (sink_close w) = {| s_fd := None; s_conn := false; s_hup := false; s_bus := None; s_src := None; s_addr := s_addr (w_sink w) |}.
Proof.
  intros U w fd F. unfold sink_close. rewrite F.
  unfold bus_unref, k_close. destruct (s_bus (w_sink w)) as [b |]; [destruct (b_stuck b), (w_inside w) |]; reflexivity.
Qed.
Lemma sink_close_user : forall {U} (w : world U), w_user (sink_close w) = w_user w.
Proof.
  intros U w. unfold sink_close. destruct (s_fd (w_sink w)); [| reflexivity].
  unfold bus_unref, k_close. destruct (s_bus (w_sink w)) as [b |]; [destruct (b_stuck b), (w_inside w) |]; reflexivity.
Qed.

(** The callbacks, seen from the sink. *)
Record fine {U} (w : world U) : Prop := { f_calm : calm (w_sink w); f_told : told w }.

Lemma fine_close : forall {U} (w : world U), fine w -> fine (ctl_sink_close w).
Proof.
  intros U w [C T]. unfold ctl_sink_close. destruct (s_fd (w_sink w)) as [fd |] eqn:F; [| split; assumption].
  assert (F' : s_fd (w_sink (note Given_up w)) = Some fd) by exact F.
  split; [rewrite (sink_close_sink _ fd F'); apply calm_closed |].
  unfold told. rewrite (sink_close_sink _ fd F'). destruct (sink_close_log (note Given_up w)) as [q [E Q]]. rewrite E.
  sinks. rewrite lives_app. unfold told in T. rewrite (lives_snoc _ _ _ _ T). unfold status. rewrite F.
  destruct (s_conn (w_sink w)); cbn [advance]; apply lives_quiet; exact Q.
Qed.
Lemma fine_connect : forall {U} t a (w : world U), fine w -> fine (fst (ctl_sink_connect t a w)).
Proof.
  intros U t a w [C T]. unfold ctl_sink_connect. destruct (s_fd (w_sink w)) as [fd |] eqn:F; [split; assumption |].
  destruct t as [addr |]; [| split; assumption]. destruct (a_dup a); [| split; assumption].
  assert (CN : s_conn (w_sink w) = false).
  { destruct (s_conn (w_sink w)) eqn:E; [| reflexivity]. exfalso. exact (c_fd _ C E F). }
  assert (BN : s_bus (w_sink w) = None).
  { destruct (s_bus (w_sink w)) eqn:E; [| reflexivity]. exfalso.
    assert (X : s_conn (w_sink w) = true) by (apply (c_bus _ C); rewrite E; discriminate). congruence. }
  pose proof (c_hup _ C) as CH. pose proof (c_src _ C) as CS. rewrite F in CS.
  unfold told in T. unfold status in T. rewrite F in T.
  unfold sink_connect, k_new, k_close. sinks. rewrite F.
  destruct (a_socket a); [destruct (a_connect a && a_add a) |]; sinks; split;
    try (split; sinks; rewrite ?F, ?CN, ?BN, ?CH, ?CS; try reflexivity; try discriminate; split; congruence);
    unfold told; sinks; unfold status; sinks; rewrite ?F, ?CN, ?lives_app, ?T; reflexivity.
Qed.
Lemma fine_file : forall {U} (w : world U), fine w -> fine (snd (k_new File w)).
Proof.
  intros U w [C T]. unfold k_new. split; sinks; [exact C |]. unfold told in *. sinks. rewrite (lives_snoc _ _ _ _ T). reflexivity.
Qed.
Lemma fine_ucall : forall {U} c (w : world U), fine w -> fine (ucall_do c w).
Proof. intros U [| t a |] w H; [apply fine_close | apply fine_connect | apply fine_file]; exact H. Qed.
Lemma fine_ucalls : forall {U} l (w : world U), fine w -> fine (ucalls_do l w).
Proof. induction l as [| c l IH]; intros w H; [exact H |]. apply (IH (ucall_do c w)), fine_ucall, H. Qed.

(** Calls of the user leave alone what they are going to do. *)
Lemma ucall_user : forall {U} c (w : world U), w_user (ucall_do c w) = w_user w.
Proof.
  intros U [| t a |] w; cbn [ucall_do]; [| | reflexivity].
  - unfold ctl_sink_close. destruct (s_fd (w_sink w)); [| reflexivity]. rewrite sink_close_user. reflexivity.
  - unfold ctl_sink_connect, sink_connect, k_new, k_close. destruct (s_fd (w_sink w)) eqn:F; [reflexivity |].
    destruct t; [| reflexivity]. destruct (a_dup a); [| reflexivity]. sinks. rewrite F.
    destruct (a_socket a); [destruct (a_connect a && a_add a) |]; reflexivity.
Qed.
Lemma ucalls_user : forall {U} l (w : world U), w_user (ucalls_do l w) = w_user w.
Proof. induction l as [| c l IH]; intros w; [reflexivity |]. change (w_user (ucalls_do l (ucall_do c w)) = w_user w). rewrite IH. apply ucall_user. Qed.
Lemma apart_sink : forall {U} l (w : world U), Forall apart l -> w_sink (ucalls_do l w) = w_sink w.
Proof.
  induction l as [| c l IH]; intros w F; [reflexivity |]. inversion F as [| ? ? Ap F']; subst.
  change (w_sink (ucalls_do l (ucall_do c w)) = w_sink w). rewrite IH by exact F'. destruct c; cbn in Ap; try contradiction. reflexivity.
Qed.

(** Between events, with a user that leaves the sink alone. *)
Definition rest (w : world script) : Prop := fine w /\ leaves_alone (w_user w).

Lemma fine_put_user : forall {U} u (w : world U), fine w -> fine (put_user u w).
Proof. intros U u w [A B]. split; assumption. Qed.
Lemma rest_disc : forall w, rest w -> rest (h_disconnected user w).
Proof.
  intros w [F L]. cbn [user h_disconnected]. destruct (u_disconnected (w_user w)); [split; assumption |].
  split; [apply fine_ucalls, fine_put_user; exact F |]. rewrite ucalls_user. exact L.
Qed.
Lemma rest_msg : forall w, rest w -> rest (h_message user w).
Proof.
  intros w [F L]. cbn [user h_message]. destruct (u_message (w_user w)); [split; assumption |].
  split; [apply fine_ucalls, fine_put_user; exact F |]. rewrite ucalls_user. exact L.
Qed.
Lemma rest_conn : forall w, rest w -> rest (h_connected user w) /\ w_sink (h_connected user w) = w_sink w.
Proof.
  intros w [F L]. cbn [user h_connected]. destruct (u_connected (w_user w)) as [| l r] eqn:E; [split; [split |]; auto |].
  unfold leaves_alone in L. rewrite E in L. inversion L as [| ? ? L1 L2]; subst.
  split; [split |].
  - apply fine_ucalls, fine_put_user. exact F.
  - rewrite ucalls_user. exact L2.
  - rewrite apart_sink by exact L1. reflexivity.
Qed.

(** The connection is lost: all but the flag is in order. *)
Lemma rest_lost : forall w fd, s_fd (w_sink w) = Some fd -> told w -> leaves_alone (w_user w) ->
  rest (h_disconnected user (note Disconnected (sink_close w))).
Proof.
  intros w fd F T L. apply rest_disc. split; [split |].
  - sinks. rewrite (sink_close_sink _ fd F). apply calm_closed.
  - unfold told. sinks. rewrite (sink_close_sink _ fd F). destruct (sink_close_log w) as [q [E Q]]. rewrite E.
    rewrite <- app_assoc, lives_app. unfold told in T. rewrite T, lives_app, lives_quiet by exact Q.
    unfold status. rewrite F. destruct (s_conn (w_sink w)); reflexivity.
  - sinks. rewrite sink_close_user. exact L.
Qed.
Lemma rest_hup : forall w fd, s_fd (w_sink w) = Some fd -> rest w -> rest (sink_lost user (put (with_hup true (w_sink w)) w)).
Proof.
  intros w fd F [[C T] L]. unfold sink_lost. sinks. apply (rest_lost _ fd); sinks; assumption.
Qed.
Lemma rest_nohup : forall w, rest w -> rest (sink_lost user w).
Proof. intros w [[C T] L]. unfold sink_lost. rewrite (c_hup _ C). split; [split |]; assumption. Qed.

Lemma rest_sink_io : forall out hup p w, rest w -> s_src (w_sink w) = Some true -> rest (sink_io user out hup p w).
Proof.
  intros out hup p w R S. pose proof R as [[C T] L].
  pose proof (c_src _ C) as CS. pose proof (c_hup _ C) as CH. rewrite S in CS.
  destruct (s_fd (w_sink w)) as [fd |] eqn:F; [| discriminate].
  assert (CN : s_conn (w_sink w) = false) by (destruct (s_conn (w_sink w)); [discriminate | reflexivity]).
  unfold sink_io. destruct out; [| destruct hup; [apply (rest_hup _ fd F R) | apply rest_nohup; exact R]].
  unfold sink_connected. rewrite CN, CH. cbn [orb].
  assert (X : forall s, s_fd s = Some fd -> s_conn s = false -> s_hup s = true ->
    rest (sink_lost user (if hup then put (with_hup true (w_sink (put s w))) (put s w) else put s w))).
  { intros s Fs Cs Hs. unfold sink_lost. destruct hup; sinks; rewrite ?Hs; apply (rest_lost _ fd); sinks; try assumption;
      unfold told in *; sinks; rewrite T; unfold status; sinks; rewrite F, CN, Fs, Cs; reflexivity. }
  sinks. rewrite F, S.
  destruct p; try (match goal with |- rest (sink_lost _ (if _ then put (with_hup true (w_sink (put ?a _))) _ else _)) => idtac end).
  - apply (X (with_hup true (with_src (Some false) (w_sink w)))); sinks; auto.
  - apply (X (with_hup true (with_src (Some false) (w_sink w)))); sinks; auto.
  - apply (X (with_hup true (with_src (Some false) (w_sink w)))); sinks; auto.
  - apply (X (with_hup true (with_bus (Some {| b_fd := fd; b_attached := false; b_stuck := false |}) (with_src (Some false) (w_sink w))))); sinks; auto.
  - apply (X (with_hup true (with_bus (Some {| b_fd := fd; b_attached := true; b_stuck := false |}) (with_src (Some false) (w_sink w))))); sinks; auto.
  - set (w1 := note Connected _).
    assert (R1 : rest w1).
    { split; [split |]; subst w1; sinks; [| | exact L].
      - split; sinks; rewrite ?F; auto; [split; [reflexivity | discriminate] | discriminate].
      - unfold told in *. sinks. rewrite (lives_snoc _ _ _ _ T). unfold status. sinks. rewrite F, CN. reflexivity. }
    destruct (rest_conn w1 R1) as [R2 S2].
    destruct hup; [apply (rest_hup _ fd); [rewrite S2; subst w1; sinks; exact F | exact R2] | apply rest_nohup; exact R2].
Qed.
Lemma rest_frame : forall a b w, rest w -> rest (frame a b w).
Proof. intros a b w [[C T] L]. split; [split |]; assumption. Qed.
Lemma rest_kclose : forall fd w, rest w -> rest (k_close fd w).
Proof.
  intros fd w [[C T] L]. split; [split |]; unfold k_close; sinks; try assumption.
  unfold told in *. sinks. rewrite (lives_snoc _ _ _ _ T). reflexivity.
Qed.
Lemma rest_callbacks : forall l w, rest w -> rest (callbacks user l w).
Proof.
  induction l as [| x l IH]; intros w R; [exact R |]. cbn [callbacks]. destruct (s_bus (w_sink w)) eqn:B; [| exact R].
  apply IH. unfold sink_rtsp. destruct x; [| apply rest_nohup, rest_msg, R].
  destruct (s_fd (w_sink w)) as [fd |] eqn:F; [apply (rest_hup _ fd F R) |]. exfalso.
  pose proof R as [[C _] _]. apply (c_fd _ C); [apply (c_bus _ C); rewrite B; discriminate | exact F].
Qed.
Lemma rest_rtsp_io : forall l w, rest w -> rest (rtsp_io user l w).
Proof.
  intros l w R. unfold rtsp_io. assert (X := rest_callbacks l _ (rest_frame true None w R)).
  destruct (w_dying _); [apply rest_kclose |]; apply rest_frame; exact X.
Qed.
Lemma rest_event : forall e w, rest w -> rest (event user e w).
Proof.
  intros [out hup p | n | | q] w R; cbn [event].
  - destruct (s_src (w_sink w)) as [[] |] eqn:S; try exact R. apply rest_sink_io; assumption.
  - destruct (s_bus (w_sink w)) as [b |]; [destruct (b_attached b) |]; try exact R. apply rest_rtsp_io; exact R.
  - destruct (s_bus (w_sink w)) as [b |]; [destruct (b_attached b) |]; try exact R. apply rest_rtsp_io; exact R.
  - destruct (s_bus (w_sink w)) as [b |] eqn:E; [| exact R]. destruct R as [[[A B C D] T] L]. split; [split |]; auto.
    split; sinks; auto. split; [intros _; apply C; rewrite E; discriminate | discriminate].
Qed.
Lemma rest_run : forall l w, rest w -> rest (run l w).
Proof.
  induction l as [| i l IH]; intros w R; [exact R |]. apply (IH (input_do i w)). destruct i as [c | e]; [| apply rest_event, R].
  destruct R as [F L]. split; [apply fine_ucall, F | cbn [input_do]; rewrite ucall_user; exact L].
Qed.
Lemma reports_ok : forall u l, leaves_alone u -> exists s,
  lives (w_log (run l (start u))) Idle = Some s /\ answer (run l (start u)) s.
Proof.
  intros u l L. assert (R : rest (start u)) by (split; [split; [apply calm_closed | reflexivity] | exact L]).
  destruct (rest_run l _ R) as [[C T] _]. exists (status (w_sink (run l (start u)))). split; [exact T |].
  apply base_answer, base_run, base_start.
Qed.

(** ** Descriptors *)
Record safe {U} (w : world U) : Prop := {
  sf_base : base w;
  sf_kept : files_kept (w_log w);
  sf_open : socket_open w;
  sf_dying : forall d, w_dying w = Some d -> ~ In d (map fst (k_open (w_kern w)));
  sf_out : w_inside w = false -> w_dying w = None }.

Lemma kept_snoc : forall log x, files_kept log -> (forall fd n, x <> Closed fd (Some (File n))) -> files_kept (log ++ [x]).
Proof. intros log x K N fd n I. apply in_app_or in I as [I | [I | []]]; [exact (K fd n I) | exact (N fd n I)]. Qed.

Lemma safe_note : forall {U} x (w : world U), safe w -> (forall fd n, x <> Closed fd (Some (File n))) -> safe (note x w).
Proof.
  intros U x w [B K O D I] N. split; auto; [apply base_note, B | sinks; apply kept_snoc; assumption].
Qed.
Lemma safe_user : forall {U} u (w : world U), safe w -> safe (put_user u w).
Proof. intros U x w [B K O D I]. split; auto. apply base_user, B. Qed.
Lemma safe_file : forall {U} (w : world U), safe w -> w_inside w = false -> safe (snd (k_new File w)).
Proof.
  intros U w [B K O D I] E. pose proof (base_new_file w B) as B'. unfold k_new in *. split; sinks; auto.
  - apply kept_snoc; [exact K | discriminate].
  - intros fd F. sinks. destruct (O fd F) as [n X]. exists n. right. exact X.
  - rewrite (I E). discriminate.
Qed.

Lemma safe_close : forall {U} (w : world U), safe w -> safe (sink_close w).
Proof.
  intros U w S. pose proof S as [B K O D I]. pose proof (base_sink_close w B) as B'.
  split; [exact B' | | | |]; clear B'; unfold sink_close in *;
    destruct (s_fd (w_sink w)) as [fd |] eqn:F; try assumption;
    destruct (O fd F) as [n X]; pose proof (object_at_in _ _ _ (b_nodup w B) X) as Q;
    assert (BF : forall b, s_bus (w_sink w) = Some b -> b_fd b = fd) by
      (intros b E; pose proof (b_bus w B b E) as Y; congruence);
    unfold bus_unref, k_close; destruct (s_bus (w_sink w)) as [b |] eqn:Eb;
      try rewrite (BF b eq_refl); try (destruct (b_stuck b), (w_inside w) eqn:Ei); sinks; rewrite ?Q; auto.
  all: try (apply kept_snoc; [try exact K; apply kept_snoc; [exact K | discriminate] |
    rewrite ?object_at_none; [discriminate | intros Y; apply without_keys in Y as [_ Y]; congruence]]).
  all: try (apply kept_snoc; [exact K | discriminate]).
  all: try (intros f Y; discriminate).
  all: try (intros d Y; rewrite ?without_keys; try (intros [Z1 Z2]; exact (D d Y Z1))).
  all: try (intros [[Z1 _] _]; exact (D d Y Z1)).
  all: try (intros Z; discriminate).
  - injection Y as Y. intros [_ Z]. apply Z. symmetry. exact Y.
  - intros Z. congruence.
Qed.
Lemma safe_ctl_close : forall {U} (w : world U), safe w -> safe (ctl_sink_close w).
Proof. intros U w S. unfold ctl_sink_close. destruct (s_fd _); [| exact S]. apply safe_close, safe_note; [exact S | discriminate]. Qed.
Lemma safe_connect : forall {U} t a (w : world U), safe w -> w_inside w = false -> safe (fst (ctl_sink_connect t a w)).
Proof.
  intros U t a w S E. pose proof S as [B K O D I]. pose proof (base_connect t a w B) as B'.
  unfold ctl_sink_connect in *. destruct (s_fd (w_sink w)) eqn:F; [exact S |].
  destruct t as [addr |]; [| exact S]. destruct (a_dup a); [| exact S].
  unfold sink_connect in *. sinks. rewrite F in *. destruct (a_socket a).
  - unfold k_new, k_close in *. sinks. specialize (I E).
    destruct (a_connect a && a_add a); sinks; (split; [exact B' | | | |]); sinks; rewrite ?I; try discriminate; auto.
    + apply kept_snoc; [apply kept_snoc; [exact K | discriminate] | discriminate].
    + intros fd Y. sinks. inversion Y; subst. exists (k_next (w_kern w)). left. reflexivity.
    + apply kept_snoc; [apply kept_snoc; [apply kept_snoc; [exact K | discriminate] |] | discriminate].
      unfold object_at. cbn [find fst]. rewrite N.eqb_refl. discriminate.
    + intros fd Y. sinks. congruence.
  - sinks. split; [exact B' | | | |]; sinks; auto.
    apply kept_snoc; [exact K | discriminate].
Qed.
Lemma ucall_inside : forall {U} c (w : world U), w_inside w = false -> w_inside (ucall_do c w) = false.
Proof.
  intros U [| t a |] w E; cbn [ucall_do]; [| | exact E].
  - unfold ctl_sink_close, sink_close, bus_unref, k_close. destruct (s_fd (w_sink w)) eqn:F; [| exact E]. sinks. rewrite F.
    destruct (s_bus (w_sink w)) as [b |]; [destruct (b_stuck b); [| rewrite E] |]; sinks; exact E.
  - unfold ctl_sink_connect, sink_connect, k_new, k_close. destruct (s_fd (w_sink w)) eqn:F; [exact E |].
    destruct t; [| exact E]. destruct (a_dup a); [| exact E]. sinks. rewrite F.
    destruct (a_socket a); [destruct (a_connect a && a_add a) |]; exact E.
Qed.
Lemma safe_ucall : forall {U} c (w : world U), safe w -> w_inside w = false -> safe (ucall_do c w).
Proof. intros U [| t a |] w S E; [apply safe_ctl_close | apply safe_connect | apply safe_file]; assumption. Qed.
Lemma safe_ucalls : forall {U} l (w : world U), safe w -> w_inside w = false -> safe (ucalls_do l w) /\ w_inside (ucalls_do l w) = false.
Proof.
  induction l as [| c l IH]; intros w S E; [split; assumption |].
  apply (IH (ucall_do c w)); [apply safe_ucall | apply ucall_inside]; assumption.
Qed.
Lemma safe_closing : forall {U} l (w : world U), Forall opens_nothing l -> safe w -> safe (ucalls_do l w).
Proof.
  induction l as [| c l IH]; intros w F S; [exact S |]. inversion F as [| ? ? A F']; subst.
  apply (IH (ucall_do c w) F'). destruct c; cbn in A; try contradiction. apply safe_ctl_close, S.
Qed.

Definition careful (w : world script) : Prop := safe w /\ opens_later (w_user w).
Lemma careful_disc : forall w, careful w -> careful (h_disconnected user w).
Proof.
  intros w [S [A B]]. cbn [user h_disconnected]. destruct (u_disconnected (w_user w)) as [| l r] eqn:E; [split; [exact S |]; split; [rewrite E; exact A | exact B] |].
  inversion A as [| ? ? A1 A2]; subst. split; [apply safe_closing; [exact A1 | apply safe_user, S] |]. rewrite ucalls_user. split; assumption.
Qed.
Lemma careful_msg : forall w, careful w -> careful (h_message user w).
Proof.
  intros w [S [A B]]. cbn [user h_message]. destruct (u_message (w_user w)) as [| l r] eqn:E; [split; [exact S |]; split; [exact A | rewrite E; exact B] |].
  inversion B as [| ? ? A1 A2]; subst. split; [apply safe_closing; [exact A1 | apply safe_user, S] |]. rewrite ucalls_user. split; assumption.
Qed.
Lemma careful_conn : forall w, careful w -> w_inside w = false -> careful (h_connected user w).
Proof.
  intros w [S A] I. cbn [user h_connected]. destruct (u_connected (w_user w)) as [| l r] eqn:E; [split; assumption |].
  split; [apply safe_ucalls; [apply safe_user, S | exact I] |]. rewrite ucalls_user. exact A.
Qed.
(** Changes of the sink that leave the descriptors alone. *)
Lemma careful_put : forall s w, careful w -> base (put s w) -> s_fd s = s_fd (w_sink w) -> careful (put s w).
Proof.
  intros s w [[B K O D I] L] B' E. split; [| exact L]. split; auto. intros fd F. sinks. apply (O fd). congruence.
Qed.
Lemma careful_hup : forall b w, careful w -> careful (put (with_hup b (w_sink w)) w).
Proof. intros b w C. apply careful_put; [exact C | apply base_hup, (sf_base _ (proj1 C)) | reflexivity]. Qed.
Lemma careful_lost : forall w, careful w -> careful (sink_lost user w).
Proof.
  intros w C. unfold sink_lost. destruct (s_hup (w_sink w)); [| exact C]. apply careful_disc. destruct C as [S L].
  split; [apply safe_note; [apply safe_close, S | discriminate] |]. sinks. rewrite sink_close_user. exact L.
Qed.
Lemma careful_connected : forall p w, careful w -> w_inside w = false -> careful (sink_connected user p w).
Proof.
  intros p w C I. pose proof (sf_base _ (proj1 C)) as B.
  assert (N : base (sink_connected user p w)).
  { apply base_connected; [by_script | exact B]. }
  unfold sink_connected in *. destruct (s_conn (w_sink w) || s_hup (w_sink w)); [exact C |].
  assert (A : careful (put (with_src (match s_src (w_sink w) with Some _ => Some false | None => None end) (w_sink w)) w)).
  { apply careful_put; [exact C | apply base_src, B | reflexivity]. }
  destruct p; try (apply careful_hup, A); sinks; destruct (s_fd (w_sink w)) as [fd |] eqn:F; sinks;
    try (match goal with |- careful (put _ (put _ w)) => idtac end; apply (careful_hup true _ A)).
  - match goal with |- careful ?X => change X with (put (w_sink X) w) end. apply careful_put; [exact C | exact N | sinks; congruence].
  - match goal with |- careful ?X => change X with (put (w_sink X) w) end. apply careful_put; [exact C | exact N | sinks; congruence].
  - apply careful_conn; [| exact I].
    match goal with |- careful (note Connected ?X) => assert (Y : careful X); [| destruct Y as [Y1 Y2]; split; [apply safe_note; [exact Y1 | discriminate] | exact Y2]] end.
    match goal with |- careful ?X => change X with (put (w_sink X) w) end. apply careful_put; [exact C | | reflexivity || (sinks; congruence)].
    destruct B as [B1 B2 B3 B4]. split; sinks; auto; [congruence |]. intros b E. inversion E; subst. exact F.
Qed.
Lemma careful_callbacks : forall l w, careful w -> careful (callbacks user l w).
Proof.
  induction l as [| x l IH]; intros w C; [exact C |]. cbn [callbacks]. destruct (s_bus _); [| exact C].
  apply IH. unfold sink_rtsp. apply careful_lost. destruct x; [apply careful_hup | apply careful_msg]; exact C.
Qed.
Lemma careful_rtsp_io : forall l w, careful w -> w_inside w = false -> careful (rtsp_io user l w) /\ w_inside (rtsp_io user l w) = false.
Proof.
  intros l w [[B K O D I] L] E. unfold rtsp_io.
  assert (C1 : careful (callbacks user l (frame true None w))).
  { apply careful_callbacks. split; [| exact L]. split; sinks; auto; try discriminate. apply base_frame, B. }
  destruct C1 as [[B1 K1 O1 D1 I1] L1]. destruct (w_dying (callbacks user l (frame true None w))) as [d |] eqn:Q.
  - split; [| reflexivity]. split; [| exact L1]. unfold k_close. sinks. specialize (D1 d eq_refl).
    rewrite (object_at_none d) by exact D1. split; sinks; auto; try discriminate.
    + rewrite <- (object_at_none d (k_open (w_kern (callbacks user l (frame true None w))))) by exact D1.
      apply (base_close d (frame false None (callbacks user l (frame true None w)))). apply base_frame, B1.
    + apply kept_snoc; [exact K1 | discriminate].
    + intros fd F. sinks. destruct (O1 fd F) as [n X]. exists n. apply without_in. split; [exact X |].
      cbn [fst]. intros Z. apply D1. apply in_map_iff. exists (fd, Socket n). split; [exact Z | exact X].
  - split; [| reflexivity]. split; [| exact L1]. split; sinks; auto; try discriminate. apply base_frame, B1.
Qed.

(** Events leave no frame of rtsp_io_fn behind. *)
Lemma close_inside : forall {U} (w : world U), w_inside w = false -> w_inside (sink_close w) = false.
Proof.
  intros U w E. unfold sink_close, bus_unref, k_close. destruct (s_fd (w_sink w)); [| exact E].
  destruct (s_bus (w_sink w)) as [b |]; [destruct (b_stuck b); [| rewrite E] |]; sinks; exact E.
Qed.
Lemma ucalls_inside : forall {U} l (w : world U), w_inside w = false -> w_inside (ucalls_do l w) = false.
Proof. induction l as [| c l IH]; intros w E; [exact E |]. apply (IH (ucall_do c w)), ucall_inside, E. Qed.
Lemma lost_inside : forall w, w_inside w = false -> w_inside (sink_lost user w) = false.
Proof.
  intros w E. unfold sink_lost. destruct (s_hup (w_sink w)); [| exact E]. cbn [user h_disconnected].
  destruct (u_disconnected _); [apply close_inside, E | apply ucalls_inside; sinks; apply close_inside, E].
Qed.
Lemma connected_inside : forall p w, w_inside w = false -> w_inside (sink_connected user p w) = false.
Proof.
  intros p w E. unfold sink_connected. destruct (s_conn (w_sink w) || s_hup (w_sink w)); [exact E |].
  destruct p; try exact E; sinks; destruct (s_fd (w_sink w)); try exact E.
  cbn [user h_connected]. sinks. destruct (u_connected (w_user w)); [exact E |]. apply ucalls_inside. exact E.
Qed.
Lemma careful_event : forall e w, careful w -> w_inside w = false -> careful (event user e w) /\ w_inside (event user e w) = false.
Proof.
  intros [out hup p | n | | q] w C E; cbn [event].
  - destruct (s_src (w_sink w)) as [[] |]; try (split; assumption). unfold sink_io. split.
    + apply careful_lost. destruct out, hup; try apply careful_hup; try (apply careful_connected; assumption); exact C.
    + apply lost_inside. destruct out, hup; sinks; try apply connected_inside; exact E.
  - destruct (s_bus (w_sink w)) as [b |]; [destruct (b_attached b) |]; try (split; assumption). apply careful_rtsp_io; assumption.
  - destruct (s_bus (w_sink w)) as [b |]; [destruct (b_attached b) |]; try (split; assumption). apply careful_rtsp_io; assumption.
  - destruct (s_bus (w_sink w)) as [b |] eqn:Q; [| split; assumption]. split; [| exact E].
    apply careful_put; [exact C | | reflexivity]. destruct C as [[[B1 B2 B3 B4] _ _ _ _] _]. split; sinks; auto.
    intros b' Y. inversion Y; subst. cbn [b_fd]. apply B2. exact Q.
Qed.
Lemma careful_run : forall l w, careful w -> w_inside w = false -> careful (run l w) /\ w_inside (run l w) = false.
Proof.
  induction l as [| i l IH]; intros w C E; [split; assumption |]. destruct i as [c | e].
  - apply (IH (ucall_do c w)); [| apply ucall_inside, E]. destruct C as [S L]. split; [apply safe_ucall; assumption |].
    rewrite ucall_user. exact L.
  - destruct (careful_event e w C E). apply (IH (event user e w)); assumption.
Qed.
Lemma descriptors_ok : forall u l, opens_later u ->
  files_kept (w_log (run l (start u))) /\ socket_open (run l (start u)).
Proof.
  intros u l L. destruct (careful_run l (start u)) as [[S _] _]; [| reflexivity | split; apply S].
  split; [| exact L]. split; [apply base_start | intros fd n [] | intros fd F; discriminate | discriminate | reflexivity].
Qed.

(** *** No connection, no bus *)
Record tidy {U} (w : world U) : Prop := {
  td_base : base w; td_open : socket_open w; td_bus : s_bus (w_sink w) = None; td_good : no_bad_close (w_log w) }.
Lemma good_snoc : forall log x, no_bad_close log -> (forall fd, x <> Closed fd None) -> no_bad_close (log ++ [x]).
Proof. intros log x K N fd I. apply in_app_or in I as [I | [I | []]]; [exact (K fd I) | exact (N fd I)]. Qed.
Lemma tidy_note : forall {U} x (w : world U), (forall fd, x <> Closed fd None) -> tidy w -> tidy (note x w).
Proof. intros U x w N [B O E G]. split; auto; [apply base_note, B | apply good_snoc; assumption]. Qed.
Lemma tidy_close : forall {U} (w : world U), tidy w -> tidy (sink_close w).
Proof.
  intros U w [B O E G]. pose proof (base_sink_close w B) as B'. unfold sink_close, bus_unref, k_close in *. rewrite E in *.
  destruct (s_fd (w_sink w)) as [fd |] eqn:F; [| split; assumption]. split; [exact B' | intros f Y; discriminate | reflexivity |].
  sinks. destruct (O fd F) as [n X]. rewrite (object_at_in _ _ _ (b_nodup w B) X). apply good_snoc; [exact G | discriminate].
Qed.
Lemma tidy_ucall : forall {U} c (w : world U), tidy w -> tidy (ucall_do c w).
Proof.
  intros U c w T. pose proof T as [B O E G]. pose proof (base_ucall c w B) as B'. destruct c as [| t a |]; cbn [ucall_do] in *.
  - unfold ctl_sink_close. destruct (s_fd (w_sink w)) eqn:F; [| exact T]. apply tidy_close, tidy_note; [discriminate | exact T].
  - unfold ctl_sink_connect, sink_connect in *. destruct (s_fd (w_sink w)) eqn:F; [exact T |].
    destruct t as [addr |]; [| exact T]. destruct (a_dup a); [| exact T]. sinks. rewrite F in *.
    unfold k_new, k_close in *. sinks.
    destruct (a_socket a); [destruct (a_connect a && a_add a) |]; sinks; (split; [exact B' | | assumption |]); sinks.
    + intros fd Y. sinks. inversion Y; subst. exists (k_next (w_kern w)). left. reflexivity.
    + apply good_snoc; [apply good_snoc; [exact G | discriminate] | discriminate].
    + intros fd Y. sinks. congruence.
    + apply good_snoc; [apply good_snoc; [apply good_snoc; [exact G | discriminate] |] | discriminate].
      unfold object_at. cbn [find fst]. rewrite N.eqb_refl. discriminate.
    + intros fd Y. sinks. congruence.
    + apply good_snoc; [exact G | discriminate].
  - unfold k_new in *. split; sinks; [exact B' | | exact E | apply good_snoc; [exact G | discriminate]].
    intros fd Y. sinks. destruct (O fd Y) as [n X]. exists n. right. exact X.
Qed.
Lemma tidy_ucalls : forall {U} l (w : world U), tidy w -> tidy (ucalls_do l w).
Proof. induction l as [| c l IH]; intros w H; [exact H |]. apply (IH (ucall_do c w)), tidy_ucall, H. Qed.
Lemma tidy_put : forall {U} s (w : world U), tidy w -> base (put s w) -> s_fd s = s_fd (w_sink w) -> s_bus s = None -> tidy (put s w).
Proof. intros U s w [B O E G] B' F N. split; sinks; auto. intros fd Y. sinks. apply (O fd). congruence. Qed.
Lemma tidy_run : forall l w, Forall no_connection l -> tidy w -> tidy (run l w).
Proof.
  induction l as [| i l IH]; intros w F T; [exact T |]. inversion F as [| ? ? N F']; subst. apply (IH (input_do i w) F').
  destruct i as [c | e]; [apply tidy_ucall, T |]. destruct e as [out hup p | n | | q]; cbn [input_do event]; try (rewrite (td_bus w T); exact T).
  destruct (s_src (w_sink w)) as [[] |] eqn:S; try exact T. unfold sink_io.
  assert (L : forall w, tidy w -> tidy (sink_lost user w)).
  { intros v V. unfold sink_lost. destruct (s_hup (w_sink v)); [| exact V]. cbn [user h_disconnected].
    assert (V' : tidy (note Disconnected (sink_close v))) by (apply tidy_note; [discriminate | apply tidy_close, V]).
    destruct (u_disconnected _); [exact V' |]. apply tidy_ucalls. destruct V' as [B O E G]. split; auto. apply base_user, B. }
  assert (H : forall w : world script, tidy w -> tidy (put (with_hup true (w_sink w)) w)).
  { intros v V. apply tidy_put; [exact V | apply base_hup, (td_base v V) | reflexivity | exact (td_bus v V)]. }
  apply L. assert (C : tidy (if out then sink_connected user p w else w)).
  { destruct out; [| exact T]. unfold sink_connected. destruct (s_conn (w_sink w) || s_hup (w_sink w)); [exact T |].
    assert (X : tidy (put (with_src (match s_src (w_sink w) with Some _ => Some false | None => None end) (w_sink w)) w)).
    { apply tidy_put; [exact T | apply base_src, (td_base w T) | reflexivity | exact (td_bus w T)]. }
    destruct p; cbn in N; try contradiction; apply H; exact X. }
  destruct hup; [apply H |]; exact C.
Qed.
Lemma unconnected_ok : forall u l, Forall no_connection l -> no_bad_close (w_log (run l (start u))) /\ socket_open (run l (start u)).
Proof.
  intros u l F. assert (T : tidy (run l (start u))); [| split; apply T]. apply tidy_run; [exact F |].
  split; [apply base_start | intros fd Y; discriminate | reflexivity | intros fd []].
Qed.

(** ** Counterexamples *)
Definition yes : answers := {| a_dup := true; a_socket := true; a_connect := true; a_add := true |}.
Definition idle : script := {| u_connected := []; u_disconnected := []; u_message := [] |}.
Definition connect : input := Call (UConnect (Some 1) yes).
Definition up : input := Event (EIo true false PFine).

(** Closing a connected sink closes the descriptor twice. *)
Lemma twice_refuted : exists u l, leaves_alone u /\ opens_later u /\ ~ no_bad_close (w_log (run l (start u))).
Proof.
  exists idle, [connect; up; Call UClose]. split; [constructor |]. split; [split; constructor |].
  intros H. apply (H 3). vm_compute. auto 10.
Qed.
(** A lost connection: the user opens a file when told, the bus closes it. *)
Lemma file_refuted : exists u l, leaves_alone u /\ ~ files_kept (w_log (run l (start u))).
Proof.
  exists {| u_connected := []; u_disconnected := [[UFile]]; u_message := [] |}, [connect; up; Event EHup].
  split; [constructor |]. intros H. apply (H 3 1). vm_compute. auto 10.
Qed.
(** The same with a new connection: the sink waits for an answer on a closed descriptor. *)
Lemma reconnect_refuted : exists u l, leaves_alone u /\ is_connecting (run l (start u)) = true /\ ~ socket_open (run l (start u)).
Proof.
  exists {| u_connected := []; u_disconnected := [[UConnect (Some 1) yes]]; u_message := [] |}, [connect; up; Event EHup].
  split; [constructor |]. split; [vm_compute; reflexivity |]. intros H. specialize (H 3 eq_refl) as [n I]. vm_compute in I. exact I.
Qed.
(** A user that closes the sink when told that it is connected, while the kernel reports
    that the connection is gone: they are told of a lost connection that was given up, and the
    next connection is dropped as soon as it is there. *)
Definition hasty : script := {| u_connected := [[UClose]]; u_disconnected := []; u_message := [] |}.
Lemma hasty_refuted : exists u l, lives (w_log (run l (start u))) Idle = None.
Proof. exists hasty, [connect; Event (EIo true true PFine)]. vm_compute. reflexivity. Qed.
Lemma hasty_next_refuted : exists u l, is_closed (run l (start u)) = true /\
  ~ In Connected (skipn (length (w_log (run l (start u)))) (w_log (run (l ++ [connect; up]) (start u)))) /\
  is_closed (run (l ++ [connect; up]) (start u)) = true.
Proof.
  exists hasty, [connect; Event (EIo true true PFine)]. split; [vm_compute; reflexivity |]. split; [| vm_compute; reflexivity].
  vm_compute. intuition discriminate.
Qed.
