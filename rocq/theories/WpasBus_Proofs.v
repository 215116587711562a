From Coq Require Import Sorted.
From Verif Require Import Base Qstr_Model Qstr_Proofs WpasMsg_Model WpasMsg_Spec WpasMsg_Proofs WpasBus_Model WpasBus_Spec.

Lemma put_nth_len l : forall id c, length (put_nth l id c) = length l.
Proof. induction l as [|x l IH]; intros [|id] c; simpl; auto. Qed.
Lemma put_nth_same l : forall id c c', nth_error l id = Some c -> nth_error (put_nth l id c') id = Some c'.
Proof. induction l as [|x l IH]; intros [|id] c c' H; simpl in *; try discriminate; eauto. Qed.
Lemma put_nth_other l : forall id id' c, id' <> id -> nth_error (put_nth l id c) id' = nth_error l id'.
Proof. induction l as [|x l IH]; intros [|id] [|id'] c H; simpl; auto; congruence. Qed.
Lemma get_put_same b id c c' : get b id = Some c -> get (put b id c') id = Some c'.
Proof. apply put_nth_same. Qed.
Lemma get_put_other b id id' c : id' <> id -> get (put b id c) id' = get b id'.
Proof. intros. apply put_nth_other. auto. Qed.
Lemma get_lt b id c : get b id = Some c -> (id < length (q_calls b))%nat.
Proof. unfold get. intros H. apply nth_error_Some. congruence. Qed.

(** ** What a step does to the messages *)
(** What stays the same about a message. *)
Definition later (c c' : call) : Prop :=
  k_msg c' = k_msg c /\ k_cookie c' = k_cookie c /\ k_cb c' = k_cb c /\ (k_sent c = true -> k_sent c' = true) /\ (k_removed c = true -> k_removed c' = true).
Lemma later_refl c : later c c. Proof. repeat split; auto. Qed.
Lemma later_trans a b c : later a b -> later b c -> later a c.
Proof. unfold later. intros (A & B & C & D & E) (F & G & H & I & J). repeat split; try congruence; auto. Qed.
Definition grows (b b' : chan) : Prop := forall id c, get b id = Some c -> exists c', get b' id = Some c' /\ later c c'.
Lemma grows_refl b : grows b b. Proof. intros id c H. exists c. split; [auto|apply later_refl]. Qed.
Lemma grows_trans a b c : grows a b -> grows b c -> grows a c.
Proof.
  intros H1 H2 id x Hx. apply H1 in Hx as (y & Hy & L1). apply H2 in Hy as (z & Hz & L2). exists z. split; [auto|].
  eapply later_trans; eauto.
Qed.
Lemma grows_put b id c c' : get b id = Some c -> later c c' -> grows b (put b id c').
Proof.
  intros Hg L i x Hx. destruct (Nat.eq_dec i id) as [->|Hn].
  - rewrite Hg in Hx. injection Hx as <-. exists c'. split; [|auto]. eapply get_put_same; eauto.
  - rewrite get_put_other by auto. exists x. split; [auto|apply later_refl].
Qed.

(** The possible steps. *)
Definition adds (b : chan) (e : event) (m : wmsg) (ck cks : N) (cb : bool) : Prop :=
  match e with
  | ECall m0 cb' => cb = cb' /\ w_type m0 = WRequest /\ w_peer m0 = false /\ wseal (set_peer m0) = (m, None)
                    /\ ck = next_cookie (q_cookies b) /\ cks = ck
  | ESend m0 => ck = 0 /\ cks = q_cookies b /\ cb = false
  | _ => False
  end.
Definition wrote (id : nat) (c : call) (o : list obs) : Prop :=
  o = [] /\ w_rawlen (k_msg c) = 0 \/ o = [Datagram id (sent_text (k_msg c))].
Inductive change (e : event) (b : chan) : list obs -> chan -> Prop :=
| ch_none : change e b [] b
| ch_forward b' a : q_calls b' = q_calls b -> q_list b' = q_list b -> q_cookies b' = q_cookies b -> change e b [Forward a] b'
| ch_link m ck cks cb : adds b e m ck cks cb -> change e b [] (link b m ck cks cb)
| ch_mark id c : In id (q_list b) -> get b id = Some c -> k_sent c = true -> change e b [Cancelled id] (put b id (k_set_removed c))
| ch_drop id c : In id (q_list b) -> get b id = Some c -> k_sent c = false -> change e b [Cancelled id] (unlink b id c)
| ch_write id l c o : q_list b = id :: l -> get b id = Some c -> k_sent c = false -> k_cookie c <> 0 -> wrote id c o ->
    change e b o (put b id (k_set_sent c))
| ch_out id l c o : q_list b = id :: l -> get b id = Some c -> k_sent c = false -> k_cookie c = 0 -> wrote id c o ->
    change e b o (unlink b id (k_set_sent c))
| ch_stray a : (forall id l c, q_list b = id :: l -> get b id = Some c -> k_sent c = false) -> change e b [Got a] b
| ch_reply id l c a : q_list b = id :: l -> get b id = Some c -> k_sent c = true ->
    change e b (Got a :: if k_removed c || negb (k_cb c) then [] else [Callback id a]) (unlink b id c).

Lemma find_in b ck l id : find_cookie b l ck = Some id -> In id l /\ exists c, get b id = Some c /\ k_cookie c = ck.
Proof.
  induction l as [|x l IH]; simpl; [discriminate|]. destruct (get b x) as [c|] eqn:Eg.
  - destruct (N.eqb_spec (k_cookie c) ck) as [He|He]; [|intros H; destruct (IH H); auto].
    intros H. injection H as <-. split; [auto|]. eauto.
  - intros H. destruct (IH H). auto.
Qed.
Lemma step_change b e b' o : step b e = (b', o) -> change e b o b'.
Proof.
  destruct e; simpl.
  - unfold call_async. destruct (q_server b || _ || _) eqn:Eg; [intros H; injection H as <- <-; constructor|].
    apply orb_false_elim in Eg as [Eg Ep]. apply orb_false_elim in Eg as [_ Et].
    destruct (wseal _) as [m' [er|]] eqn:Ew; intros H; injection H as <- <-; constructor. simpl.
    repeat split; auto. destruct (w_type m); auto; discriminate.
  - unfold send. destruct (_ && _); [intros H; injection H as <- <-; constructor|].
    destruct (wseal _) as [m' [er|]]; intros H; injection H as <- <-; constructor. simpl. auto.
  - unfold cancel. destruct (cookie =? 0); [intros H; injection H as <- <-; constructor|].
    destruct (find_cookie _ _ _) as [id|] eqn:Ef; [|intros H; injection H as <- <-; constructor].
    apply find_in in Ef as (Hi & c & Hg & _). rewrite Hg. intros H. injection H as <- <-.
    destruct (k_sent c) eqn:Es; constructor; auto.
  - destruct (q_dead b); [intros H; injection H as <- <-; constructor|]. unfold write.
    destruct (q_list b) as [|id l] eqn:El; [intros H; injection H as <- <-; constructor|].
    destruct (get b id) as [c|] eqn:Eg; [|intros H; injection H as <- <-; constructor].
    destruct (k_sent c) eqn:Es; [intros H; injection H as <- <-; constructor|].
    change (k_cookie (k_set_sent c)) with (k_cookie c).
    assert (W1 : w_rawlen (k_msg c) = 0 -> wrote id c []) by (left; auto).
    assert (W2 : wrote id c [Datagram id (sent_text (k_msg c))]) by (right; auto).
    destruct (N.eqb_spec (w_rawlen (k_msg c)) 0) as [Hr|Hr]; [|destruct r];
      (destruct (N.eqb_spec (k_cookie c) 0) as [Hc|Hc]; intros H; injection H as <- <-;
       first [eapply ch_write; solve [eauto] | eapply ch_out; solve [eauto] | constructor]).
  - destruct (q_dead b); [intros H; injection H as <- <-; constructor|]. unfold read.
    destruct (w_type a); try (intros H; injection H as <- <-; constructor; auto; fail).
    destruct (q_list b) as [|id l] eqn:El; [intros H; injection H as <- <-; constructor; congruence|].
    destruct (get b id) as [c|] eqn:Eg; [|intros H; injection H as <- <-; constructor; congruence].
    destruct (k_sent c) eqn:Es; intros H; injection H as <- <-; [eapply ch_reply; eauto|]. constructor. congruence.
  - destruct (q_dead b) eqn:Ed; [intros H; injection H as <- <-; constructor|]. unfold timer, hup. rewrite Ed.
    destruct (q_list b) eqn:El; intros H; injection H as <- <-; constructor; auto.
  - unfold hup. destruct (q_dead b); intros H; injection H as <- <-; constructor; auto.
Qed.

Lemma get_link b m ck cks cb id c : get b id = Some c -> get (link b m ck cks cb) id = Some c.
Proof. intros H. unfold get, link. simpl. rewrite nth_error_app1; [exact H|]. apply (get_lt _ _ _ H). Qed.
Lemma get_link_new b m ck cks cb : get (link b m ck cks cb) (length (q_calls b)) = Some (mkCall m ck cb false true false).
Proof. unfold get, link. simpl. rewrite nth_error_app2, Nat.sub_diag by lia. reflexivity. Qed.
Lemma get_link_inv b m ck cks cb id c : get (link b m ck cks cb) id = Some c ->
  get b id = Some c \/ id = length (q_calls b) /\ c = mkCall m ck cb false true false.
Proof.
  unfold get, link. simpl. intros H. destruct (Nat.lt_ge_cases id (length (q_calls b))) as [Hl|Hl].
  - rewrite nth_error_app1 in H by auto. auto.
  - rewrite nth_error_app2 in H by auto. destruct (id - length (q_calls b))%nat as [|[|n]] eqn:Ed; simpl in H; try discriminate.
    injection H as <-. right. split; [lia|auto].
Qed.
Lemma get_unlink b id c i : get b id = Some c -> get (unlink b id c) i = if Nat.eqb i id then Some (k_set_queued c false) else get b i.
Proof.
  intros H. unfold unlink. destruct (Nat.eqb_spec i id) as [->|Hn].
  - apply put_nth_same with c. exact H.
  - apply put_nth_other. auto.
Qed.
Lemma get_unlink_sent b id c i : get b id = Some c ->
  get (unlink b id (k_set_sent c)) i = if Nat.eqb i id then Some (k_set_queued (k_set_sent c) false) else get b i.
Proof.
  intros H. unfold unlink. destruct (Nat.eqb_spec i id) as [->|Hn].
  - apply put_nth_same with c. exact H.
  - apply put_nth_other. auto.
Qed.
Lemma grows_unlink b id c c' : get b id = Some c -> later c c' ->
  (forall i, get (unlink b id c') i = if Nat.eqb i id then Some (k_set_queued c' false) else get b i) -> grows b (unlink b id c').
Proof.
  intros Hg L E i x Hx. rewrite E. destruct (Nat.eqb_spec i id) as [->|Hn]; [|exists x; split; [auto|apply later_refl]].
  rewrite Hg in Hx. injection Hx as <-. eexists. split; [reflexivity|]. exact L.
Qed.
Lemma change_grows e b o b' : change e b o b' -> grows b b'.
Proof.
  intros [ | b0' a Hc Hl Hk | | id c Hi Hg Hs | id c Hi Hg Hs | id l c o0 Hl Hg Hs Hk Ho | id l c o0 Hl Hg Hs Hk Ho | | id l c a Hl Hg Hs].
  - apply grows_refl.
  - intros id c H. exists c. split; [|apply later_refl]. unfold get in *. congruence.
  - intros id c H0. exists c. split; [|apply later_refl]. apply get_link. exact H0.
  - apply grows_put with c; auto. repeat split; auto.
  - apply grows_unlink with c; auto using later_refl. intros. apply get_unlink. auto.
  - apply grows_put with c; auto. repeat split; auto.
  - apply grows_unlink with c; auto; [repeat split; auto|]. intros. apply get_unlink_sent. auto.
  - apply grows_refl.
  - apply grows_unlink with c; auto using later_refl. intros. apply get_unlink. auto.
Qed.
Lemma run_grows es : forall b b' o, run b es = (b', o) -> grows b b'.
Proof.
  induction es as [|e es IH]; intros b b' o H; simpl in H; [injection H as <- _; apply grows_refl|].
  destruct (step b e) as [b1 o1] eqn:E1, (run b1 es) as [b2 o2] eqn:E2. injection H as <- _.
  apply grows_trans with b1; [apply change_grows with e o1, step_change; auto|]. eapply IH; eauto.
Qed.

(** ** Numbers in order *)
Definition sorted_q (b : chan) : Prop := StronglySorted lt (q_list b) /\ Forall (fun id => (id < length (q_calls b))%nat) (q_list b).
Lemma sorted_remove (l : list nat) id : StronglySorted lt l -> StronglySorted lt (remove Nat.eq_dec id l).
Proof.
  induction l as [|x l IH]; intros H; simpl; [constructor|]. inversion H as [|? ? Hs Hf]; subst.
  destruct (Nat.eq_dec id x); [auto|]. constructor; [auto|]. rewrite Forall_forall in *. intros y Hy. apply in_remove in Hy as [Hy _]. auto.
Qed.
Lemma forall_remove (P : nat -> Prop) l id : Forall P l -> Forall P (remove Nat.eq_dec id l).
Proof. rewrite !Forall_forall. intros H y Hy. apply in_remove in Hy as [Hy _]. auto. Qed.
Lemma sorted_snoc (l : list nat) n : StronglySorted lt l -> Forall (fun id => (id < n)%nat) l -> StronglySorted lt (l ++ [n]).
Proof.
  induction l as [|x l IH]; intros H Hf; simpl; [repeat constructor|]. inversion H; subst. inversion Hf; subst. constructor; auto.
  rewrite Forall_app. split; [auto|]. constructor; [lia|constructor].
Qed.
Lemma unlink_list b id c : q_list (unlink b id c) = remove Nat.eq_dec id (q_list b). Proof. reflexivity. Qed.
Lemma unlink_calls b id c : length (q_calls (unlink b id c)) = length (q_calls b).
Proof. apply put_nth_len. Qed.
Lemma put_calls b id c : length (q_calls (put b id c)) = length (q_calls b).
Proof. apply put_nth_len. Qed.
Lemma change_sorted e b o b' : change e b o b' -> sorted_q b -> sorted_q b'.
Proof.
  intros H [Hs Hf]. destruct H; unfold sorted_q; rewrite ?unlink_list, ?unlink_calls, ?put_calls; auto using sorted_remove, forall_remove.
  - rewrite H, H0. auto.
  - simpl. split; [apply sorted_snoc; auto|]. rewrite app_length. simpl. rewrite Forall_app. split; [|constructor; [lia|constructor]].
    eapply Forall_impl; [|exact Hf]. simpl. intros. lia.
Qed.

(** ** One at a time *)
Definition usable (c : call) : Prop := k_cookie c <> 0 /\ w_rawlen (k_msg c) <> 0.
Record inv (b : chan) (p : option nat) (g : list nat) : Prop := mkInv {
  i_sorted : sorted_q b;
  i_usable : forall id c, get b id = Some c -> usable c;
  i_gone : Forall (fun id => (id < length (q_calls b))%nat) g;
  i_marks : forall id c, In id (q_list b) -> get b id = Some c -> (In id g <-> k_removed c = true);
  i_head : match p with
           | Some id => exists l, q_list b = id :: l /\ (exists c, get b id = Some c /\ k_sent c = true)
                          /\ (forall i c, In i l -> get b i = Some c -> k_sent c = false)
           | None => forall i c, In i (q_list b) -> get b i = Some c -> k_sent c = false
           end }.
Lemma encode_nonempty s q : s <> [] -> lenN (encode s q) <> 0.
Proof.
  destruct s as [|c s]; [congruence|]. intros _. unfold encode. destruct q.
  - rewrite !lenN_app. change (lenN [34]) with 1. lia.
  - simpl. destruct (_ || _); rewrite !lenN_cons; lia.
Qed.
Lemma append_argv args : forall m m' e, wappend_loop m args = (m', e) -> w_sealed m = false ->
  exists ts, w_argv m' = w_argv m ++ ts /\ w_sealed m' = false /\ w_type m' = w_type m.
Proof.
  induction args as [|a args IH]; intros m m' e H Hs; simpl in H.
  - injection H as <- <-. exists []. rewrite app_nil_r. auto.
  - unfold wappend_basic in H. rewrite Hs in H. destruct (arg_text a) as [t|].
    + apply IH in H as (ts & A & B & C); [|auto]. exists (t :: ts). rewrite A. simpl. rewrite <- app_assoc. auto.
    + injection H as <- <-. exists []. rewrite app_nil_r. auto.
Qed.
Lemma made_usable m m' : made m -> w_type m = WRequest -> w_peer m = false -> wseal (set_peer m) = (m', None) -> w_rawlen m' <> 0.
Proof.
  intros Hm Ht Hp Hw. destruct (Hm Ht Hp) as (name & m0 & args & Hn & Hd). unfold new_wrequest in Hn.
  destruct name as [|c n]; [discriminate|]. injection Hn as <-.
  unfold wappend in Hd. change (w_sealed _) with false in Hd.
  destruct (wappend_loop _ args) as [m1 e] eqn:Ea. apply append_argv in Ea as (ts & A & B & C); [|reflexivity].
  simpl in A. simpl in Hd.
  assert (Hr : forall x, w_argv x = (c :: n) :: ts -> w_sealed x = false -> forall y, wseal x = (y, None) -> w_rawlen y <> 0).
  { intros x Ax Bx y Hy. unfold wseal in Hy. rewrite Bx, Ax, join_form in Hy by discriminate. destruct (_ <=? _); [discriminate|].
    assert (E : w_rawlen y = lenN (encode (c :: n) (need_quote (c :: n)) ++ tail_line ts)) by (injection Hy as <-; reflexivity).
    rewrite E, lenN_app. assert (He := encode_nonempty (c :: n) (need_quote (c :: n)) ltac:(discriminate)). lia. }
  destruct Hd as [->|Hd]; [apply (Hr (set_peer m1)); auto|].
  destruct (wseal m1) as [m2 [er|]] eqn:E1.
  - simpl in Hd. assert (m2 = m1) as ->. { unfold wseal in E1. rewrite B in E1. destruct (_ <=? _); congruence. }
    subst m1. apply (Hr (set_peer m)); auto.
  - simpl in Hd. subst m2. specialize (Hr m1 A B m E1).
    assert (w_sealed m = true). { unfold wseal in E1. rewrite B in E1. destruct (_ <=? _); [discriminate|]. injection E1 as <-. reflexivity. }
    unfold wseal in Hw. change (w_sealed (set_peer m)) with (w_sealed m) in Hw. rewrite H in Hw. injection Hw as <-. exact Hr.
Qed.
Lemma next_cookie_pos c : next_cookie c <> 0.
Proof. unfold next_cookie. destruct (N.eqb_spec (wrap64 (c + 1)) 0); lia. Qed.

Lemma sorted_head id l b : sorted_q b -> q_list b = id :: l -> ~ In id l /\ remove Nat.eq_dec id (q_list b) = l /\ StronglySorted lt l.
Proof.
  intros [Hs _] Hl. rewrite Hl in Hs. inversion Hs as [|? ? Hs' Hf]; subst.
  assert (Hn : ~ In id l) by (intros Hi; rewrite Forall_forall in Hf; apply Hf in Hi; lia).
  split; [auto|]. split; [|auto]. rewrite Hl. simpl. destruct (Nat.eq_dec id id); [|congruence]. apply notin_remove. auto.
Qed.
Lemma list_get b id : sorted_q b -> In id (q_list b) -> exists c, get b id = Some c.
Proof.
  intros [_ Hf] Hi. rewrite Forall_forall in Hf. apply Hf in Hi. unfold get. destruct (nth_error (q_calls b) id) eqn:E; [eauto|].
  apply nth_error_None in E. lia.
Qed.

Lemma get_put_inv b id c c' i x : get b id = Some c -> get (put b id c') i = Some x -> i = id /\ x = c' \/ i <> id /\ get b i = Some x.
Proof.
  intros Hg Hx. destruct (Nat.eq_dec i id) as [->|Hn].
  - rewrite (get_put_same _ _ _ _ Hg) in Hx. injection Hx as <-. auto.
  - rewrite get_put_other in Hx by auto. auto.
Qed.
(** A step without wpas_send. *)
Lemma inv_step cb e b o b' p g : only_calls e -> change e b o b' -> inv b p g -> (forall id c, get b id = Some c -> cb id = k_cb c) ->
  exists p' g', inv b' p' g' /\ forall rest, orderly cb p' g' rest -> orderly cb p g (o ++ rest).
Proof.
  intros Ho Hc [Is Iu Ig Im Ih] Hcb.
  assert (Is' := change_sorted _ _ _ _ Hc Is).
  destruct Hc as [ | b0' a Hc Hl Hk | m ck cks cb' Ha | id c Hi Hg Hs | id c Hi Hg Hs | id l c o0 Hl Hg Hs Hk Hw | id l c o0 Hl Hg Hs Hk Hw | a Hst | id l c a Hl Hg Hs].
  - exists p, g. split; [constructor; auto|]. auto.
  - exists p, g. assert (Hgg : forall i, get b0' i = get b i) by (intros i; unfold get; congruence).
    split; [|intros; simpl; constructor; auto]. constructor; auto.
    + intros i c. rewrite Hgg. apply Iu.
    + rewrite Hc. auto.
    + intros i c. rewrite Hgg, Hl. apply Im.
    + rewrite Hl. destruct p as [id|]; [|intros i c; rewrite Hgg; apply Ih].
      destruct Ih as (l & A & (c & B & C) & D). exists l. split; [auto|]. split; [exists c; rewrite Hgg; auto|]. intros i c'. rewrite Hgg. apply D.
  - exists p, g. split; [|auto]. assert (Hnew := get_link_new b m ck cks cb').
    assert (Hlen : forall i, In i (q_list b) -> (i < length (q_calls b))%nat) by (destruct Is as [_ Hf]; rewrite Forall_forall in Hf; auto).
    constructor; auto.
    + intros i c Hx. apply get_link_inv in Hx as [Hx|[-> ->]]; [apply (Iu _ _ Hx)|].
      destruct e; simpl in Ha; try contradiction. destruct Ha as (_ & Ht & Hp & Hw & -> & _). split; simpl; [apply next_cookie_pos|].
      apply (made_usable m0 m); auto.
    + simpl. rewrite app_length. eapply Forall_impl; [|exact Ig]. simpl. intros. lia.
    + intros i c Hi Hx. simpl in Hi. apply in_app_or in Hi. apply get_link_inv in Hx as [Hx|[-> ->]].
      * destruct Hi as [Hi|[<-|[]]]; [apply Im; auto|]. apply get_lt in Hx. lia.
      * simpl. split; [|discriminate]. intros Hi'. rewrite Forall_forall in Ig. apply Ig in Hi'. lia.
    + assert (Hnone : forall l0, (forall i, In i l0 -> In i (q_list b)) -> (forall i c, In i l0 -> get b i = Some c -> k_sent c = false) ->
                forall i c, In i (l0 ++ [length (q_calls b)]) -> get (link b m ck cks cb') i = Some c -> k_sent c = false).
      { intros l0 Hsub Hall i c Hi Hx. apply get_link_inv in Hx as [Hx|[-> ->]]; [|reflexivity]. apply in_app_or in Hi as [Hi|[<-|[]]]; [eauto|].
        apply get_lt in Hx. lia. }
      destruct p as [id|]; [|simpl; apply Hnone; auto].
      destruct Ih as (l & A & (c & B & C) & D). exists (l ++ [length (q_calls b)]). split; [simpl; rewrite A; reflexivity|].
      split; [exists c; split; [apply get_link; auto|auto]|]. apply Hnone; auto. intros i Hi. rewrite A. right. auto.
  - (* cancelled on the wire *)
    exists p, (id :: g). split; [|intros; simpl; constructor; auto]. constructor; auto.
    + intros i x Hx. apply (get_put_inv _ _ _ _ _ _ Hg) in Hx as [[-> ->]|[_ Hx]]; [apply (Iu _ _ Hg)|apply (Iu _ _ Hx)].
    + rewrite put_calls. constructor; [apply (get_lt _ _ _ Hg)|auto].
    + intros i x Hi' Hx. apply (get_put_inv _ _ _ _ _ _ Hg) in Hx as [[-> ->]|[Hn Hx]]; [simpl; tauto|].
      simpl. rewrite <- (Im _ _ Hi' Hx). split; [intros [He|He]; [congruence|auto]|auto].
    + assert (Hsame : forall i x, get (put b id (k_set_removed c)) i = Some x -> exists y, get b i = Some y /\ k_sent x = k_sent y).
      { intros i x Hx. apply (get_put_inv _ _ _ _ _ _ Hg) in Hx as [[-> ->]|[Hn Hx]]; eauto. }
      destruct p as [id0|].
      * destruct Ih as (l & A & (c0 & B & C) & D). exists l. split; [auto|]. split.
        -- destruct (Nat.eq_dec id0 id) as [->|Hn].
           ++ exists (k_set_removed c). split; [apply (get_put_same _ _ _ _ Hg)|auto].
           ++ exists c0. rewrite get_put_other by auto. auto.
        -- intros i x Hi' Hx. apply Hsame in Hx as (y & Hy & ->). eauto.
      * intros i x Hi' Hx. apply Hsame in Hx as (y & Hy & ->). eauto.
  - (* cancelled before it was written *)
    exists p, (id :: g). split; [|intros; simpl; constructor; auto].
    assert (Hget := get_unlink b id c). 
    constructor; auto.
    + intros i x. rewrite Hget by auto. destruct (Nat.eqb_spec i id) as [->|Hn]; [|apply Iu]. intros H. injection H as <-. apply (Iu _ _ Hg).
    + rewrite unlink_calls. constructor; [apply (get_lt _ _ _ Hg)|auto].
    + rewrite unlink_list. intros i x Hi' Hx. apply in_remove in Hi' as [Hi' Hn]. rewrite Hget in Hx by auto.
      destruct (Nat.eqb_spec i id) as [->|_]; [congruence|]. simpl. rewrite <- (Im _ _ Hi' Hx). split; [intros [He|He]; [congruence|auto]|auto].
    + rewrite unlink_list. destruct p as [id0|].
      * destruct Ih as (l & A & (c0 & B & C) & D). assert (id0 <> id) by congruence.
        exists (remove Nat.eq_dec id l). rewrite A. simpl. destruct (Nat.eq_dec id id0); [congruence|]. split; [auto|]. split.
        -- exists c0. rewrite Hget by auto. destruct (Nat.eqb_spec id0 id); [congruence|]. auto.
        -- intros i x Hi' Hx. apply in_remove in Hi' as [Hi' Hn']. rewrite Hget in Hx by auto. destruct (Nat.eqb_spec i id); [congruence|]. eauto.
      * intros i x Hi' Hx. apply in_remove in Hi' as [Hi' Hn']. rewrite Hget in Hx by auto. destruct (Nat.eqb_spec i id); [congruence|]. eauto.
  - (* written *)
    destruct p as [id0|].
    { destruct Ih as (l0 & A & (c0 & B & C) & D). congruence. }
    destruct Hw as [[-> Hw]| ->]; [destruct (Iu _ _ Hg); contradiction|].
    exists (Some id), g. split; [|intros; simpl; constructor; auto]. constructor; auto.
    + intros i x Hx. apply (get_put_inv _ _ _ _ _ _ Hg) in Hx as [[-> ->]|[_ Hx]]; [apply (Iu _ _ Hg)|apply (Iu _ _ Hx)].
    + rewrite put_calls. auto.
    + intros i x Hi' Hx. apply (get_put_inv _ _ _ _ _ _ Hg) in Hx as [[-> ->]|[Hn Hx]]; [apply (Im _ _ Hi' Hg)|apply (Im _ _ Hi' Hx)].
    + exists l. destruct (sorted_head _ _ _ Is Hl) as (Hn & _). split; [auto|]. split.
      * exists (k_set_sent c). split; [apply (get_put_same _ _ _ _ Hg)|auto].
      * intros i x Hi' Hx. apply (get_put_inv _ _ _ _ _ _ Hg) in Hx as [[-> ->]|[_ Hx]]; [contradiction|]. apply (Ih i); auto. rewrite Hl. right. auto.
  - destruct (Iu _ _ Hg). contradiction.
  - (* stray reply *)
    destruct p as [id0|].
    { destruct Ih as (l0 & A & (c0 & B & C) & D). specialize (Hst _ _ _ A B). congruence. }
    exists None, g. split; [constructor; auto|]. intros. simpl. constructor. auto.
  - (* reply *)
    assert (p = Some id) as ->.
    { destruct p as [id0|]; [destruct Ih as (l0 & A & _); congruence|]. rewrite Ih with (i := id) (c := c) in Hs; [discriminate| |auto]. rewrite Hl. left. auto. }
    destruct (sorted_head _ _ _ Is Hl) as (Hn & Hrm & _). assert (Hin : In id (q_list b)) by (rewrite Hl; left; auto).
    destruct Ih as (l0 & A & _ & D). assert (l0 = l) as -> by congruence. assert (Hget := get_unlink b id c).
    exists None, g. split.
    + constructor; auto.
      * intros i x. rewrite Hget by auto. destruct (Nat.eqb_spec i id) as [->|Hn']; [|apply Iu]. intros H. injection H as <-. apply (Iu _ _ Hg).
      * rewrite unlink_calls. auto.
      * rewrite unlink_list, Hrm. intros i x Hi' Hx. rewrite Hget in Hx by auto. destruct (Nat.eqb_spec i id) as [->|Hn']; [contradiction|].
        apply Im; auto. rewrite Hl. right. auto.
      * rewrite unlink_list, Hrm. intros i x Hi' Hx. rewrite Hget in Hx by auto. destruct (Nat.eqb_spec i id) as [->|Hn']; [contradiction|]. eauto.
    + intros rest Hr. specialize (Hcb _ _ Hg). specialize (Im _ _ Hin Hg).
      destruct (k_removed c) eqn:Er; simpl.
      * apply o_silent; [right; apply Im; auto|auto].
      * destruct (k_cb c) eqn:Ec; simpl; [|apply o_silent; [left; auto|auto]].
        apply o_reply; auto. rewrite Im. discriminate.
Qed.
Lemma inv_open s : inv (chan_open s) None [].
Proof.
  constructor; simpl; auto.
  - split; constructor.
  - intros id c H. destruct id; discriminate.
  - intros id c [].
  - intros id c [].
Qed.
Lemma orderly_run es : forall b p g b' o cb, Forall only_calls es -> inv b p g -> run b es = (b', o) ->
  (forall id c, get b' id = Some c -> cb id = k_cb c) -> orderly cb p g o.
Proof.
  induction es as [|e es IH]; intros b p g b' o cb Ha Hi Hr Hcb; simpl in Hr; [injection Hr as _ <-; constructor|].
  destruct (step b e) as [b1 o1] eqn:E1, (run b1 es) as [b2 o2] eqn:E2. injection Hr as <- <-. inversion Ha; subst.
  apply step_change in E1. assert (Hgr := change_grows _ _ _ _ E1). assert (Hg2 := run_grows _ _ _ _ E2).
  destruct (inv_step cb e b o1 b1 p g) as (p' & g' & Hi' & Ho); auto.
  - intros id c Hg. destruct (grows_trans _ _ _ Hgr Hg2 _ _ Hg) as (c' & Hg' & (_ & _ & L & _)). rewrite (Hcb _ _ Hg'). auto.
  - apply Ho. apply (IH b1 p' g' b2 o2 cb); auto.
Qed.
Lemma calls_orderly es server b o : Forall only_calls es -> run (chan_open server) es = (b, o) -> orderly (has_cb b) None [] o.
Proof.
  intros Ha Hr. apply (orderly_run es (chan_open server) None [] b o); auto using inv_open. intros id c Hg. unfold has_cb. rewrite Hg. auto.
Qed.

(** ** The order of datagrams *)
Definition fresh_from (b : chan) (lo : nat) : Prop :=
  sorted_q b /\ (forall id c, In id (q_list b) -> get b id = Some c -> k_sent c = false -> (lo <= id)%nat) /\ (lo <= length (q_calls b))%nat.
Lemma fresh_step e b o b' lo : change e b o b' -> fresh_from b lo ->
  exists lo', fresh_from b' lo' /\ (datagrams o = [] /\ lo' = lo \/ exists id, datagrams o = [id] /\ (lo <= id)%nat /\ lo' = S id).
Proof.
  intros Hc (Is & If & Il). assert (Is' := change_sorted _ _ _ _ Hc Is).
  assert (Hfr : forall id c, get b id = Some c -> In id (q_list b) -> (forall i x, In i (q_list b') -> get b' i = Some x -> k_sent x = false -> i <> id /\ In i (q_list b) /\ get b i = Some x) ->
     (length (q_calls b') = length (q_calls b)) -> fresh_from b' lo).
  { intros id c Hg Hi Hsub Hlen. split; [auto|]. split; [|lia]. intros i x Hi' Hx Hs. destruct (Hsub _ _ Hi' Hx Hs) as (A & B & C). eauto. }
  destruct Hc as [ | b0' a Hc Hl Hk | m ck cks cb' Ha | id c Hi Hg Hs | id c Hi Hg Hs | id l c o0 Hl Hg Hs Hk Hw | id l c o0 Hl Hg Hs Hk Hw | a Hst | id l c a Hl Hg Hs].
  - exists lo. split; [split; auto|auto].
  - exists lo. split; [|auto]. split; [auto|]. unfold get. rewrite Hc, Hl. auto.
  - exists lo. split; [|auto]. split; [auto|]. split.
    + intros i x Hi Hx Hs. simpl in Hi. apply in_app_or in Hi. apply get_link_inv in Hx as [Hx|[-> ->]]; [|lia].
      destruct Hi as [Hi|[<-|[]]]; [eauto|]. lia.
    + simpl. rewrite app_length. lia.
  - exists lo. split; [|auto]. apply (Hfr id c); auto; [|apply put_calls]. intros i x Hi' Hx Hs'.
    apply (get_put_inv _ _ _ _ _ _ Hg) in Hx as [[-> ->]|[Hn Hx]]; [simpl in Hs'; congruence|auto].
  - exists lo. split; [|auto]. apply (Hfr id c); auto; [|apply unlink_calls]. rewrite unlink_list. intros i x Hi' Hx Hs'.
    apply in_remove in Hi' as [Hi' Hn]. rewrite get_unlink in Hx by auto. destruct (Nat.eqb_spec i id); [congruence|auto].
  - destruct (sorted_head _ _ _ Is Hl) as (Hn & Hrm & Hss). assert (Hin : In id (q_list b)) by (rewrite Hl; left; auto).
    assert (Hlo := If _ _ Hin Hg Hs). assert (Hlt := get_lt _ _ _ Hg).
    assert (Hgt : forall i, In i l -> (id < i)%nat). { destruct Is as [Is _]. rewrite Hl in Is. inversion Is as [|? ? _ Hf]. rewrite Forall_forall in Hf. auto. }
    assert (Hstep : forall i x, In i (q_list b) -> get (put b id (k_set_sent c)) i = Some x -> k_sent x = false -> i <> id /\ In i l /\ get b i = Some x).
    { intros i x Hi' Hx Hs'. apply (get_put_inv _ _ _ _ _ _ Hg) in Hx as [[-> ->]|[Hn' Hx]]; [discriminate|]. rewrite Hl in Hi'. destruct Hi' as [He|He]; [congruence|auto]. }
    destruct Hw as [[-> _]| ->].
    + exists lo. split; [|auto]. split; [auto|]. rewrite put_calls. split; [|auto]. intros i x Hi' Hx Hs'. destruct (Hstep _ _ Hi' Hx Hs') as (_ & A & B).
      apply (If i x); auto.
    + exists (S id). split; [|right; exists id; simpl; auto]. split; [auto|]. rewrite put_calls. split; [|lia].
      intros i x Hi' Hx Hs'. destruct (Hstep _ _ Hi' Hx Hs') as (_ & A & B). apply Hgt in A. lia.
  - destruct (sorted_head _ _ _ Is Hl) as (Hn & Hrm & Hss). assert (Hin : In id (q_list b)) by (rewrite Hl; left; auto).
    assert (Hlo := If _ _ Hin Hg Hs). assert (Hlt := get_lt _ _ _ Hg).
    assert (Hgt : forall i, In i l -> (id < i)%nat). { destruct Is as [Is _]. rewrite Hl in Is. inversion Is as [|? ? _ Hf]. rewrite Forall_forall in Hf. auto. }
    assert (Hstep : forall i x, In i l -> get (unlink b id (k_set_sent c)) i = Some x -> get b i = Some x).
    { intros i x Hi' Hx. rewrite get_unlink_sent in Hx by auto. destruct (Nat.eqb_spec i id) as [->|]; [contradiction|auto]. }
    destruct Hw as [[-> _]| ->].
    + exists lo. split; [|auto]. split; [auto|]. rewrite unlink_calls, unlink_list, Hrm. split; [|auto]. intros i x Hi' Hx Hs'. apply Hstep in Hx; auto.
      apply (If i x); auto. rewrite Hl. right. auto.
    + exists (S id). split; [|right; exists id; simpl; auto]. split; [auto|]. rewrite unlink_calls, unlink_list, Hrm. split; [|lia].
      intros i x Hi' Hx Hs'. apply Hgt in Hi'. lia.
  - exists lo. split; [split; auto|auto].
  - exists lo. split; [|destruct (_ || _); auto]. apply (Hfr id c); auto; [rewrite Hl; left; auto| |apply unlink_calls].
    destruct (sorted_head _ _ _ Is Hl) as (Hn & Hrm & _). rewrite unlink_list, Hrm. intros i x Hi' Hx Hs'.
    rewrite get_unlink in Hx by auto. destruct (Nat.eqb_spec i id) as [->|Hn']; [contradiction|]. split; [auto|]. split; [rewrite Hl; right; auto|auto].
Qed.
Lemma datagrams_app a b : datagrams (a ++ b) = datagrams a ++ datagrams b.
Proof. induction a as [|[] a IH]; simpl; congruence. Qed.
Lemma callbacks_app a b : callbacks (a ++ b) = callbacks a ++ callbacks b.
Proof. induction a as [|[] a IH]; simpl; congruence. Qed.
Lemma fresh_run es : forall b lo b' o, fresh_from b lo -> run b es = (b', o) ->
  StronglySorted lt (datagrams o) /\ Forall (fun id => (lo <= id)%nat) (datagrams o).
Proof.
  induction es as [|e es IH]; intros b lo b' o Hf Hr; simpl in Hr; [injection Hr as _ <-; split; constructor|].
  destruct (step b e) as [b1 o1] eqn:E1, (run b1 es) as [b2 o2] eqn:E2. injection Hr as <- <-.
  apply step_change in E1. destruct (fresh_step _ _ _ _ _ E1 Hf) as (lo' & Hf' & Hd). destruct (IH _ _ _ _ Hf' E2) as [A B].
  rewrite datagrams_app. destruct Hd as [[-> ->]|(id & -> & Hlo & ->)]; [auto|]. simpl. split; constructor; auto.
  eapply Forall_impl; [|exact B]. simpl. intros. lia.
Qed.
Lemma fresh_open s : fresh_from (chan_open s) 0.
Proof. split; [split; constructor|]. split; [|simpl; lia]. intros id c []. Qed.
Lemma datagrams_ordered es server b o : run (chan_open server) es = (b, o) -> StronglySorted lt (datagrams o).
Proof. intros H. apply (fresh_run _ _ _ _ _ (fresh_open server) H). Qed.
Lemma orderly_callbacks cb p g l : orderly cb p g l ->
  forall D, D = match p with Some id => [id] | None => [] end ++ datagrams l -> StronglySorted lt D ->
  StronglySorted lt (callbacks l) /\ (forall x, In x (callbacks l) -> In x D).
Proof.
  induction 1 as [p g|id t g l H IH|a g l H IH|id a g l Hcb Hg H IH|id a g l Hc H IH|id p g l H IH|a p g l H IH]; intros D HD Hs; simpl in *.
  - split; [constructor|intros x []].
  - subst D. destruct (IH _ eq_refl Hs). auto.
  - subst D. destruct (IH _ eq_refl Hs). auto.
  - subst D. inversion Hs as [|? ? Hs' Hf]; subst. destruct (IH _ eq_refl Hs') as [A B]. split.
    + constructor; [auto|]. rewrite Forall_forall in *. auto.
    + intros x [->|Hx]; [left; auto|right; auto].
  - subst D. inversion Hs as [|? ? Hs' Hf]; subst. destruct (IH _ eq_refl Hs') as [A B]. split; [auto|]. intros x Hx. right. auto.
  - destruct (IH _ HD Hs). auto.
  - destruct (IH _ HD Hs). auto.
Qed.
Lemma callbacks_ordered es server b o : Forall only_calls es -> run (chan_open server) es = (b, o) -> StronglySorted lt (callbacks o).
Proof.
  intros Ha Hr. eapply orderly_callbacks; [eapply calls_orderly; eauto|reflexivity|]. simpl. eapply datagrams_ordered; eauto.
Qed.

(** ** Cancelling *)
Definition dead_call (b : chan) (id : nat) : Prop :=
  (id < length (q_calls b))%nat /\ forall c, In id (q_list b) -> get b id = Some c -> k_sent c = true /\ k_removed c = true.
Lemma dead_step e b o b' id : change e b o b' -> sorted_q b -> dead_call b id -> dead_call b' id /\ ~ In id (datagrams o) /\ ~ In id (callbacks o).
Proof.
  intros Hc Is [Hlt Hd]. assert (Hgr := change_grows _ _ _ _ Hc).
  assert (Hkeep : (forall i, In i (q_list b') -> i = id -> In i (q_list b)) -> (length (q_calls b) <= length (q_calls b'))%nat -> dead_call b' id).
  { intros Hsub Hlen. split; [lia|]. intros c Hi Hg. assert (Hi' := Hsub _ Hi eq_refl). destruct (list_get _ _ Is Hi') as [c0 Hg0].
    destruct (Hd _ Hi' Hg0) as [A B]. destruct (Hgr _ _ Hg0) as (c1 & Hg1 & (_ & _ & _ & S & R)). assert (c = c1) by congruence. subst. auto. }
  assert (Hrm : forall x, In id (remove Nat.eq_dec x (q_list b)) -> In id (q_list b)) by (intros x Hx; apply in_remove in Hx as [Hx _]; auto).
  destruct Hc as [ | b0' a Hc Hl Hk | m ck cks cb' Ha | id' c Hi Hg Hs | id' c Hi Hg Hs | id' l c o0 Hl Hg Hs Hk Hw | id' l c o0 Hl Hg Hs Hk Hw | a Hst | id' l c a Hl Hg Hs].
  - split; [split; auto|auto].
  - split; [|auto]. apply Hkeep; [rewrite Hl; auto|rewrite Hc; auto].
  - split; [|auto]. apply Hkeep; [|simpl; rewrite app_length; lia]. simpl. intros i Hi ->. apply in_app_or in Hi as [Hi|[<-|[]]]; [auto|lia].
  - split; [|auto]. apply Hkeep; [auto|rewrite put_calls; auto].
  - split; [|auto]. apply Hkeep; [intros i Hi' ->; rewrite unlink_list in Hi'; eauto|rewrite unlink_calls; auto].
  - split; [apply Hkeep; [auto|rewrite put_calls; auto]|].
    assert (id' <> id). { intros ->. destruct (Hd c); [rewrite Hl; left; auto|auto|congruence]. }
    destruct Hw as [[-> _]| ->]; simpl; intuition.
  - split; [apply Hkeep; [intros i Hi' ->; rewrite unlink_list in Hi'; eauto|rewrite unlink_calls; auto]|].
    assert (id' <> id). { intros ->. destruct (Hd c); [rewrite Hl; left; auto|auto|congruence]. }
    destruct Hw as [[-> _]| ->]; simpl; intuition.
  - split; [split; auto|auto].
  - split; [apply Hkeep; [intros i Hi' ->; rewrite unlink_list in Hi'; eauto|rewrite unlink_calls; auto]|].
    destruct (k_removed c) eqn:Er; simpl; [auto|]. destruct (k_cb c); simpl; [|auto].
    split; [auto|]. intros [->|[]]. destruct (Hd c); [rewrite Hl; left; auto|auto|congruence].
Qed.
Lemma dead_run es : forall b b' o id, sorted_q b -> dead_call b id -> run b es = (b', o) -> ~ In id (datagrams o) /\ ~ In id (callbacks o).
Proof.
  induction es as [|e es IH]; intros b b' o id Hs Hd Hr; simpl in Hr; [injection Hr as _ <-; auto|].
  destruct (step b e) as [b1 o1] eqn:E1, (run b1 es) as [b2 o2] eqn:E2. injection Hr as <- <-. apply step_change in E1.
  destruct (dead_step _ _ _ _ _ E1 Hs Hd) as (Hd' & A & B). destruct (IH _ _ _ _ (change_sorted _ _ _ _ E1 Hs) Hd' E2) as [C D].
  rewrite datagrams_app, callbacks_app, !in_app_iff. tauto.
Qed.
Lemma cancel_dead e b o b' id : change e b o b' -> sorted_q b -> In (Cancelled id) o -> dead_call b' id /\ datagrams o = [] /\ callbacks o = [] /\ o = [Cancelled id].
Proof.
  intros Hc Is Hi. destruct Hc as [ | b0' a Hc Hl Hk | m ck cks cb' Ha | id' c Hi' Hg Hs | id' c Hi' Hg Hs | id' l c o0 Hl Hg Hs Hk Hw | id' l c o0 Hl Hg Hs Hk Hw | a Hst | id' l c a Hl Hg Hs]; simpl in Hi.
  - contradiction.
  - destruct Hi as [Hi|[]]. discriminate.
  - contradiction.
  - destruct Hi as [Hi|[]]. injection Hi as ->. simpl. split; [|auto]. split; [rewrite put_calls; apply (get_lt _ _ _ Hg)|].
    intros x _ Hx. rewrite (get_put_same _ _ _ _ Hg) in Hx. injection Hx as <-. auto.
  - destruct Hi as [Hi|[]]. injection Hi as ->. simpl. split; [|auto]. split; [rewrite unlink_calls; apply (get_lt _ _ _ Hg)|].
    intros x Hx. rewrite unlink_list in Hx. apply in_remove in Hx as [_ Hx]. congruence.
  - destruct Hw as [[-> _]| ->]; simpl in Hi; intuition discriminate.
  - destruct Hw as [[-> _]| ->]; simpl in Hi; intuition discriminate.
  - destruct Hi as [Hi|[]]. discriminate.
  - destruct Hi as [Hi|Hi]; [discriminate|]. destruct (_ || _); simpl in Hi; intuition discriminate.
Qed.
Lemma cancelled_run es : forall b b' l1 id l2, sorted_q b -> run b es = (b', l1 ++ Cancelled id :: l2) -> ~ In id (datagrams l2) /\ ~ In id (callbacks l2).
Proof.
  induction es as [|e es IH]; intros b b' l1 id l2 Hs Hr; simpl in Hr; [destruct l1; discriminate|].
  destruct (step b e) as [b1 o1] eqn:E1, (run b1 es) as [b2 o2] eqn:E2. apply step_change in E1.
  assert (Hs1 := change_sorted _ _ _ _ E1 Hs).
  assert (Ho : o1 ++ o2 = l1 ++ Cancelled id :: l2) by congruence.
  apply app_eq_app in Ho as (l & [[Ho1 Ho2]|[Ho1 Ho2]]).
  - destruct l as [|x l]; simpl in Ho2.
    + apply (IH b1 b2 [] id l2 Hs1). rewrite E2. simpl. congruence.
    + injection Ho2 as <- ->.
      destruct (cancel_dead _ _ _ _ id E1 Hs) as (Hd & _ & _ & Ho); [rewrite Ho1; apply in_or_app; right; left; auto|].
      rewrite Ho1 in Ho. assert (l = []) as ->. { destruct l1 as [|? [|]]; simpl in Ho; inversion Ho; auto. }
      simpl. apply (dead_run _ _ _ _ _ Hs1 Hd E2).
  - apply (IH b1 b2 l id l2 Hs1). rewrite E2. congruence.
Qed.
Lemma cancelled_silent es server b l1 id l2 : run (chan_open server) es = (b, l1 ++ Cancelled id :: l2) -> ~ In id (datagrams l2) /\ ~ In id (callbacks l2).
Proof. apply cancelled_run. split; constructor. Qed.

(** The reply to a cancelled request. *)
Lemma orderly_swallow cb p g l : orderly cb p g l -> forall l1 id t l2 a l3, l = l1 ++ Datagram id t :: l2 ++ Got a :: l3 ->
  existsb is_got l2 = false -> In id g \/ In (Cancelled id) (l1 ++ l2) -> forall id' a' l4, l3 <> Callback id' a' :: l4.
Proof.
  (* first the part after the datagram *)
  assert (Htail : forall cb p g l, orderly cb p g l -> forall id l2 a l3, p = Some id -> l = l2 ++ Got a :: l3 -> existsb is_got l2 = false ->
    In id g \/ In (Cancelled id) l2 -> forall id' a' l4, l3 <> Callback id' a' :: l4).
  { clear. induction 1 as [p g|id0 t0 g l H IH|a0 g l H IH|id0 a0 g l Hcb Hg H IH|id0 a0 g l Hc H IH|id0 p g l H IH|a0 p g l H IH];
      intros id l2 a l3 Hp Hl Hn Hin id' a' l4 Hl3; try discriminate.
    - destruct l2; discriminate.
    - injection Hp as ->. destruct l2 as [|x l2]; simpl in Hl; [|injection Hl as <- Hl; discriminate].
      destruct Hin as [Hin|[]]. contradiction.
    - injection Hp as ->. destruct l2 as [|x l2]; simpl in Hl; [|injection Hl as <- Hl; discriminate].
      injection Hl as <- ->. subst l3. inversion H.
    - destruct l2 as [|x l2]; [discriminate|]. simpl in Hl. injection Hl as <- Hl. simpl in Hn.
      apply (IH id l2 a l3 Hp Hl Hn) with (id' := id') (a' := a') (l4 := l4); auto.
      destruct Hin as [Hin|[Hin|Hin]]; [left; right; auto|injection Hin as ->; left; left; auto|auto].
    - destruct l2 as [|x l2]; [discriminate|]. simpl in Hl. injection Hl as <- Hl. simpl in Hn.
      apply (IH id l2 a l3 Hp Hl Hn) with (id' := id') (a' := a') (l4 := l4); auto. destruct Hin as [Hin|[Hin|Hin]]; [auto|discriminate|auto]. }
  induction 1 as [p g|id0 t0 g l H IH|a0 g l H IH|id0 a0 g l Hcb Hg H IH|id0 a0 g l Hc H IH|id0 p g l H IH|a0 p g l H IH];
    intros l1 id t l2 a l3 Hl Hn Hin id' a' l4.
  - destruct l1; discriminate.
  - destruct l1 as [|x l1]; simpl in Hl.
    + injection Hl as -> -> ->. apply (Htail _ _ _ _ H id l2 a l3); auto.
    + injection Hl as <- ->. apply (IH l1 id t l2 a l3 eq_refl Hn). destruct Hin as [Hin|[Hin|Hin]]; [auto|discriminate|auto].
  - destruct l1 as [|x l1]; simpl in Hl; [discriminate|]. injection Hl as <- ->. apply (IH l1 id t l2 a l3 eq_refl Hn).
    destruct Hin as [Hin|[Hin|Hin]]; [auto|discriminate|auto].
  - destruct l1 as [|x [|y l1]]; simpl in Hl; try discriminate. injection Hl as <- <- ->. apply (IH l1 id t l2 a l3 eq_refl Hn).
    destruct Hin as [Hin|[Hin|[Hin|Hin]]]; [auto|discriminate|discriminate|auto].
  - destruct l1 as [|x l1]; simpl in Hl; [discriminate|]. injection Hl as <- ->. apply (IH l1 id t l2 a l3 eq_refl Hn).
    destruct Hin as [Hin|[Hin|Hin]]; [auto|discriminate|auto].
  - destruct l1 as [|x l1]; simpl in Hl; [discriminate|]. injection Hl as <- ->. apply (IH l1 id t l2 a l3 eq_refl Hn).
    destruct Hin as [Hin|[Hin|Hin]]; [left; right; auto|injection Hin as ->; left; left; auto|auto].
  - destruct l1 as [|x l1]; simpl in Hl; [discriminate|]. injection Hl as <- ->. apply (IH l1 id t l2 a l3 eq_refl Hn).
    destruct Hin as [Hin|[Hin|Hin]]; [auto|discriminate|auto].
Qed.
Lemma cancelled_reply es server b l1 id t l2 a l3 : Forall only_calls es ->
  run (chan_open server) es = (b, l1 ++ Datagram id t :: l2 ++ Got a :: l3) -> existsb is_got l2 = false -> In (Cancelled id) l2 ->
  forall id' a' l4, l3 <> Callback id' a' :: l4.
Proof.
  intros Ha Hr Hn Hi. eapply orderly_swallow; [eapply calls_orderly; eauto|reflexivity|auto|]. right. apply in_or_app. auto.
Qed.

(** ** Cookies *)
Definition cookies_ok (b : chan) (n : N) : Prop :=
  q_cookies b <= n /\ (forall id c, get b id = Some c -> k_cookie c <= q_cookies b) /\
  (forall id id' c c', get b id = Some c -> get b id' = Some c' -> k_cookie c = k_cookie c' -> k_cookie c <> 0 -> id = id').
Lemma cookies_step e b o b' n : change e b o b' -> cookies_ok b n -> n + 1 < two64 -> cookies_ok b' (n + 1).
Proof.
  intros Hc (A & B & C) Hn.
  assert (Hold : q_cookies b' = q_cookies b -> (forall id x, get b' id = Some x -> exists y, get b id = Some y /\ k_cookie x = k_cookie y) -> cookies_ok b' (n + 1)).
  { intros Hq Hx. split; [lia|]. split.
    - intros id x Hg. apply Hx in Hg as (y & Hy & ->). rewrite Hq. eauto.
    - intros id id' x x' Hg Hg' He Hz. apply Hx in Hg as (y & Hy & E). apply Hx in Hg' as (y' & Hy' & E'). apply (C id id' y y'); congruence. }
  assert (Hput : forall id c c', get b id = Some c -> k_cookie c' = k_cookie c -> forall i x, get (put b id c') i = Some x -> exists y, get b i = Some y /\ k_cookie x = k_cookie y).
  { intros id c c' Hg Hk i x Hx. apply (get_put_inv _ _ _ _ _ _ Hg) in Hx as [[-> ->]|[_ Hx]]; eauto. }
  destruct Hc as [ | b0' a Hc Hl Hk | m ck cks cb' Ha | id c Hi Hg Hs | id c Hi Hg Hs | id l c o0 Hl Hg Hs Hk Hw | id l c o0 Hl Hg Hs Hk Hw | a Hst | id l c a Hl Hg Hs].
  - apply Hold; eauto.
  - apply Hold; auto. unfold get. rewrite Hc. eauto.
  - destruct e; simpl in Ha; try contradiction.
    + destruct Ha as (_ & _ & _ & _ & Hck & Hcks).
      assert (E : next_cookie (q_cookies b) = q_cookies b + 1).
      { unfold next_cookie. unfold wrap64. rewrite N.mod_small by (unfold two64 in *; lia). destruct (N.eqb_spec (q_cookies b + 1) 0); lia. }
      rewrite E in Hck. subst cks ck. split; [simpl; lia|]. split.
      * intros id c Hg. simpl. apply get_link_inv in Hg as [Hg|[-> ->]]; [|simpl; lia]. apply B in Hg. lia.
      * intros id id' c c' Hg Hg' He Hz. apply get_link_inv in Hg as [Hg|[-> ->]]; apply get_link_inv in Hg' as [Hg'|[-> ->]]; auto; eauto; simpl in He.
        -- apply B in Hg. lia.
        -- apply B in Hg'. lia.
    + destruct Ha as (-> & -> & ->). split; [simpl; lia|]. split.
      * intros id c Hg. simpl. apply get_link_inv in Hg as [Hg|[-> ->]]; [|simpl; lia]. apply B in Hg. lia.
      * intros id id' c c' Hg Hg' He Hz. apply get_link_inv in Hg as [Hg|[-> ->]]; apply get_link_inv in Hg' as [Hg'|[-> ->]]; auto; eauto; simpl in *; congruence.
  - apply Hold; auto. apply Hput with c; auto.
  - apply Hold; auto. intros i x. rewrite get_unlink by auto. destruct (Nat.eqb_spec i id) as [->|]; [|eauto]. intros H. injection H as <-. eauto.
  - apply Hold; auto. apply Hput with c; auto.
  - apply Hold; auto. intros i x. rewrite get_unlink_sent by auto. destruct (Nat.eqb_spec i id) as [->|]; [|eauto]. intros H. injection H as <-. eauto.
  - apply Hold; eauto.
  - apply Hold; auto. intros i x. rewrite get_unlink by auto. destruct (Nat.eqb_spec i id) as [->|]; [|eauto]. intros H. injection H as <-. eauto.
Qed.
Lemma cookies_run es : forall b b' o n, cookies_ok b n -> n + lenN es < two64 -> sorted_q b -> run b es = (b', o) -> cookies_ok b' (n + lenN es) /\ sorted_q b'.
Proof.
  induction es as [|e es IH]; intros b b' o n Hk Hn Hs Hr; simpl in Hr; [injection Hr as <- _; rewrite lenN_nil, N.add_0_r; auto|].
  destruct (step b e) as [b1 o1] eqn:E1, (run b1 es) as [b2 o2] eqn:E2. injection Hr as <- _. rewrite lenN_cons in *. apply step_change in E1.
  replace (n + (1 + lenN es)) with (n + 1 + lenN es) in * by lia.
  apply (IH b1 b2 o2); auto; [|apply (change_sorted _ _ _ _ E1 Hs)]. apply (cookies_step _ _ _ _ _ E1 Hk). lia.
Qed.
Lemma cancel_hits es server b o id c : run (chan_open server) es = (b, o) -> lenN es < two64 -> In id (q_list b) -> get b id = Some c -> k_cookie c <> 0 ->
  exists b', step b (ECancel (k_cookie c)) = (b', [Cancelled id]).
Proof.
  intros Hr Hn Hi Hg Hz. destruct (cookies_run es (chan_open server) b o 0) as [(A & B & C) Hs]; auto.
  - split; [simpl; lia|]. split; intros i x Hx; destruct i; discriminate.
  - split; constructor.
  - assert (Hf : forall l, In id l -> find_cookie b l (k_cookie c) = Some id).
    { induction l as [|x l IH]; intros Hx; [contradiction|]. simpl. destruct (get b x) as [cx|] eqn:Ex.
      - destruct (N.eqb_spec (k_cookie cx) (k_cookie c)) as [He|He]; [f_equal; apply (C x id cx c); congruence|].
        destruct Hx as [->|Hx]; [congruence|auto].
      - destruct Hx as [->|Hx]; [congruence|auto]. }
    simpl. unfold cancel. destruct (N.eqb_spec (k_cookie c) 0); [contradiction|]. rewrite (Hf _ Hi), Hg. eauto.
Qed.

(** ** After the end *)
Lemma hup_dead b b' o : q_dead b = false -> hup b = (b', o) -> q_dead b' = true /\ o = [Forward None].
Proof. unfold hup. intros ->. intros H. injection H as <- <-. auto. Qed.
Lemma dead_put b id c : q_dead (put b id c) = q_dead b. Proof. reflexivity. Qed.
Lemma dead_steps b e b' o : step b e = (b', o) -> q_dead b = true -> q_dead b' = true /\ Forall is_cancelled o.
Proof.
  intros H D. destruct e; simpl in H.
  - unfold call_async in H. destruct (_ || _); [injection H as <- <-; auto|]. destruct (wseal _) as [m' [x|]]; injection H as <- <-; auto.
  - unfold send in H. destruct (_ && _); [injection H as <- <-; auto|]. destruct (wseal _) as [m' [x|]]; injection H as <- <-; auto.
  - unfold cancel in H. destruct (cookie =? 0); [injection H as <- <-; auto|]. destruct (find_cookie _ _ _) as [id|]; [|injection H as <- <-; auto].
    destruct (get b id) as [c|]; [|injection H as <- <-; auto]. destruct (k_sent c); injection H as <- <-; (split; [exact D|]); constructor; simpl; auto.
  - rewrite D in H. injection H as <- <-. auto.
  - rewrite D in H. injection H as <- <-. auto.
  - rewrite D in H. injection H as <- <-. auto.
  - unfold hup in H. rewrite D in H. injection H as <- <-. auto.
Qed.
Lemma dead_runs es : forall b b' o, run b es = (b', o) -> q_dead b = true -> q_dead b' = true /\ Forall is_cancelled o.
Proof.
  induction es as [|e es IH]; intros b b' o; simpl; [intros H; injection H as <- <-; auto|].
  destruct (step b e) as [b1 o1] eqn:E. destruct (run b1 es) as [b2 o2] eqn:R. intros H D. injection H as <- <-.
  destruct (dead_steps _ _ _ _ E D) as (D1 & F1). destruct (IH _ _ _ R D1) as (D2 & F2). split; [exact D2|]. apply Forall_app. auto.
Qed.
(** A step that does not end the channel says nothing of its end. *)
Lemma open_step b e b' o : step b e = (b', o) -> q_dead b = false ->
  q_dead b' = false /\ ~ In (Forward None) o /\ e <> EHup \/ q_dead b' = true /\ o = [Forward None].
Proof.
  intros H D. destruct e; simpl in H.
  - left. unfold call_async in H. destruct (_ || _); [injection H as <- <-; repeat split; auto; discriminate|]. destruct (wseal _) as [m' [x|]]; injection H as <- <-; repeat split; auto; discriminate.
  - left. unfold send in H. destruct (_ && _); [injection H as <- <-; repeat split; auto; discriminate|]. destruct (wseal _) as [m' [x|]]; injection H as <- <-; repeat split; auto; discriminate.
  - left. unfold cancel in H. destruct (cookie =? 0); [injection H as <- <-; repeat split; auto; discriminate|]. destruct (find_cookie _ _ _) as [id|]; [|injection H as <- <-; repeat split; auto; discriminate].
    destruct (get b id) as [c|]; [|injection H as <- <-; repeat split; auto; discriminate].
    destruct (k_sent c); injection H as <- <-; (split; [exact D|]); (split; [|discriminate]); intros [X|[]]; discriminate.
  - left. rewrite D in H. unfold write in H. destruct (q_list b) as [|id l]; [injection H as <- <-; repeat split; auto; discriminate|].
    destruct (get b id) as [c|]; [|injection H as <- <-; repeat split; auto; discriminate]. destruct (k_sent c); [injection H as <- <-; repeat split; auto; discriminate|].
    destruct (w_rawlen (k_msg c) =? 0); [|destruct r; try (injection H as <- <-; repeat split; auto; discriminate)];
      (destruct (k_cookie (k_set_sent c) =? 0); injection H as <- <-; (split; [exact D|]); (split; [|discriminate]); cbn [In]; intros X; repeat (destruct X as [X|X]; [discriminate|]); exact X).
  - left. rewrite D in H. unfold read in H. destruct (w_type a); try (injection H as <- <-; (split; [exact D|]); (split; [|discriminate]); intros [X|[]]; discriminate).
    destruct (q_list b) as [|id l]; [injection H as <- <-; (split; [exact D|]); (split; [|discriminate]); intros [X|[]]; discriminate|].
    destruct (get b id) as [c|]; [|injection H as <- <-; (split; [exact D|]); (split; [|discriminate]); intros [X|[]]; discriminate].
    destruct (k_sent c); injection H as <- <-; (split; [exact D|]); (split; [|discriminate]); [|intros [X|[]]; discriminate].
    destruct (k_removed c || negb (k_cb c)); cbn [In]; intros X; repeat (destruct X as [X|X]; [discriminate|]); exact X.
  - rewrite D in H. unfold timer in H. destruct (q_list b); [left; injection H as <- <-; repeat split; auto; discriminate|].
    right. exact (hup_dead _ _ _ D H).
  - right. exact (hup_dead _ _ _ D H).
Qed.
Lemma end_run es : forall b b' o, run b es = (b', o) -> q_dead b = false ->
  ~ In EHup es /\ ~ In (Forward None) o \/ exists l1 l2, o = l1 ++ Forward None :: l2 /\ ~ In (Forward None) l1 /\ Forall is_cancelled l2.
Proof.
  induction es as [|e es IH]; intros b b' o; simpl; [intros H; injection H as <- <-; auto|].
  destruct (step b e) as [b1 o1] eqn:E. destruct (run b1 es) as [b2 o2] eqn:R. intros H D. injection H as <- <-.
  destruct (open_step _ _ _ _ E D) as [(D1 & N1 & X)|(D1 & ->)].
  - destruct (IH _ _ _ R D1) as [(A & B)|(l1 & l2 & -> & A & B)].
    + left. split; [intros [K|K]; [congruence|auto]|]. rewrite in_app_iff. tauto.
    + right. exists (o1 ++ l1), l2. rewrite <- app_assoc. split; [reflexivity|]. split; [rewrite in_app_iff; tauto|exact B].
  - right. exists [], o2. split; [reflexivity|]. split; [auto|]. apply (dead_runs _ _ _ _ R D1).
Qed.
Lemma not_cancelled l : Forall is_cancelled l -> ~ In (Forward None) l.
Proof. intros F I. rewrite Forall_forall in F. exact (F _ I). Qed.
Lemma end_told es server b o : run (chan_open server) es = (b, o) ->
  (In EHup es -> In (Forward None) o) /\ (forall l1 l2, o = l1 ++ Forward None :: l2 -> ~ In (Forward None) l1 /\ Forall is_cancelled l2).
Proof.
  intros R. destruct (end_run _ _ _ _ R eq_refl) as [(A & B)|(l1 & l2 & -> & A & B)].
  - split; [tauto|]. intros l1 l2 ->. exfalso. apply B. rewrite in_app_iff. right. now left.
  - split; [intros _; rewrite in_app_iff; right; now left|]. intros k1 k2 K.
    assert (U : forall k l : list obs, k ++ Forward None :: k2 = l ++ Forward None :: l2 -> ~ In (Forward None) l -> Forall is_cancelled l2 -> k = l /\ k2 = l2).
    { induction k as [|x k IHk]; intros [|y l] H N F; simpl in H.
      - injection H as H. auto.
      - injection H as H1 H2. exfalso. apply N. now left.
      - injection H as H1 H2. exfalso. apply (not_cancelled _ F). rewrite <- H2, in_app_iff. right. now left.
      - injection H as -> H2. destruct (IHk l H2) as (-> & ->); auto. intros I. apply N. now right. }
    destruct (U k1 l1) as (-> & ->); auto.
Qed.
