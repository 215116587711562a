From Coq Require Import String.
From Verif Require Import Base Text WpasSock_Model WpasSock_Spec.
From Verif Require Import Cli_Proofs Log_Proofs.
Local Open Scope list_scope.
Local Open Scope N_scope.

(** ** Tables *)
Lemma lookup_remove {A} p q (l : list (list byte * A)) : lookup q (remove p l) = if str_eq p q then None else lookup q l.
Proof.
  induction l as [|(r, n) l IH]; cbn [remove filter lookup fst].
  - now destruct (str_eq p q).
  - fold (@remove A p l). destruct (str_eq r p) eqn:E; cbn [negb].
    + apply str_eq_spec in E. subst r. rewrite IH. destruct (str_eq p q) eqn:F; [reflexivity|]. reflexivity.
    + cbn [lookup]. destruct (str_eq r q) eqn:F; [|exact IH]. destruct (str_eq p q) eqn:G; [|reflexivity].
      apply str_eq_spec in F, G. subst. rewrite str_eq_refl in E. discriminate.
Qed.
Lemma lookup_cons {A} p q (n : A) l : lookup q ((p, n) :: l) = if str_eq p q then Some n else lookup q l.
Proof. reflexivity. Qed.

(** ** Names *)
Lemma dec_digits n : forallb Log_Spec.is_digit (dec n) = true. Proof. apply dec_val. Qed.
Lemma dec_inj a b : dec a = dec b -> a = b.
Proof. intros E. rewrite <- (proj1 (dec_val a)), <- (proj1 (dec_val b)). now rewrite E. Qed.
Lemma split_dash a b x y : forallb Log_Spec.is_digit a = true -> forallb Log_Spec.is_digit b = true -> a ++ 45 :: x = b ++ 45 :: y -> a = b /\ x = y.
Proof.
  revert b. induction a as [|c a IH]; intros [|d b] Ha Hb E; cbn [app] in E.
  - injection E as ->. auto.
  - injection E as <- _. discriminate Hb.
  - injection E as -> _. discriminate Ha.
  - injection E as -> E. cbn [forallb] in Ha, Hb. apply andb_true_iff in Ha, Hb. destruct (IH b (proj2 Ha) (proj2 Hb) E) as (-> & ->). auto.
Qed.
Definition full_name (pid n : N) : list byte := text "/tmp/.miracle-wpas-" ++ dec pid ++ [45] ++ dec n.
Lemma name_full pid n : pid < 2 ^ 32 -> n < 2 ^ 64 -> client_name pid n = full_name pid n /\ lenN (full_name pid n) <= 50.
Proof.
  intros Hp Hn. assert (L1 : lenN (dec pid) <= 10). { apply dec_len; [|lia]. eapply N.lt_trans; [exact Hp|reflexivity]. }
  assert (L2 : lenN (dec n) <= 20). { apply dec_len; [|lia]. eapply N.lt_trans; [exact Hn|reflexivity]. }
  assert (L : lenN (full_name pid n) <= 50). { unfold full_name. rewrite !lenN_app. change (lenN (text "/tmp/.miracle-wpas-")) with 19. change (lenN [45]) with 1. lia. }
  split; [|exact L]. unfold client_name. apply takeN_all. change (SUN - 2) with 106. change (lenN (full_name pid n) <= 106). lia.
Qed.
Lemma name_inj pid n m : pid < 2 ^ 32 -> n < 2 ^ 64 -> m < 2 ^ 64 -> client_name pid n = client_name pid m -> n = m.
Proof.
  intros Hp Hn Hm E. rewrite (proj1 (name_full pid n Hp Hn)), (proj1 (name_full pid m Hp Hm)) in E. apply app_inv_head in E.
  destruct (split_dash (dec pid) (dec pid) (dec n) (dec m) (dec_digits _) (dec_digits _) E) as (_ & F). now apply dec_inj.
Qed.
Lemma name_other_pid p q n m : p < 2 ^ 32 -> q < 2 ^ 32 -> n < 2 ^ 64 -> m < 2 ^ 64 -> client_name p n = client_name q m -> p = q /\ n = m.
Proof.
  intros Hp Hq Hn Hm E. rewrite (proj1 (name_full p n Hp Hn)), (proj1 (name_full q m Hq Hm)) in E. apply app_inv_head in E.
  destruct (split_dash (dec p) (dec q) (dec n) (dec m) (dec_digits _) (dec_digits _) E) as (F & G). split; now apply dec_inj.
Qed.
Lemma cstr_pad l k : is_text l -> cstr (l ++ repeat 0 k) = l.
Proof.
  unfold is_text. induction l as [|x l IH]; intros H; cbn [app]; [now destruct k|]. cbn [cstr]. destruct x as [|x]; [destruct H; now left|].
  rewrite IH; [reflexivity|]. intros I. apply H. now right.
Qed.
Lemma cstr_text l : is_text l -> cstr l = l.
Proof. intros H. rewrite <- (app_nil_r l) at 1. apply (cstr_pad l 0 H). Qed.
Lemma full_text pid n : is_text (full_name pid n).
Proof.
  unfold is_text, full_name. rewrite !in_app_iff. intros [H|[H|[H|H]]].
  - vm_compute in H. repeat (destruct H as [H|H]; [discriminate|]). exact H.
  - revert H. apply digit_not; [apply dec_digits|reflexivity].
  - destruct H as [H|[]]. discriminate.
  - revert H. apply digit_not; [apply dec_digits|reflexivity].
Qed.
Lemma place_name pid n : pid < 2 ^ 32 -> n < 2 ^ 64 -> place_of (mkAddr AF_UNIX (strncpy SUN (client_name pid n))) = Some (AtPath (client_name pid n)).
Proof.
  intros Hp Hn. destruct (name_full pid n Hp Hn) as (E & L). rewrite E. unfold place_of, strncpy. cbn [a_fam a_path]. rewrite takeN_all by (unfold SUN; lia).
  assert (C := cstr_pad _ (N.to_nat (SUN - lenN (full_name pid n))) (full_text pid n)). unfold full_name in C at 1 3. change (text "/tmp/.miracle-wpas-") with (47 :: text "tmp/.miracle-wpas-") in C.
  unfold full_name at 1. change (text "/tmp/.miracle-wpas-") with (47 :: text "tmp/.miracle-wpas-"). rewrite N.eqb_refl. cbn [app] in *. f_equal. f_equal. exact C.
Qed.

(** ** Clients *)
Lemma unlink_files w p q : lookup q (x_files (k_unlink w p)) = lookup q (x_files w) \/ (q = p /\ lookup q (x_files (k_unlink w p)) = None).
Proof.
  unfold k_unlink. destruct (lookup p (x_files w)) as [n|] eqn:E; [|now left]. destruct (match n with NSock _ true => true | _ => x_rm w p end); [|now left].
  cbn [x_files]. rewrite lookup_remove. destruct (str_eq p q) eqn:F; [right|now left]. apply str_eq_spec in F. auto.
Qed.
Lemma unlink_next w p : x_next (k_unlink w p) = x_next w.
Proof. unfold k_unlink. destruct (lookup p (x_files w)) as [n|]; [|reflexivity]. now destruct (match n with NSock _ true => true | _ => x_rm w p end). Qed.
Lemma unlink_ours w p id q : lookup p (x_files w) = Some (NSock id true) -> lookup q (x_files (k_unlink w p)) = if str_eq p q then None else lookup q (x_files w).
Proof. intros E. unfold k_unlink. rewrite E. cbn [x_files]. apply lookup_remove. Qed.
Lemma bind_path w fd a p r w1 : place_of a = Some (AtPath p) -> k_bind w fd a = (r, w1) ->
  x_next w1 = x_next w /\ (r = 0%Z /\ lookup p (x_files w) = None /\ (forall q, lookup q (x_files w1) = if str_eq p q then Some (NSock fd true) else lookup q (x_files w))
   \/ (r < 0)%Z /\ w1 = w).
Proof.
  intros P H. unfold k_bind in H. rewrite P in H. destruct (lookup p (x_files w)) eqn:E; [injection H as <- <-; split; [reflexivity|right]; split; [reflexivity|reflexivity]|].
  destruct (x_mk w p) as [e|]; injection H as <- <-; (split; [reflexivity|]); [right; split; [lia|reflexivity]|left]. auto.
Qed.
Definition differs_at (p : list byte) (w w1 : world) : Prop := forall q, lookup q (x_files w1) = lookup q (x_files w) \/ (q = p /\ lookup q (x_files w1) = None).
Lemma bind_client_spec w fd pid n r w1 : pid < 2 ^ 32 -> n < 2 ^ 64 -> bind_client w fd pid n = (r, w1) ->
  x_next w1 = x_next w /\ (r = 0%Z /\ (forall q, lookup q (x_files w1) = if str_eq (client_name pid n) q then Some (NSock fd true) else lookup q (x_files w))
   \/ (r < 0)%Z /\ differs_at (client_name pid n) w w1).
Proof.
  intros Hp Hn H. assert (P := place_name pid n Hp Hn). unfold bind_client in H. set (a := mkAddr AF_UNIX (strncpy SUN (client_name pid n))) in *. clearbody a.
  set (p := client_name pid n) in *. clearbody p. destruct (k_bind w fd a) as [r0 w0] eqn:B. destruct (bind_path _ _ _ _ _ _ P B) as (X & C).
  destruct C as [(-> & _ & F)|(Hr & ->)].
  - change (0 =? - EADDRINUSE)%Z with false in H. injection H as <- <-. split; [exact X|]. left. auto.
  - destruct (r0 =? - EADDRINUSE)%Z.
    + destruct (bind_path _ _ _ _ _ _ P H) as (X' & C). rewrite unlink_next in X'. split; [exact X'|]. destruct C as [(-> & _ & F)|(Hr' & ->)].
      * left. split; [reflexivity|]. intros q. rewrite F. destruct (str_eq p q) eqn:S; [reflexivity|]. destruct (unlink_files w p q) as [->|(-> & _)]; [reflexivity|].
        rewrite str_eq_refl in S. discriminate.
      * right. split; [exact Hr'|]. intros q. apply unlink_files.
    + injection H as <- <-. split; [reflexivity|]. right. split; [exact Hr|]. intros q. now left.
Qed.
Lemma ctr_step n : n + 1 < 2 ^ 64 -> (n + 1) mod 2 ^ 64 = n + 1.
Proof. intros H. now apply N.mod_small. Qed.
Lemma open_spec w so pid n path o w1 n1 : pid < 2 ^ 32 -> n + 1 < 2 ^ 64 -> open_client w so pid n path = (o, w1, n1) ->
  (exists r, o = Failed r /\ so = false /\ w1 = w /\ n1 = n) \/
  (so = true /\ n1 = n + 1 /\ x_next w1 = x_next w + 1 /\
   ((o = Opened (x_next w) (client_name pid (n + 1)) /\ forall q, lookup q (x_files w1) = if str_eq (client_name pid (n + 1)) q then Some (NSock (x_next w) true) else lookup q (x_files w))
    \/ (exists r, o = Failed r) /\ differs_at (client_name pid (n + 1)) w w1)).
Proof.
  intros Hp Hn H. unfold open_client in H. destruct so; cbn [negb] in H; [right|injection H as <- <- <-; left; eauto]. cbn [k_socket] in H. rewrite (ctr_step n Hn) in H.
  set (w0 := mkWorld (x_files w) (x_names w) (mkSock (x_next w) true true :: x_socks w) (x_next w + 1) (x_mk w) (x_rm w)) in *.
  destruct (bind_client w0 (x_next w) pid (n + 1)) as [r w2] eqn:B. destruct (bind_client_spec _ _ _ _ _ _ Hp Hn B) as (X & C).
  assert (D : forall w3, x_next w3 = x_next w0 -> (forall q, lookup q (x_files w3) = lookup q (x_files w0) \/ (q = client_name pid (n + 1) /\ (lookup q (x_files w3) = None \/ lookup q (x_files w3) = Some (NSock (x_next w) true)))) ->
    x_next (k_close (k_unlink w3 (client_name pid (n + 1))) (x_next w)) = x_next w + 1 /\ differs_at (client_name pid (n + 1)) w (k_close (k_unlink w3 (client_name pid (n + 1))) (x_next w))).
  { intros w3 X3 F3. split; [change (x_next (k_unlink w3 (client_name pid (n + 1))) = x_next w + 1); now rewrite unlink_next, X3|].
    intros q. change (x_files (k_close (k_unlink w3 (client_name pid (n + 1))) (x_next w))) with (x_files (k_unlink w3 (client_name pid (n + 1)))).
    destruct (unlink_files w3 (client_name pid (n + 1)) q) as [E|E]; [|now right]. destruct (F3 q) as [G|(-> & [G|G])]; [left; rewrite E, G; reflexivity| |].
    - right. split; [reflexivity|]. now rewrite E.
    - rewrite (unlink_ours _ _ _ _ G), str_eq_refl in *. right. auto. }
  destruct (Z.ltb_spec r 0) as [L|L].
  - injection H as <- <- <-. destruct C as [(-> & _)|(_ & C)]; [lia|]. destruct (D w2 X) as (D1 & D2).
    { intros q. destruct (C q) as [G|(-> & G)]; [now left|]. right. split; [reflexivity|]. now left. }
    repeat (split; [first [reflexivity | exact D1]|]). right. split; [eauto|exact D2].
  - destruct C as [(-> & F)|(Hr & _)]; [|lia]. destruct (Z.ltb_spec (connect_client w2 path) 0) as [L'|L'].
    + injection H as <- <- <-. destruct (D w2 X) as (D1 & D2).
      { intros q. rewrite F. destruct (str_eq (client_name pid (n + 1)) q) eqn:S; [|now left]. apply str_eq_spec in S. subst q. right. auto. }
      repeat (split; [first [reflexivity | exact D1]|]). right. split; [eauto|exact D2].
    + injection H as <- <- <-. split; [reflexivity|]. split; [reflexivity|]. split; [exact X|]. left. split; [reflexivity|exact F].
Qed.

Record inv (pid : N) (w : world) (c : proc) : Prop := mkInv {
  v_ctr : c_ctr c < 2 ^ 64;
  v_ids : start w;
  v_ever : forall id, In id (c_ever c) -> id < x_next w;
  v_has : forall fd name, In (fd, name) (c_buses c) -> lookup name (x_files w) = Some (NSock fd true) /\ In fd (c_ever c) /\ exists n, n <= c_ctr c /\ name = client_name pid n;
  v_nodup : NoDup (map snd (c_buses c));
  v_only : forall q id o, In id (c_ever c) -> lookup q (x_files w) = Some (NSock id o) -> In (id, q) (c_buses c) }.
Lemma inv_fresh pid w : start w -> inv pid w fresh_proc.
Proof. intros S. constructor; cbn [fresh_proc c_ctr c_buses c_ever map]; auto; try easy; constructor. Qed.
Lemma not_used pid w c name : pid < 2 ^ 32 -> inv pid w c -> c_ctr c + 1 < 2 ^ 64 -> forall fd, In (fd, name) (c_buses c) -> client_name pid (c_ctr c + 1) <> name.
Proof.
  intros Hp I H fd J E. destruct (v_has _ _ _ I _ _ J) as (_ & _ & n & L & ->). apply name_inj in E; try assumption; [|lia]. lia.
Qed.
Lemma inv_fail pid w c w1 e : pid < 2 ^ 32 -> inv pid w c -> c_ctr c + 1 < 2 ^ 64 -> x_next w1 = x_next w + 1 -> differs_at (client_name pid (c_ctr c + 1)) w w1 ->
  e = x_next w :: c_ever c -> inv pid w1 (mkProc (c_ctr c + 1) (c_buses c) e).
Proof.
  intros Hp I H X D ->. constructor; cbn [c_ctr c_buses c_ever].
  - exact H.
  - intros q id o E. destruct (D q) as [G|(_ & G)]; [rewrite G in E|congruence]. apply (v_ids _ _ _ I) in E. lia.
  - intros id [<-|J]; [lia|]. apply (v_ever _ _ _ I) in J. lia.
  - intros fd name J. destruct (v_has _ _ _ I _ _ J) as (A & B & n & L & E). split.
    + destruct (D name) as [G|(G & _)]; [now rewrite G|]. symmetry in G. now apply (not_used _ _ _ _ Hp I H fd J) in G.
    + split; [now right|]. exists n. split; [lia|exact E].
  - apply (v_nodup _ _ _ I).
  - intros q id o J E. destruct (D q) as [G|(_ & G)]; [rewrite G in E|congruence]. destruct J as [<-|J]; [apply (v_ids _ _ _ I) in E; lia|]. now apply (v_only _ _ _ I q id o).
Qed.
Lemma inv_open pid w c w1 : pid < 2 ^ 32 -> inv pid w c -> c_ctr c + 1 < 2 ^ 64 -> x_next w1 = x_next w + 1 ->
  (forall q, lookup q (x_files w1) = if str_eq (client_name pid (c_ctr c + 1)) q then Some (NSock (x_next w) true) else lookup q (x_files w)) ->
  inv pid w1 (mkProc (c_ctr c + 1) ((x_next w, client_name pid (c_ctr c + 1)) :: c_buses c) (x_next w :: c_ever c)).
Proof.
  intros Hp I H X D. constructor; cbn [c_ctr c_buses c_ever].
  - exact H.
  - intros q id o E. rewrite D in E. destruct (str_eq _ q); [injection E as <- _; lia|]. apply (v_ids _ _ _ I) in E. lia.
  - intros id [<-|J]; [lia|]. apply (v_ever _ _ _ I) in J. lia.
  - intros fd name [J|J].
    + injection J as <- <-. rewrite D, str_eq_refl. split; [reflexivity|]. split; [now left|]. exists (c_ctr c + 1). split; [lia|reflexivity].
    + destruct (v_has _ _ _ I _ _ J) as (A & B & n & L & E). split.
      * rewrite D. assert (Nq := not_used _ _ _ _ Hp I H fd J). apply str_eq_false in Nq. now rewrite Nq.
      * split; [now right|]. exists n. split; [lia|exact E].
  - cbn [map snd]. constructor; [|apply (v_nodup _ _ _ I)]. intros J. apply in_map_iff in J. destruct J as ((fd, name) & E & J). cbn [snd] in E. subst name.
    now apply (not_used _ _ _ _ Hp I H fd J).
  - intros q id o J E. rewrite D in E. destruct (str_eq (client_name pid (c_ctr c + 1)) q) eqn:S.
    + apply str_eq_spec in S. subst q. injection E as <- _. now left.
    + right. destruct J as [<-|J]; [apply (v_ids _ _ _ I) in E; lia|]. now apply (v_only _ _ _ I q id o).
Qed.
Lemma inv_close pid w c fd name l1 l2 : pid < 2 ^ 32 -> inv pid w c -> c_buses c = l1 ++ (fd, name) :: l2 -> inv pid (close_bus w fd name) (mkProc (c_ctr c) (l1 ++ l2) (c_ever c)).
Proof.
  intros Hp I E. assert (J : In (fd, name) (c_buses c)) by (rewrite E, in_app_iff; right; now left). destruct (v_has _ _ _ I _ _ J) as (A & B & n & L & Hn).
  assert (Z0 : name <> []). { rewrite Hn, (proj1 (name_full pid n Hp ltac:(assert (T := v_ctr _ _ _ I); lia))). discriminate. }
  assert (C : close_bus w fd name = k_unlink (k_close w fd) name) by (unfold close_bus; now destruct name).
  assert (F : forall q, lookup q (x_files (close_bus w fd name)) = if str_eq name q then None else lookup q (x_files w)).
  { intros q. rewrite C. apply (unlink_ours (k_close w fd) name fd). exact A. }
  assert (X : x_next (close_bus w fd name) = x_next w) by (rewrite C; apply (unlink_next (k_close w fd))).
  assert (Nd := v_nodup _ _ _ I). rewrite E, map_app in Nd. cbn [map snd] in Nd.
  assert (O : forall f q, In (f, q) (l1 ++ l2) -> In (f, q) (c_buses c) /\ q <> name).
  { intros f q K. split; [rewrite E, in_app_iff in *; destruct K; [now left|right; now right]|]. intros ->. apply NoDup_remove_2 in Nd. apply Nd.
    rewrite <- map_app, in_map_iff. exists (f, name). auto. }
  constructor; cbn [c_ctr c_buses c_ever].
  - apply (v_ctr _ _ _ I).
  - intros q id o G. rewrite F in G. rewrite X. destruct (str_eq name q); [discriminate|]. now apply (v_ids _ _ _ I q id o).
  - rewrite X. apply (v_ever _ _ _ I).
  - intros f q K. destruct (O f q K) as (K1 & K2). rewrite F. apply not_eq_sym, str_eq_false in K2. rewrite K2. apply (v_has _ _ _ I _ _ K1).
  - rewrite map_app. now apply NoDup_remove_1 in Nd.
  - intros q id o K G. rewrite F in G. destruct (str_eq name q) eqn:S; [discriminate|]. apply str_eq_false in S. assert (M := v_only _ _ _ I q id o K G).
    rewrite E, in_app_iff in M. rewrite in_app_iff. destruct M as [M|[M|M]]; [now left| |now right]. injection M as _ <-. now destruct S.
Qed.
Lemma inv_others pid w c w' : pid < 2 ^ 32 -> inv pid w c -> others pid c w w' -> inv pid w' c.
Proof.
  intros Hp I (O1 & O2 & O3 & O4). constructor.
  - apply (v_ctr _ _ _ I).
  - exact O3.
  - intros id J. apply (v_ever _ _ _ I) in J. lia.
  - intros fd name J. destruct (v_has _ _ _ I _ _ J) as (A & B & n & L & ->). rewrite O1. eauto.
  - apply (v_nodup _ _ _ I).
  - intros q id o J E. apply (v_only _ _ _ I q id o J). now apply O2.
Qed.
Lemma inv_step pid s s' : pid < 2 ^ 32 -> inv pid (fst s) (snd s) -> step pid s s' -> inv pid (fst s') (snd s').
Proof.
  intros Hp I T. destruct T as [w c so path fd name w' n H O|w c so path r w' n H O|w c fd name l1 l2 E|w c w' O]; cbn [fst snd] in *.
  - destruct (open_spec _ _ _ _ _ _ _ _ Hp H O) as [(r & E & _)|(_ & -> & X & [(E & D)|((r & E) & _)])]; try discriminate. injection E as -> ->. now apply inv_open.
  - destruct (open_spec _ _ _ _ _ _ _ _ Hp H O) as [(r' & _ & -> & -> & ->)|(-> & -> & X & [(E & _)|(_ & D)])]; try discriminate; [now destruct c|].
    now apply (inv_fail pid w c w' _ Hp I H X D).
  - now apply inv_close.
  - now apply inv_others with w.
Qed.
Lemma inv_steps pid s s' : pid < 2 ^ 32 -> inv pid (fst s) (snd s) -> steps pid s s' -> inv pid (fst s') (snd s').
Proof. intros Hp I T. induction T as [s|s s' s'' T IH T']; [exact I|]. apply (inv_step pid s' s'' Hp); auto. Qed.
Theorem clients_files pid w w' c : pid < 2 ^ 32 -> start w -> steps pid (w, fresh_proc) (w', c) ->
  NoDup (map snd (c_buses c)) /\
  (forall fd name, In (fd, name) (c_buses c) -> lookup name (x_files w') = Some (NSock fd true)) /\
  (forall q id o, In id (c_ever c) -> lookup q (x_files w') = Some (NSock id o) -> In (id, q) (c_buses c)).
Proof.
  intros Hp S T. assert (I := inv_steps pid (w, fresh_proc) (w', c) Hp (inv_fresh pid w S) T). cbn [fst snd] in I. split; [apply (v_nodup _ _ _ I)|].
  split; [intros fd name J; apply (v_has _ _ _ I _ _ J)|apply (v_only _ _ _ I)].
Qed.
