(** Connecting to peers: what is known of peers. *)
From Coq Require Import String.
From Verif Require Import Base Text Comm_Model Comm_Spec Comm_Proofs Prov_Model Prov_Spec.
From Verif Require Cli_Proofs.
Local Open Scope list_scope.

Record good (s : st) : Prop := mkGood {
  g_ids : NoDup (map p_id (s_peers s));
  g_lt : Forall (fun p => p_id p < s_next s) (s_peers s);
  g_macs : NoDup (map p_mac (s_peers s));
  g_canon : Forall (fun p => address (p_mac p)) (s_peers s);
  g_pub : Forall (fun p => p_public p = s_run s) (s_peers s);
  g_pin : Forall (fun p => p_prov p = None -> p_pin p = None) (s_peers s);
  g_pend : forall id, s_pending s = Some id -> In id (map p_id (s_peers s));
  g_run : s_pending s <> None -> s_run s = true }.
Definition alike (p q : peer) : Prop := p_id q = p_id p /\ p_mac q = p_mac p /\ p_public q = p_public p /\ (p_prov q = None -> p_pin q = None).

Lemma good_init : good init.
Proof. constructor; cbn; try constructor; try discriminate. congruence. Qed.
Lemma named_some s mac p : named s mac = Some p -> In p (s_peers s) /\ p_mac p = mac.
Proof. intros H. apply find_some in H. destruct H as [H E]. apply Cli_Proofs.str_eq_spec in E. auto. Qed.
Lemma named_none s mac : named s mac = None -> ~ In mac (map p_mac (s_peers s)).
Proof.
  intros H Hin. apply in_map_iff in Hin. destruct Hin as (p & E & Hin). pose proof (find_none _ _ H _ Hin) as Hn. cbn beta in Hn.
  rewrite <- E, Cli_Proofs.str_eq_refl in Hn. discriminate.
Qed.
Lemma in_uniq {A B} (f : A -> B) l x y : NoDup (map f l) -> In x l -> In y l -> f x = f y -> x = y.
Proof.
  induction l as [|a l IH]; cbn [map In]; [tauto|]. intros H Hx Hy E. inversion H as [|? ? Hn Hd]; subst.
  destruct Hx as [-> | Hx], Hy as [-> | Hy]; auto.
  - exfalso. apply Hn. rewrite E. now apply in_map.
  - exfalso. apply Hn. rewrite <- E. now apply in_map.
Qed.
Lemma named_in s p : good s -> In p (s_peers s) -> named s (p_mac p) = Some p.
Proof.
  intros G Hin. destruct (named s (p_mac p)) as [q|] eqn:E.
  - apply named_some in E. destruct E as [Hq E]. f_equal. eapply in_uniq; [apply (g_macs _ G)|exact Hq|exact Hin|exact E].
  - exfalso. apply (named_none _ _ E). now apply in_map.
Qed.
Lemma at_id_some s id p : at_id s id = Some p -> In p (s_peers s) /\ p_id p = id.
Proof. intros H. apply find_some in H. destruct H as [H E]. apply N.eqb_eq in E. auto. Qed.
Lemma at_id_in s p : good s -> In p (s_peers s) -> at_id s (p_id p) = Some p.
Proof.
  intros G Hin. destruct (at_id s (p_id p)) as [q|] eqn:E.
  - apply at_id_some in E. destruct E as [Hq E]. f_equal. eapply in_uniq; [apply (g_ids _ G)|exact Hq|exact Hin|exact E].
  - pose proof (find_none _ _ E _ Hin) as Hn. cbn beta in Hn. rewrite N.eqb_refl in Hn. discriminate.
Qed.
Lemma map_put {B} (f : peer -> B) q p l : NoDup (map p_id l) -> In p l -> p_id q = p_id p -> f q = f p -> map f (map (fun x => if p_id x =? p_id q then q else x) l) = map f l.
Proof.
  intros Hd Hin Ei Ef. rewrite map_map. apply map_ext_in. intros x Hx. destruct (p_id x =? p_id q) eqn:E; [|reflexivity]. apply N.eqb_eq in E.
  assert (x = p) by (eapply in_uniq; [exact Hd|exact Hx|exact Hin|congruence]). subst. exact Ef.
Qed.
Lemma forall_put (P : peer -> Prop) q l : P q -> Forall P l -> Forall P (map (fun x => if p_id x =? p_id q then q else x) l).
Proof. intros Hq H. induction H; cbn [map]; constructor; auto. destruct (_ =? _); assumption. Qed.
Lemma good_put s p q : good s -> In p (s_peers s) -> alike p q -> good (put q s).
Proof.
  intros G Hin (Ei & Em & Ep & En). pose proof (fun B f => @map_put B f q p (s_peers s) (g_ids _ G) Hin Ei) as M. destruct G as [G1 G2 G3 G4 G5 G6 G7 G8].
  assert (FA : forall P : peer -> Prop, Forall P (s_peers s) -> P p) by (intros P HF; rewrite Forall_forall in HF; auto).
  constructor; cbn [put with_peers s_peers s_next s_pending s_run].
  - rewrite M; auto.
  - apply forall_put; [|assumption]. rewrite Ei. exact (FA _ G2).
  - rewrite M; auto.
  - apply forall_put; [|assumption]. rewrite Em. exact (FA _ G4).
  - apply forall_put; [|assumption]. rewrite Ep. exact (FA _ G5).
  - apply forall_put; assumption.
  - rewrite M; auto.
  - assumption.
Qed.
Lemma find_put (f : peer -> bool) q p l : NoDup (map p_id l) -> In p l -> p_id q = p_id p -> (forall x y, In x l -> In y l -> f x = true -> f y = true -> x = y) -> f q = f p ->
  find f (map (fun x => if p_id x =? p_id q then q else x) l) = if f p then Some q else find f l.
Proof.
  induction l as [|a l IH]; cbn [map In find]; [tauto|]. intros Hd Hin Ei Hu Ef. inversion Hd as [|? ? Hn Hd']; subst.
  destruct (p_id a =? p_id q) eqn:E.
  - apply N.eqb_eq in E. assert (a = p) by (eapply (in_uniq p_id (a :: l)); cbn [map In]; [exact Hd|auto|exact Hin|congruence]). subst a.
    rewrite Ef. destruct (f p) eqn:Ep; [reflexivity|]. f_equal. rewrite <- (map_id l) at 2. apply map_ext_in. intros x Hx.
    destruct (p_id x =? p_id q) eqn:E2; [|reflexivity]. apply N.eqb_eq in E2. exfalso. apply Hn. rewrite E, <- E2. now apply in_map.
  - apply N.eqb_neq in E. destruct Hin as [-> | Hin]; [congruence|]. destruct (f a) eqn:Ea.
    + destruct (f p) eqn:Ep; [|reflexivity]. exfalso. assert (a = p) by (apply Hu; auto). subst. congruence.
    + rewrite IH; auto.
Qed.
Lemma named_put s p q mac : good s -> In p (s_peers s) -> alike p q -> named (put q s) mac = if str_eq (p_mac p) mac then Some q else named s mac.
Proof.
  intros G Hin (Ei & Em & Ep & En). unfold named. cbn [put with_peers s_peers].
  rewrite (find_put (fun p => str_eq (p_mac p) mac) q p); [reflexivity|apply (g_ids _ G)|exact Hin|exact Ei| |cbn beta; now rewrite Em].
  intros x y Hx Hy E1 E2. apply Cli_Proofs.str_eq_spec in E1, E2. eapply in_uniq; [apply (g_macs _ G)|exact Hx|exact Hy|congruence].
Qed.
Lemma at_id_put s p q id : good s -> In p (s_peers s) -> alike p q -> at_id (put q s) id = if p_id p =? id then Some q else at_id s id.
Proof.
  intros G Hin (Ei & Em & Ep & En). unfold at_id. cbn [put with_peers s_peers].
  rewrite (find_put (fun p => p_id p =? id) q p); [reflexivity|apply (g_ids _ G)|exact Hin|exact Ei| |cbn beta; now rewrite Ei].
  intros x y Hx Hy E1 E2. apply N.eqb_eq in E1, E2. eapply in_uniq; [apply (g_ids _ G)|exact Hx|exact Hy|congruence].
Qed.
(** Other changes. *)
Lemma good_nopend s : good s -> good (with_pending None s).
Proof. intros [G1 G2 G3 G4 G5 G6 G7 G8]. constructor; cbn [with_pending s_peers s_next s_pending s_run]; auto; congruence. Qed.
Lemma good_pend s p : good s -> In p (s_peers s) -> s_run s = true -> good (with_pending (Some (p_id p)) s).
Proof. intros [G1 G2 G3 G4 G5 G6 G7 G8] Hin Hr. constructor; cbn [with_pending s_peers s_next s_pending s_run]; auto. intros id H. injection H as <-. now apply in_map. Qed.
Lemma nodup_filter {A B} (f : A -> B) g l : NoDup (map f l) -> NoDup (map f (filter g l)).
Proof.
  induction l as [|a l IH]; cbn [map filter]; [auto|]. intros H. inversion H as [|? ? Hn Hd]; subst. destruct (g a); cbn [map]; [|auto].
  constructor; [|auto]. intros Hin. apply Hn. apply in_map_iff in Hin. destruct Hin as (x & E & Hx). apply filter_In in Hx. apply in_map_iff. exists x. tauto.
Qed.
Lemma forall_filter {A} (P : A -> Prop) g l : Forall P l -> Forall P (filter g l).
Proof. rewrite !Forall_forall. intros H x Hx. apply filter_In in Hx. apply H. tauto. Qed.
Definition without (id : N) (s : st) : st := with_peers (filter (fun q => negb (p_id q =? id)) (s_peers s)) s.
Lemma good_without s id : good s -> s_pending s <> Some id -> good (without id s).
Proof.
  intros [G1 G2 G3 G4 G5 G6 G7 G8] Hp. constructor; cbn [without with_peers s_peers s_next s_pending s_run]; auto using nodup_filter, forall_filter.
  intros j Hj. specialize (G7 j Hj). apply in_map_iff in G7. destruct G7 as (x & E & Hx). apply in_map_iff. exists x. split; [exact E|]. apply filter_In. split; [exact Hx|].
  destruct (p_id x =? id) eqn:E2; [|reflexivity]. apply N.eqb_eq in E2. congruence.
Qed.
Lemma find_filter (f g : peer -> bool) l : (forall x, In x l -> f x = true -> g x = true) -> find f (filter g l) = find f l.
Proof.
  induction l as [|a l IH]; cbn [filter find In]; [reflexivity|]. intros H. destruct (g a) eqn:E; cbn [find].
  - destruct (f a); [reflexivity|]. apply IH. intros x Hx. apply H. auto.
  - destruct (f a) eqn:Ef; [rewrite (H a) in E; auto; discriminate|]. apply IH. intros x Hx. apply H. auto.
Qed.
Lemma named_without s p mac : good s -> In p (s_peers s) -> named (without (p_id p) s) mac = if str_eq (p_mac p) mac then None else named s mac.
Proof.
  intros G Hin. destruct (str_eq (p_mac p) mac) eqn:E.
  - apply Cli_Proofs.str_eq_spec in E. destruct (named (without (p_id p) s) mac) as [q|] eqn:E2; [|reflexivity]. exfalso. apply named_some in E2. destruct E2 as [Hq E2].
    cbn [without with_peers s_peers] in Hq. apply filter_In in Hq. destruct Hq as [Hq Hn]. assert (q = p) by (eapply in_uniq; [apply (g_macs _ G)|exact Hq|exact Hin|congruence]). subst.
    rewrite N.eqb_refl in Hn. discriminate.
  - unfold named. cbn [without with_peers s_peers]. apply find_filter. intros x Hx Ex. apply Cli_Proofs.str_eq_spec in Ex. destruct (p_id x =? p_id p) eqn:E2; [|reflexivity].
    apply N.eqb_eq in E2. assert (x = p) by (eapply in_uniq; [apply (g_ids _ G)|exact Hx|exact Hin|exact E2]). subst. rewrite Cli_Proofs.str_eq_refl in E. discriminate.
Qed.
Lemma at_id_without s i id : i <> id -> at_id (without i s) id = at_id s id.
Proof.
  intros Hn. unfold at_id. cbn [without with_peers s_peers]. apply find_filter. intros x Hx Ex. apply N.eqb_eq in Ex. destruct (p_id x =? i) eqn:E2; [|reflexivity].
  apply N.eqb_eq in E2. congruence.
Qed.
Definition newcomer (s : st) (key : list byte) : peer := mkPeer (s_next s) key None None false None false (s_run s).
Definition with_new (s : st) (key : list byte) : st := mkSt (s_run s) (s_p2p s) (s_pending s) (s_peers s ++ [newcomer s key]) (s_next s + 1).
Lemma nodup_snoc {A} (l : list A) x : NoDup l -> ~ In x l -> NoDup (l ++ [x]).
Proof. intros H Hn. apply NoDup_Add with (a := x) (l := l); [|auto]. rewrite <- (app_nil_r l) at 1. apply Add_app. Qed.
Lemma good_new s key : good s -> address key -> named s key = None -> good (with_new s key).
Proof.
  intros [G1 G2 G3 G4 G5 G6 G7 G8] Ha Hn. apply named_none in Hn. constructor; cbn [with_new s_peers s_next s_pending s_run]; rewrite ?map_app; cbn [map newcomer p_id p_mac].
  - apply nodup_snoc; [assumption|]. intros Hin. apply in_map_iff in Hin. destruct Hin as (x & E & Hx). rewrite Forall_forall in G2. specialize (G2 x Hx). cbn beta in G2. lia.
  - apply Forall_app. split; [|constructor; [cbn [newcomer p_id]; lia|constructor]]. eapply Forall_impl; [|exact G2]. cbn beta. intros; lia.
  - apply nodup_snoc; assumption.
  - apply Forall_app. split; [assumption|repeat constructor; exact Ha].
  - apply Forall_app. split; [assumption|repeat constructor].
  - apply Forall_app. split; [assumption|repeat constructor].
  - intros id Hid. apply in_or_app. left. auto.
  - assumption.
Qed.
Lemma find_snoc {A} f (l : list A) x : find f (l ++ [x]) = match find f l with Some y => Some y | None => if f x then Some x else None end.
Proof. induction l as [|a l IH]; cbn [app find]; [reflexivity|]. destruct (f a); auto. Qed.
Lemma named_new s key mac : named s key = None -> named (with_new s key) mac = if str_eq key mac then Some (newcomer s key) else named s mac.
Proof.
  intros Hn. unfold named at 1. cbn [with_new s_peers]. rewrite find_snoc. cbn [newcomer p_mac]. fold (named s mac). destruct (str_eq key mac) eqn:E.
  - apply Cli_Proofs.str_eq_spec in E. subst. now rewrite Hn.
  - now destruct (named s mac).
Qed.
Lemma at_id_new s key id : good s -> id <> s_next s -> at_id (with_new s key) id = at_id s id.
Proof. intros G Hn. unfold at_id. cbn [with_new s_peers]. rewrite find_snoc. cbn [newcomer p_id]. destruct (find _ _); [reflexivity|]. destruct (s_next s =? id) eqn:E; [apply N.eqb_eq in E; congruence|reflexivity]. Qed.

(** Messages about peers. *)
Lemma address_fix t : address t -> reformat_mac t = Ok t.
Proof. intros (m & Hm & ->). rewrite <- (app_nil_r (canon m)) at 1. apply reformat_reads; [assumption|now apply canon_spelling|constructor]. Qed.
Lemma alike_refl s p : good s -> In p (s_peers s) -> alike p p.
Proof. intros G Hin. repeat split. pose proof (g_pin _ G) as H. rewrite Forall_forall in H. exact (H p Hin). Qed.
Lemma put_same s p : good s -> In p (s_peers s) -> put p s = s.
Proof.
  intros G Hin. pose proof (g_ids _ G) as GI. destruct s as [a b c ps n]. unfold put, with_peers. cbn [s_peers s_run s_p2p s_pending s_next] in *. f_equal. rewrite <- (map_id ps) at 2. apply map_ext_in. intros x Hx.
  destruct (p_id x =? p_id p) eqn:E; [|reflexivity]. apply N.eqb_eq in E. symmetry. eapply in_uniq; [exact GI|exact Hx|exact Hin|exact E].
Qed.
Lemma public_run s p : good s -> In p (s_peers s) -> p_public p = s_run s.
Proof. intros G Hin. pose proof (g_pub _ G) as H. rewrite Forall_forall in H. exact (H p Hin). Qed.
Lemma parse_spec s mac : good s -> exists s' o, parse_peer s mac = Ok (s', o) /\
  ((s' = s /\ o = [] /\ (match mac with Some a => exists key, reformat_mac a = Ok key /\ (address a -> key = a) /\ named s key <> None | None => True end)) \/
   exists a key, mac = Some a /\ reformat_mac a = Ok key /\ address key /\ named s key = None /\ s' = with_new s key /\ o = if s_run s then [Added key] else []).
Proof.
  intros G. destruct mac as [a|]; cbn [parse_peer]; [|do 2 eexists; split; [reflexivity|left; auto]].
  destruct (reformat_form a) as (m & Hm & Er). destruct (named s a) as [p|] eqn:En.
  - apply named_some in En as Hp. destruct Hp as [Hin Hp]. pose proof (public_run _ _ G Hin) as Hpub. exists s, []. split.
    + destruct (s_run s); [|reflexivity]. unfold publish. rewrite Hpub. now rewrite put_same.
    + left. repeat split. exists a. assert (Ha : address a) by (rewrite <- Hp; pose proof (g_canon _ G) as HC; rewrite Forall_forall in HC; auto). split; [now apply address_fix|]. split; [auto|congruence].
  - rewrite Er. cbn [bind]. destruct (named s (canon m)) as [p|] eqn:Ek.
    + exists s, []. split; [reflexivity|]. left. repeat split. exists (canon m). split; [reflexivity|]. split; [|congruence]. intros Ha. apply address_fix in Ha. congruence.
    + do 2 eexists. split.
      2:{ right. exists a, (canon m). split; [reflexivity|]. split; [exact Er|]. split; [now exists m|]. split; [exact Ek|]. split; reflexivity. }
      unfold with_new, newcomer. destruct (s_run s) eqn:R; cbn [s_run]; [|reflexivity].
      unfold publish. cbn [p_public]. unfold put, set_public, with_peers. cbn [p_id p_mac p_prov p_pin p_in p_sta p_conn s_peers s_run s_p2p s_pending s_next].
      rewrite map_app. cbn [map p_id]. rewrite N.eqb_refl.
      do 4 f_equal. rewrite <- (map_id (s_peers s)) at 2. apply map_ext_in. intros x Hx. pose proof (g_lt _ G) as HL. rewrite Forall_forall in HL. specialize (HL x Hx). cbn beta in HL.
      destruct (p_id x =? s_next s) eqn:E; [apply N.eqb_eq in E; lia|reflexivity].
Qed.
