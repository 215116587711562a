From Verif Require Import Base Text Text_Proofs Atoi_Model Atoi_Spec Atoi_Proofs Comm_Model Comm_Spec Comm_Proofs Cli_Spec Cli_Proofs Cli_Search WpasMsg_Proofs Log_Proofs Mirror_Client Paths_Model Paths_Spec.
Local Open Scope list_scope.

(** ** Labels *)
Lemma dec_number i : number (dec i) i.
Proof. destruct (dec_spec i) as (vs & F & Hi & Hn). exists vs. auto. Qed.
Lemma address_chars t : is_address t -> ~ In 64 t.
Proof. intros H I. apply canon_chars in H. rewrite Forall_forall in H. destruct (H 64 I) as [_ X]. congruence. Qed.
Lemma address_len t : is_address t -> lenN t = 17.
Proof. intros (m & H & ->). destruct (mac_six m H) as (a & b & c & d & e & f & -> & _). reflexivity. Qed.
Lemma address_again t : is_address t -> reformat_mac t = Ok t.
Proof. intros (m & H & ->). rewrite <- (app_nil_r (canon m)) at 1. apply reformat_reads; [exact H|apply canon_spelling, H|exact I]. Qed.
Lemma dec_len32 i : i < 2 ^ 32 -> lenN (dec i) <= 10.
Proof. intros H. apply dec_len; [|lia]. eapply N.lt_trans; [exact H|reflexivity]. Qed.
Lemma link_label_ok l : wl_index l < 2 ^ 32 -> link_label l = Ok (link_text l).
Proof. intros H. unfold link_label. apply dec_len32 in H. replace (lenN (dec (wl_index l)) + 1 <=? 128) with true by lia. reflexivity. Qed.
Lemma peer_label_ok l p : wl_index l < 2 ^ 32 -> is_address (wp_mac p) -> peer_label l p = Ok (peer_text l p).
Proof.
  intros H A. unfold peer_label. apply dec_len32 in H. apply address_len in A.
  replace (lenN (wp_mac p ++ 64 :: dec (wl_index l)) + 1 <=? 128) with true by (rewrite lenN_app, lenN_cons; lia). reflexivity.
Qed.
Lemma break_in a b : ~ In 64 a -> break_at 64 (a ++ 64 :: b) = (a, Some (64 :: b)).
Proof.
  induction a as [|c a IH]; intros H; cbn [app break_at]; [rewrite N.eqb_refl; reflexivity|].
  destruct (N.eqb_spec c 64) as [E|E]; [exfalso; apply H; left; congruence|]. rewrite IH; [reflexivity|]. intros I. apply H. now right.
Qed.
Lemma peer_text_inj l p l' p' : is_address (wp_mac p) -> is_address (wp_mac p') -> peer_text l p = peer_text l' p' -> wl_index l = wl_index l' /\ wp_mac p = wp_mac p'.
Proof.
  intros H H' E. unfold peer_text in E. cbn [app] in E. assert (B := break_in _ (dec (wl_index l)) (address_chars _ H)). rewrite E, (break_in _ _ (address_chars _ H')) in B.
  injection B as B1 B2. split; [symmetry; now apply dec_inj|congruence].
Qed.

(** ** Links *)
Lemma find_index_some ls i l : find_index ls i = Some l -> In l ls /\ wl_index l = i.
Proof. intros H. apply find_some in H. destruct H as [H E]. apply N.eqb_eq in E. auto. Qed.
Lemma find_index_of ls l : NoDup (map wl_index ls) -> In l ls -> find_index ls (wl_index l) = Some l.
Proof.
  induction ls as [|x ls IH]; intros N; [intros []|]. inversion N as [|? ? N1 N2]; subst. unfold find_index. cbn [find]. intros [->|H]; [rewrite N.eqb_refl; reflexivity|].
  destruct (N.eqb_spec (wl_index x) (wl_index l)) as [E|E]; [|exact (IH N2 H)]. exfalso. apply N1. rewrite E. now apply in_map.
Qed.
Lemma link_in m l : good m -> In l (m_links m) -> good_link l.
Proof. intros G H. destruct G as [G _ _]. rewrite Forall_forall in G. auto. Qed.
Lemma link_by_spec m t l : good m -> link_by_label (m_links m) t = Some l <-> In l (m_links m) /\ number t (wl_index l).
Proof.
  intros G. unfold link_by_label. split.
  - destruct (ret (atoi_un t 10)) eqn:R; try discriminate. destruct (N.eqb_spec (next (atoi_un t 10)) (lenN t)) as [E|E]; [|discriminate].
    intros F. apply find_index_some in F. destruct F as [F Ei]. split; [exact F|].
    destruct t as [|c t].
    + exfalso. destruct (link_in m l G F) as [[Hi _] _ _ _]. rewrite Ei in Hi. revert Hi. vm_compute. discriminate.
    + rewrite Ei. apply parse_num; [discriminate|exact R|exact E].
  - intros [H Hn]. destruct (link_in m l G H) as [[_ Hi] _ _ _]. destruct (num_parse t _ Hn Hi) as (R & E & V). rewrite R, E, V, N.eqb_refl.
    apply find_index_of; [apply G|exact H].
Qed.
Theorem link_find_iff m t l : good m -> link_dbus_find m t = Some l <-> shown_link m l /\ number t (wl_index l).
Proof.
  intros G. unfold link_dbus_find, shown_link. split.
  - destruct (link_by_label (m_links m) t) as [x|] eqn:E; [|discriminate]. destruct (wl_public x) eqn:P; [|discriminate]. intros [= <-].
    apply link_by_spec in E; [|exact G]. tauto.
  - intros [[H P] Hn]. assert (E : link_by_label (m_links m) t = Some l) by (apply link_by_spec; auto). now rewrite E, P.
Qed.
Theorem link_find_own m l : good m -> shown_link m l -> link_label l = Ok (link_text l) /\ link_dbus_find m (link_text l) = Some l.
Proof.
  intros G H. split; [apply link_label_ok, (link_in m l G), H|]. apply link_find_iff; [exact G|]. split; [exact H|apply dec_number].
Qed.

(** ** Peers *)
Lemma find_mac_some ps t p : find_mac ps t = Some p -> In p ps /\ wp_mac p = t.
Proof. intros H. apply find_some in H. destruct H as [H E]. apply str_eq_spec in E. auto. Qed.
Lemma find_mac_of ps p : NoDup (map wp_mac ps) -> In p ps -> find_mac ps (wp_mac p) = Some p.
Proof.
  induction ps as [|x ps IH]; intros N; [intros []|]. inversion N as [|? ? N1 N2]; subst. unfold find_mac. cbn [find]. intros [->|H]; [rewrite str_eq_refl; reflexivity|].
  destruct (str_eq (wp_mac x) (wp_mac p)) eqn:E; [|exact (IH N2 H)]. apply str_eq_spec in E. exfalso. apply N1. rewrite E. now apply in_map.
Qed.
Lemma peer_by_total l t : exists r, peer_by_label l t = Ok r.
Proof. unfold peer_by_label. rewrite reformat_canon. cbn [bind]. eauto. Qed.
Lemma peer_by_spec l t p : good_link l -> peer_by_label l t = Ok (Some p) <-> In p (wl_peers l) /\ reformat_mac t = Ok (wp_mac p).
Proof.
  intros G. unfold peer_by_label. rewrite reformat_canon. cbn [bind]. split.
  - intros H. assert (F : find_mac (wl_peers l) (canon (scan_mac 6 t)) = Some p) by congruence. apply find_mac_some in F. destruct F as [F <-]. auto.
  - intros [H E]. assert (X : canon (scan_mac 6 t) = wp_mac p) by congruence. rewrite X, find_mac_of; [reflexivity|apply G|exact H].
Qed.
Theorem peer_find_iff m a b l p : good m -> ~ In 64 a ->
  peer_dbus_find m (a ++ [64] ++ b) = Ok (Some (l, p)) <-> shown_peer m l p /\ number b (wl_index l) /\ reformat_mac a = Ok (wp_mac p).
Proof.
  intros G Ha. unfold peer_dbus_find. cbn [app]. rewrite (break_in a b Ha). unfold shown_peer, shown_link. split.
  - destruct (link_by_label (m_links m) b) as [x|] eqn:E; [|discriminate]. destruct (wl_public x) eqn:P; [|discriminate].
    apply link_by_spec in E; [|exact G]. destruct E as [Hx Hn]. destruct (peer_by_total x a) as [r R]. rewrite R. cbn [bind].
    destruct r as [q|]; cbn [option_map if_public]; [|discriminate]. destruct (wp_public q) eqn:Q; [|discriminate]. intros H. injection H as <- <-.
    apply peer_by_spec in R; [|exact (link_in m x G Hx)]. tauto.
  - intros [[[Hl P] [Hp Q]] [Hn Hm]]. assert (E : link_by_label (m_links m) b = Some l) by (apply link_by_spec; auto). rewrite E, P.
    assert (R : peer_by_label l a = Ok (Some p)) by (apply peer_by_spec; [exact (link_in m l G Hl)|auto]). rewrite R. cbn [bind option_map if_public]. now rewrite Q.
Qed.
Theorem peer_find_own m l p : good m -> shown_peer m l p -> peer_label l p = Ok (peer_text l p) /\ peer_dbus_find m (peer_text l p) = Ok (Some (l, p)).
Proof.
  intros G H. pose proof H as [[Hl _] [Hp _]]. destruct (link_in m l G Hl) as [[_ Hi] _ A _]. rewrite Forall_forall in A. specialize (A p Hp). split.
  - now apply peer_label_ok.
  - apply peer_find_iff; [exact G|now apply address_chars|]. split; [exact H|]. split; [apply dec_number|now apply address_again].
Qed.
Lemma any_link_some ls t l p : any_link ls t = Ok (Some (l, p)) -> In l ls /\ wl_public l = true /\ peer_by_label l t = Ok (Some p).
Proof.
  induction ls as [|x ls IH]; cbn [any_link]; [discriminate|]. destruct (wl_public x) eqn:P; [|intros H; destruct (IH H) as (? & ?); split; [now right|assumption]].
  destruct (peer_by_total x t) as [r R]. rewrite R. cbn [bind]. destruct r as [q|].
  - intros H. injection H as -> ->. repeat split; auto. now left.
  - intros H. destruct (IH H) as (? & ?). split; [now right|assumption].
Qed.
Lemma any_link_total ls t : exists r, any_link ls t = Ok r.
Proof.
  induction ls as [|x ls IH]; cbn [any_link]; [eauto|]. destruct (wl_public x); [|exact IH]. destruct (peer_by_total x t) as [r R]. rewrite R. cbn [bind]. destruct r; eauto.
Qed.
Theorem peer_find_shown m t : exists r, peer_dbus_find m t = Ok r /\ forall l p, r = Some (l, p) -> shown_peer m l p.
Proof.
  assert (Z : exists r, (do r <- any_link (m_links m) t; Ok (if_public r)) = Ok r /\ forall l p, r = Some (l, p) -> shown_peer m l p).
  { destruct (any_link_total (m_links m) t) as [r R]. rewrite R. cbn [bind]. eexists. split; [reflexivity|]. intros l p H. destruct r as [[l' p']|]; [|discriminate]. cbn [if_public] in H.
    destruct (wp_public p') eqn:Q; [|discriminate]. injection H as -> ->. apply any_link_some in R. destruct R as (Hl & P & R).
    unfold peer_by_label in R. rewrite reformat_canon in R. cbn [bind] in R. assert (F : find_mac (wl_peers l) (canon (scan_mac 6 t)) = Some p) by congruence. apply find_mac_some in F. split; [split; auto|]. tauto. }
  unfold peer_dbus_find. destruct (break_at 64 t) as [a [[|c b]|]] eqn:B; [exact Z| |exact Z].
  unfold link_by_label. destruct (match ret (atoi_un b 10) with Success => _ | _ => _ end) as [x|] eqn:E; [|eexists; split; [reflexivity|discriminate]].
  assert (Hx : In x (m_links m)). { destruct (ret (atoi_un b 10)); try discriminate. destruct (_ =? _); [|discriminate]. apply find_index_some in E. tauto. }
  destruct (wl_public x) eqn:P; [|eexists; split; [reflexivity|discriminate]]. unfold peer_by_label. rewrite reformat_canon. cbn [bind]. eexists. split; [reflexivity|].
  intros l p H. destruct (find_mac (wl_peers x) (canon (scan_mac 6 a))) as [q|] eqn:F; [|discriminate]. cbn [option_map if_public] in H. destruct (wp_public q) eqn:Q; [|discriminate].
  injection H as <- <-. apply find_mac_some in F. split; [split; auto|]. tauto.
Qed.
Lemma any_link_miss ls t mac : reformat_mac t = Ok mac -> (forall x, In x ls -> wl_public x = true -> ~ In mac (map wp_mac (wl_peers x))) -> any_link ls t = Ok None.
Proof.
  intros E. induction ls as [|x ls IH]; intros H; cbn [any_link]; [reflexivity|]. destruct (wl_public x) eqn:P.
  - unfold peer_by_label. rewrite E. cbn [bind]. destruct (find_mac (wl_peers x) mac) as [q|] eqn:F.
    + exfalso. apply find_mac_some in F. destruct F as [F <-]. apply (H x); [now left|exact P|now apply in_map].
    + apply IH. intros y Hy. apply H. now right.
  - apply IH. intros y Hy. apply H. now right.
Qed.
Lemma any_link_app a ls t mac : reformat_mac t = Ok mac -> (forall x, In x a -> wl_public x = true -> ~ In mac (map wp_mac (wl_peers x))) -> any_link (a ++ ls) t = any_link ls t.
Proof.
  intros E. induction a as [|x a IH]; intros H; cbn [any_link app]; [reflexivity|]. destruct (wl_public x) eqn:P.
  - unfold peer_by_label. rewrite E. cbn [bind]. destruct (find_mac (wl_peers x) mac) as [q|] eqn:F.
    + exfalso. apply find_mac_some in F. destruct F as [F <-]. apply (H x); [now left|exact P|now apply in_map].
    + apply IH. intros y Hy. apply H. now right.
  - apply IH. intros y Hy. apply H. now right.
Qed.
Lemma break_out t : ~ In 64 t -> break_at 64 t = (t, None).
Proof.
  induction t as [|c t IH]; intros H; cbn [break_at]; [reflexivity|]. destruct (N.eqb_spec c 64) as [E|E]; [exfalso; apply H; left; congruence|]. rewrite IH; [reflexivity|]. intros I. apply H. now right.
Qed.
(** Without an index: the first public link that knows the address decides. *)
Theorem short_find m t a l b p : good m -> ~ In 64 t -> m_links m = a ++ l :: b -> reformat_mac t = Ok (wp_mac p) ->
  (forall x, In x a -> wl_public x = true -> ~ In (wp_mac p) (map wp_mac (wl_peers x))) -> wl_public l = true -> In p (wl_peers l) ->
  peer_dbus_find m t = Ok (if wp_public p then Some (l, p) else None).
Proof.
  intros G Ht E Hm Ha P Hp. unfold peer_dbus_find. rewrite (break_out t Ht), E, (any_link_app a (l :: b) t (wp_mac p) Hm Ha). cbn [any_link]. rewrite P.
  assert (Hl : In l (m_links m)) by (rewrite E; apply in_elt).
  assert (R : peer_by_label l t = Ok (Some p)) by (apply peer_by_spec; [exact (link_in m l G Hl)|auto]). rewrite R. reflexivity.
Qed.
Theorem short_none m t mac : ~ In 64 t -> reformat_mac t = Ok mac -> (forall x, In x (m_links m) -> wl_public x = true -> ~ In mac (map wp_mac (wl_peers x))) -> peer_dbus_find m t = Ok None.
Proof. intros Ht Hm H. unfold peer_dbus_find. rewrite (break_out t Ht), (any_link_miss _ t mac Hm H). reflexivity. Qed.

(** ** The list *)
Definition peer_nodes (l : wlink) (ps : list wpeer) : list node := flat_map (fun p => if wp_public p then [PeerNode (peer_text l p)] else []) ps.
Definition link_nodes (ls : list wlink) : list node := flat_map (fun l => if wl_public l then LinkNode (link_text l) :: peer_nodes l (wl_peers l) else []) ls.
Definition room (ls : list wlink) : N := fold_right (fun l n => (if wl_public l then wl_cnt l else 0) + n) 0 ls.

Lemma list_peers_safe k size total l : total < size -> wl_index l < 2 ^ 32 -> (forall x, k_path k x = true) ->
  forall ps out, Forall (fun p => is_address (wp_mac p)) ps -> lenN out <= total -> exists r, list_peers k size total l ps out = Ok r /\ lenN r <= total.
Proof.
  intros Hs Hi Hk. induction ps as [|p ps IH]; intros out A L; cbn [list_peers]; [eauto|]. inversion A as [|? ? A1 A2]; subst.
  destruct (N.leb_spec total (lenN out)) as [F|F]; [apply IH; assumption|]. destruct (wp_public p); [|apply IH; assumption].
  rewrite peer_label_ok by assumption. cbn [bind]. unfold made. rewrite Hk. cbn [bind]. unfold put. replace (lenN out <? size) with true by lia. cbn [bind].
  apply IH; [assumption|]. rewrite lenN_app. len. lia.
Qed.
Lemma list_links_safe k size total : total < size -> (forall x, k_path k x = true) ->
  forall ls out, Forall (fun l => wl_index l < 2 ^ 32 /\ Forall (fun p => is_address (wp_mac p)) (wl_peers l)) ls -> lenN out <= total ->
  exists r, list_links k size total ls out = Ok r /\ lenN r <= total.
Proof.
  intros Hs Hk. induction ls as [|l ls IH]; intros out A L; cbn [list_links]; [eauto|]. inversion A as [|? ? [A0 A1] A2]; subst.
  destruct (N.leb_spec total (lenN out)) as [F|F]; [apply IH; assumption|]. destruct (wl_public l); [|apply IH; assumption].
  rewrite link_label_ok by assumption. cbn [bind]. unfold made. rewrite Hk. cbn [bind]. unfold put at 1. replace (lenN out <? size) with true by lia. cbn [bind].
  destruct (list_peers_safe k size total l Hs A0 Hk (wl_peers l) (out ++ [LinkNode (link_text l)]) A1 ltac:(rewrite lenN_app; len; lia)) as (r & -> & Lr). cbn [bind]. apply IH; assumption.
Qed.
Theorem enumerate_safe k m : (forall x, k_path k x = true) -> Forall (fun l => wl_index l < 2 ^ 32 /\ Forall (fun p => is_address (wp_mac p)) (wl_peers l)) (m_links m) ->
  enumerate k m <> UB.
Proof.
  intros Hk A. unfold enumerate. destruct (k_malloc k); [|discriminate].
  destruct (list_links_safe k (total_of m + 2) (total_of m) ltac:(lia) Hk (m_links m) [] A ltac:(len; lia)) as (r & -> & L). cbn [bind]. destruct (k_strdup k); [|discriminate].
  unfold put. replace (lenN r <? total_of m + 2) with true by lia. cbn [bind]. replace (lenN (r ++ [Root]) <? total_of m + 2) with true by (rewrite lenN_app; len; lia). discriminate.
Qed.
Lemma list_peers_all size total l : total < size -> wl_index l < 2 ^ 32 ->
  forall ps out, Forall (fun p => is_address (wp_mac p)) ps -> lenN out + lenN ps <= total -> list_peers lucky size total l ps out = Ok (out ++ peer_nodes l ps) /\ lenN (peer_nodes l ps) <= lenN ps.
Proof.
  intros Hs Hi. induction ps as [|p ps IH]; intros out A L; cbn [list_peers peer_nodes flat_map]; [rewrite app_nil_r; split; [reflexivity|len; lia]|]. inversion A as [|? ? A1 A2]; subst.
  rewrite lenN_cons in *. replace (total <=? lenN out) with false by lia. fold (peer_nodes l ps). destruct (wp_public p).
  - rewrite peer_label_ok by assumption. cbn [bind]. unfold made. cbn [k_path lucky bind]. unfold put. replace (lenN out <? size) with true by lia. cbn [bind].
    destruct (IH (out ++ [PeerNode (peer_text l p)]) A2 ltac:(rewrite lenN_app; len; lia)) as (-> & Q). rewrite <- app_assoc. cbn [app]. split; [reflexivity|rewrite lenN_cons; lia].
  - destruct (IH out A2 ltac:(lia)) as (-> & Q). cbn [app]. split; [reflexivity|lia].
Qed.
Lemma list_links_all size total : total < size ->
  forall ls out, Forall good_link ls -> lenN out + lenN ls + room ls <= total -> list_links lucky size total ls out = Ok (out ++ link_nodes ls) /\ lenN (link_nodes ls) <= lenN ls + room ls.
Proof.
  intros Hs. induction ls as [|l ls IH]; intros out A L; cbn [list_links link_nodes flat_map room fold_right]; [rewrite app_nil_r; split; [reflexivity|len; lia]|]. inversion A as [|? ? A1 A2]; subst.
  rewrite lenN_cons in *. replace (total <=? lenN out) with false by lia. fold (link_nodes ls) (room ls). unfold room in L. cbn [fold_right] in L. fold (room ls) in L.
  destruct A1 as [[_ Hi] _ Hm Hc]. destruct (wl_public l).
  - rewrite link_label_ok by assumption. cbn [bind]. unfold made. cbn [k_path lucky bind]. unfold put. replace (lenN out <? size) with true by lia. cbn [bind].
    destruct (list_peers_all size total l Hs Hi (wl_peers l) (out ++ [LinkNode (link_text l)]) Hm ltac:(rewrite lenN_app; len; lia)) as (-> & Q). cbn [bind].
    destruct (IH ((out ++ [LinkNode (link_text l)]) ++ peer_nodes l (wl_peers l)) A2) as (-> & Q2); [rewrite !lenN_app; len; lia|].
    rewrite <- !app_assoc. cbn [app]. split; [reflexivity|]. rewrite lenN_cons, lenN_app. lia.
  - destruct (IH out A2 ltac:(lia)) as (-> & Q). cbn [app]. split; [reflexivity|lia].
Qed.
Lemma link_nodes_in ls x : In x (link_nodes ls) <-> (exists l, In l ls /\ wl_public l = true /\ x = LinkNode (link_text l))
  \/ exists l p, In l ls /\ wl_public l = true /\ In p (wl_peers l) /\ wp_public p = true /\ x = PeerNode (peer_text l p).
Proof.
  unfold link_nodes. rewrite in_flat_map. split.
  - intros (l & Hl & H). destruct (wl_public l) eqn:P; [|contradiction]. destruct H as [<-|H]; [left; eauto|]. right. unfold peer_nodes in H. apply in_flat_map in H. destruct H as (p & Hp & H).
    destruct (wp_public p) eqn:Q; [|contradiction]. destruct H as [<-|[]]. exists l, p. auto.
  - intros [(l & Hl & P & ->)|(l & p & Hl & P & Hp & Q & ->)]; exists l; rewrite P; (split; [exact Hl|]); [now left|right]. unfold peer_nodes. apply in_flat_map. exists p. rewrite Q. split; [exact Hp|now left].
Qed.
Lemma nodup_cat {A} (a b : list A) : NoDup a -> NoDup b -> (forall x, In x a -> ~ In x b) -> NoDup (a ++ b).
Proof.
  induction a as [|x a IH]; intros Ha Hb D; [exact Hb|]. inversion Ha; subst. cbn [app]. constructor.
  - rewrite in_app_iff. intros [H|H]; [auto|]. apply (D x); [now left|exact H].
  - apply IH; auto. intros y Hy. apply D. now right.
Qed.
Lemma peer_nodes_once l ps : Forall (fun p => is_address (wp_mac p)) ps -> NoDup (map wp_mac ps) -> NoDup (peer_nodes l ps).
Proof.
  induction ps as [|p ps IH]; intros A N; [constructor|]. inversion A as [|? ? A1 A2]; subst. inversion N as [|? ? N1 N2]; subst. cbn [peer_nodes flat_map]. fold (peer_nodes l ps).
  destruct (wp_public p); [|exact (IH A2 N2)]. cbn [app]. constructor; [|exact (IH A2 N2)]. intros H. apply in_flat_map in H. destruct H as (q & Hq & H). destruct (wp_public q); [|contradiction].
  destruct H as [H|[]]. assert (E : peer_text l q = peer_text l p) by congruence. rewrite Forall_forall in A2. apply peer_text_inj in E; [|apply A2; exact Hq|exact A1]. apply N1. rewrite <- (proj2 E). now apply in_map.
Qed.
Lemma link_nodes_once ls : Forall good_link ls -> NoDup (map wl_index ls) -> NoDup (link_nodes ls).
Proof.
  induction ls as [|l ls IH]; intros A N; [constructor|]. inversion A as [|? ? A1 A2]; subst. inversion N as [|? ? N1 N2]; subst. cbn [link_nodes flat_map]. fold (link_nodes ls).
  destruct (wl_public l); [|exact (IH A2 N2)].
  assert (D : forall x, In x (LinkNode (link_text l) :: peer_nodes l (wl_peers l)) -> ~ In x (link_nodes ls)).
  { intros x Hx H. apply link_nodes_in in H. destruct Hx as [<-|Hx].
    - destruct H as [(l' & Hl' & _ & E)|(l' & p & _ & _ & _ & _ & E)]; [|discriminate]. assert (X : link_text l = link_text l') by congruence. apply dec_inj in X. apply N1. rewrite X. now apply in_map.
    - apply in_flat_map in Hx. destruct Hx as (q & Hq & Hx). destruct (wp_public q); [|contradiction]. destruct Hx as [<-|[]].
      destruct H as [(l' & _ & _ & E)|(l' & p & Hl' & _ & Hp & _ & E)]; [discriminate|]. assert (X : peer_text l q = peer_text l' p) by congruence.
      rewrite Forall_forall in A2. destruct (A2 l' Hl') as [_ _ M' _]. destruct A1 as [_ _ M _]. rewrite Forall_forall in M, M'. apply peer_text_inj in X; [|auto|auto]. apply N1. rewrite (proj1 X). now apply in_map. }
  apply nodup_cat; [|exact (IH A2 N2)|exact D]. destruct A1 as [_ O M _]. constructor; [|exact (peer_nodes_once l _ M O)].
  intros H. apply in_flat_map in H. destruct H as (q & _ & H). destruct (wp_public q); [|contradiction]. destruct H as [H|[]]. discriminate.
Qed.
Theorem enumerate_all m : good m -> exists ns, enumerate lucky m = Ok (Nodes ns) /\ NoDup ns /\ forall x, In x ns <-> path_of m x.
Proof.
  intros G. destruct G as [GL GO GC]. exists (link_nodes (m_links m) ++ [Root]). split; [|split].
  - unfold enumerate. cbn [k_malloc lucky]. assert (T : total_of m = lenN (m_links m) + room (m_links m)) by (unfold total_of; rewrite GC; reflexivity).
    destruct (list_links_all (total_of m + 2) (total_of m) ltac:(lia) (m_links m) [] GL ltac:(len; lia)) as (-> & Q). cbn [bind app k_strdup].
    unfold put. replace (lenN (link_nodes (m_links m)) <? total_of m + 2) with true by lia. cbn [bind].
    replace (lenN (link_nodes (m_links m) ++ [Root]) <? total_of m + 2) with true by (rewrite lenN_app; len; lia). reflexivity.
  - apply nodup_cat; [apply link_nodes_once; assumption|repeat constructor; intros []|]. intros x Hx [<-|[]]. apply link_nodes_in in Hx. destruct Hx as [(? & _ & _ & E)|(? & ? & _ & _ & _ & _ & E)]; discriminate.
  - intros x. rewrite in_app_iff, link_nodes_in. cbn [In]. split.
    + intros [[(l & Hl & P & ->)|(l & p & Hl & P & Hp & Q & ->)]|[<-|[]]]; constructor; repeat split; assumption.
    + intros [l [Hl P]|l p [[Hl P] [Hp Q]]|]; [left; left; eauto|left; right; exists l, p; auto|right; now left].
Qed.
