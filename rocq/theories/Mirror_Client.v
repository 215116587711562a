(** Signals seen from outside: what each of them does to the picture of one link. *)
From Coq Require Import String.
From Verif Require Import Base Atoi_Spec Text Text_Proofs Comm_Spec Comm_Proofs Mirror_Model Mirror_Spec.
Local Open Scope list_scope.

(** ** Labels *)
Lemma case_lower a : forall b, case_eq a b = true <-> map lower a = map lower b.
Proof.
  induction a as [|x a IH]; intros [|y b]; cbn [case_eq map]; try (split; [reflexivity||discriminate|reflexivity||discriminate]).
  rewrite andb_true_iff, N.eqb_eq, IH. split; [intros [-> ->]; reflexivity|intros H; injection H; auto].
Qed.
Lemma case_refl a : case_eq a a = true.
Proof. now apply case_lower. Qed.
Lemma case_sym a b : case_eq a b = case_eq b a.
Proof. apply Bool.eq_iff_eq_true. rewrite !case_lower. split; congruence. Qed.
Lemma case_trans a b c : case_eq a b = true -> case_eq a c = case_eq b c.
Proof. intros H. apply Bool.eq_iff_eq_true. apply case_lower in H. rewrite !case_lower. split; congruence. Qed.
Definition plain_text (a : list byte) : Prop := Forall (fun c => lower c = c) a.
Lemma plain_lower a : plain_text a -> map lower a = a.
Proof. induction 1 as [|x l Hx _ IH]; cbn [map]; congruence. Qed.
Lemma case_plain a b : plain_text a -> plain_text b -> case_eq a b = true -> a = b.
Proof. intros Ha Hb H. apply case_lower in H. rewrite (plain_lower a Ha), (plain_lower b Hb) in H. exact H. Qed.
Lemma dec_plain i : plain_text (dec i).
Proof. eapply Forall_impl; [|apply dec_digits]. cbv beta. intros c H. unfold lower. replace ((65 <=? c) && (c <=? 90)) with false by lia. reflexivity. Qed.
Lemma digits_fun cs : forall vs ws, Forall2 (digit 10) cs vs -> Forall2 (digit 10) cs ws -> vs = ws.
Proof.
  induction cs as [|c cs IH]; intros vs ws F G; inversion F as [|c1 v l vs' D F']; inversion G as [|c2 w l' ws' D' G']; subst; [reflexivity|].
  f_equal; [|auto]. inversion D; inversion D'; lia.
Qed.
Lemma dec_inj i j : dec i = dec j -> i = j.
Proof.
  destruct (dec_spec i) as (vs & F & Hi & _), (dec_spec j) as (ws & G & Hj & _). intros E. rewrite E in F.
  rewrite <- Hi, <- Hj. f_equal. exact (digits_fun _ _ _ F G).
Qed.
Lemma case_dec i j : case_eq (dec i) (dec j) = (i =? j).
Proof.
  apply Bool.eq_iff_eq_true. rewrite N.eqb_eq. split; [|intros ->; apply case_refl].
  intros H. apply dec_inj, case_plain; auto using dec_plain.
Qed.
Lemma table_plain n : lower (nth n table 0) = nth n table 0 /\ nth n table 0 <> 64.
Proof. do 16 (destruct n as [|n]; [split; [reflexivity|discriminate]|]). destruct n; split; try reflexivity; discriminate. Qed.
Lemma canon_chars mac : is_canon mac -> Forall (fun c => lower c = c /\ c <> 64) mac.
Proof.
  intros (m & H & ->). destruct (mac_six m H) as (a & b & c & d & e & f & -> & _). unfold canon, two. cbn [app].
  repeat (apply Forall_cons; [apply table_plain || (split; [reflexivity|discriminate])|]). apply Forall_nil.
Qed.
Lemma plabel_plain i mac : is_canon mac -> plain_text (peer_label i mac).
Proof.
  intros H. unfold peer_label, plain_text. apply Forall_app. split; [|constructor; [reflexivity|apply dec_plain]].
  eapply Forall_impl; [|apply (canon_chars mac H)]. cbv beta. tauto.
Qed.
Lemma eq_text_spec a b : eq_text a b = true <-> a = b.
Proof. unfold eq_text. destruct (list_eq_dec N.eq_dec a b); split; congruence. Qed.
Lemma eq_text_refl a : eq_text a a = true.
Proof. now apply eq_text_spec. Qed.
Lemma case_plabel i a b : is_canon a -> is_canon b -> case_eq (peer_label i a) (peer_label i b) = eq_text a b.
Proof.
  intros Ha Hb. apply Bool.eq_iff_eq_true. rewrite eq_text_spec. split; [|intros ->; apply case_refl].
  intros H. apply case_plain in H; auto using plabel_plain. apply app_inv_tail in H. exact H.
Qed.
Lemma break_plabel i mac : is_canon mac -> break_at 64 (peer_label i mac) = (mac, Some (64 :: dec i)).
Proof.
  intros H. apply canon_chars in H. unfold peer_label. induction H as [|c mac [_ Hc] _ IH]; cbn [app break_at].
  - rewrite N.eqb_refl. reflexivity.
  - destruct (N.eqb_spec c 64); [congruence|]. rewrite IH. reflexivity.
Qed.

(** ** Looking up *)
Lemma find_link_cons l c i : find_link (l :: c) (dec i) = if case_eq (cl_label l) (dec i) then Some l else find_link c (dec i).
Proof. generalize (dec_nonnil i). destruct (dec i) as [|x t] eqn:E; [congruence|]. reflexivity. Qed.
Lemma find_link_nil i : find_link [] (dec i) = None.
Proof. destruct (dec i); reflexivity. Qed.
Lemma find_link_label c i l : find_link c (dec i) = Some l -> case_eq (cl_label l) (dec i) = true.
Proof.
  induction c as [|x c IH]; [rewrite find_link_nil; discriminate|]. rewrite find_link_cons. destruct (case_eq (cl_label x) (dec i)) eqn:E; [|exact IH].
  intros [= <-]. exact E.
Qed.
Lemma find_link_app c x i : find_link (c ++ [x]) (dec i) = match find_link c (dec i) with Some l => Some l | None => if case_eq (cl_label x) (dec i) then Some x else None end.
Proof.
  induction c as [|y c IH]; cbn [app]; rewrite ?find_link_cons, ?find_link_nil; [reflexivity|]. rewrite IH. destruct (case_eq (cl_label y) (dec i)); reflexivity.
Qed.
Lemma find_link_put c i l j : case_eq (cl_label l) (dec i) = true -> find_link (c_put l c) (dec j) = if i =? j then option_map (fun _ => l) (find_link c (dec i)) else find_link c (dec j).
Proof.
  intros H. induction c as [|x c IH]; unfold c_put; cbn [map]; try fold (c_put l c); rewrite ?find_link_cons, ?find_link_nil; [destruct (i =? j); reflexivity|].
  rewrite IH. rewrite (case_sym (cl_label x) (cl_label l)), (case_trans _ _ (cl_label x) H), (case_sym (dec i)).
  destruct (case_eq (cl_label x) (dec i)) eqn:E.
  - rewrite (case_trans _ _ (dec j) H), (case_trans _ _ (dec j) E), case_dec. destruct (i =? j); reflexivity.
  - destruct (N.eqb_spec i j) as [->|Hij]; [rewrite E; reflexivity|]. reflexivity.
Qed.
Lemma find_link_filter c i j : find_link (filter (fun x => negb (case_eq (cl_label x) (dec i))) c) (dec j) = if i =? j then None else find_link c (dec j).
Proof.
  induction c as [|x c IH]; cbn [filter]; rewrite ?find_link_nil; [destruct (i =? j); reflexivity|].
  destruct (case_eq (cl_label x) (dec i)) eqn:E; cbn [negb]; rewrite ?find_link_cons, IH.
  - rewrite (case_trans _ _ (dec j) E), case_dec. destruct (i =? j); reflexivity.
  - destruct (N.eqb_spec i j) as [->|Hij]; [rewrite E|]; reflexivity.
Qed.
(** The same for peers of one link. *)
Lemma link_peer_label ps x q : link_peer ps x = Some q -> case_eq (cp_label q) x = true.
Proof. induction ps as [|p ps IH]; cbn [link_peer]; [discriminate|]. destruct (case_eq (cp_label p) x) eqn:E; [intros [= <-]; exact E|exact IH]. Qed.
Lemma link_peer_app ps p x : link_peer (ps ++ [p]) x = match link_peer ps x with Some q => Some q | None => if case_eq (cp_label p) x then Some p else None end.
Proof. induction ps as [|y ps IH]; cbn [app link_peer]; [reflexivity|]. rewrite IH. destruct (case_eq (cp_label y) x); reflexivity. Qed.
Lemma link_peer_put ps p x y : case_eq (cp_label p) x = true ->
  link_peer (c_put_p p ps) y = if case_eq x y then option_map (fun _ => p) (link_peer ps x) else link_peer ps y.
Proof.
  intros H. induction ps as [|q ps IH]; unfold c_put_p; cbn [map link_peer]; try fold (c_put_p p ps); [destruct (case_eq x y); reflexivity|].
  rewrite IH, (case_sym (cp_label q) (cp_label p)), (case_trans _ _ (cp_label q) H), (case_sym x (cp_label q)).
  destruct (case_eq (cp_label q) x) eqn:E.
  - rewrite (case_trans _ _ y H), (case_trans _ _ y E). destruct (case_eq x y); reflexivity.
  - destruct (case_eq x y) eqn:F; [|reflexivity]. rewrite (case_sym _ y), <- (case_trans _ _ _ F), case_sym, E. reflexivity.
Qed.
Lemma link_peer_filter ps x y : link_peer (filter (fun p => negb (case_eq (cp_label p) x)) ps) y = if case_eq x y then None else link_peer ps y.
Proof.
  induction ps as [|q ps IH]; cbn [filter link_peer]; [destruct (case_eq x y); reflexivity|].
  destruct (case_eq (cp_label q) x) eqn:E; cbn [negb link_peer]; rewrite IH.
  - rewrite (case_trans _ _ y E). destruct (case_eq x y); reflexivity.
  - destruct (case_eq x y) eqn:F; [|reflexivity]. rewrite (case_sym _ y), <- (case_trans _ _ _ F), case_sym, E. reflexivity.
Qed.
Lemma link_of_plabel c i mac : is_canon mac -> link_of c (peer_label i mac) = find_link c (dec i).
Proof. intros H. unfold link_of. rewrite (break_plabel i mac H). reflexivity. Qed.
Lemma find_peer_plabel c i mac : is_canon mac ->
  find_peer c (peer_label i mac) = match find_link c (dec i) with Some l => link_peer (cl_peers l) (peer_label i mac) | None => None end.
Proof. intros H. unfold find_peer. rewrite (link_of_plabel c i mac H). reflexivity. Qed.

(** ** Properties *)
Definition vprop (v : lview) (p : prop) : lview :=
  match p with
  | Index n => if n =? 0 then v else mkLView n (v_ifname v) (v_name v) (v_managed v) (v_scan v) (v_wfd v)
  | IfName t => mkLView (v_index v) t (v_name v) (v_managed v) (v_scan v) (v_wfd v)
  | Name t => mkLView (v_index v) (v_ifname v) t (v_managed v) (v_scan v) (v_wfd v)
  | Managed b => mkLView (v_index v) (v_ifname v) (v_name v) b (v_scan v) (v_wfd v)
  | Scanning b => mkLView (v_index v) (v_ifname v) (v_name v) (v_managed v) b (v_wfd v)
  | Wfd t => mkLView (v_index v) (v_ifname v) (v_name v) (v_managed v) (v_scan v) t
  | _ => v
  end.
Definition wprop (w : pview) (p : prop) : pview :=
  match p with
  | Mac t => mkPView t (w_name w) (w_conn w) (w_iface w) (w_local w) (w_remote w) (w_wfd w)
  | Name t => mkPView (w_mac w) t (w_conn w) (w_iface w) (w_local w) (w_remote w) (w_wfd w)
  | Connected b => mkPView (w_mac w) (w_name w) b (w_iface w) (w_local w) (w_remote w) (w_wfd w)
  | Iface t => mkPView (w_mac w) (w_name w) (w_conn w) t (w_local w) (w_remote w) (w_wfd w)
  | Local t => mkPView (w_mac w) (w_name w) (w_conn w) (w_iface w) t (w_remote w) (w_wfd w)
  | Remote t => mkPView (w_mac w) (w_name w) (w_conn w) (w_iface w) (w_local w) t (w_wfd w)
  | Wfd t => mkPView (w_mac w) (w_name w) (w_conn w) (w_iface w) (w_local w) (w_remote w) t
  | _ => w
  end.
Definition vprops (ps : list prop) (v : lview) : lview := fold_left vprop ps v.
Definition wprops (ps : list prop) (w : pview) : pview := fold_left wprop ps w.
Definition blank_l : lview := mkLView 0 [] [] false false [].
Definition blank_p : pview := mkPView [] [] false [] [] [] [].
Lemma link_prop_see l p : see_link (link_prop l p) = vprop (see_link l) p /\ cl_label (link_prop l p) = cl_label l /\ cl_peers (link_prop l p) = cl_peers l.
Proof. destruct p; cbn [link_prop vprop]; try (split; [|split]; reflexivity). destruct (n =? 0); split; try split; reflexivity. Qed.
Lemma link_parse_see ps : forall l, see_link (link_parse l ps) = vprops ps (see_link l) /\ cl_label (link_parse l ps) = cl_label l /\ cl_peers (link_parse l ps) = cl_peers l.
Proof.
  unfold link_parse, vprops. induction ps as [|p ps IH]; intros l; cbn [fold_left]; [auto|].
  destruct (IH (link_prop l p)) as (-> & -> & ->). destruct (link_prop_see l p) as (-> & -> & ->). auto.
Qed.
Lemma peer_prop_see q p : see_peer (peer_prop q p) = wprop (see_peer q) p /\ cp_label (peer_prop q p) = cp_label q.
Proof. destruct p; split; reflexivity. Qed.
Lemma peer_parse_see ps : forall q, see_peer (fst (peer_parse q ps)) = wprops ps (see_peer q) /\ cp_label (fst (peer_parse q ps)) = cp_label q.
Proof.
  unfold peer_parse, wprops. cbn [fst]. induction ps as [|p ps IH]; intros q; cbn [fold_left]; [auto|].
  destruct (IH (peer_prop q p)) as (-> & ->). destruct (peer_prop_see q p) as (-> & ->). auto.
Qed.

(** ** Signals about link [i] *)
Inductive word := WAdd (ps : list prop) | WDel | WSet (ps : list prop).
Inductive saying := OfLink (w : word) | OfPeer (mac : list byte) (w : word) | OfDone (b : bool).
Definition enc (i : N) (s : saying) : signal :=
  match s with
  | OfLink (WAdd ps) => Added (LinkPath (link_label i)) ps
  | OfLink WDel => Removed (LinkPath (link_label i))
  | OfLink (WSet ps) => Changed (LinkPath (link_label i)) ps
  | OfPeer mac (WAdd ps) => Added (PeerPath (peer_label i mac)) ps
  | OfPeer mac WDel => Removed (PeerPath (peer_label i mac))
  | OfPeer mac (WSet ps) => Changed (PeerPath (peer_label i mac)) ps
  | OfDone b => Done (link_label i) b
  end.
Definition sane (s : saying) : Prop := match s with OfPeer mac _ => is_canon mac | _ => True end.
(** What a word does to an object. *)
Definition word_l (w : word) (o : option lview) : option lview :=
  match w with WAdd ps => Some match o with Some v => v | None => vprops ps blank_l end | WDel => None | WSet ps => option_map (vprops ps) o end.
Definition word_p (w : word) (o : option pview) : option pview :=
  match w with WAdd ps => Some match o with Some v => v | None => wprops ps blank_p end | WDel => None | WSet ps => option_map (wprops ps) o end.
(** The link after it was said. *)
Definition say_l (s : saying) (o : option lview) : option lview :=
  match s with OfLink w => word_l w o | OfDone b => word_l (WSet [Managed b]) o | OfPeer _ _ => o end.
Definition say_p (s : saying) (o : option lview) (mac : list byte) (q : option pview) : option pview :=
  match s with
  | OfLink WDel => None
  | OfPeer m w => if eq_text m mac then match o with Some _ => word_p w q | None => q end else q
  | _ => q
  end.
Definition said (c : client) (s : signal) : client := fst (hear c s).
Lemma c_peer_eq c i mac : is_canon mac -> c_peer c i mac = match find_link c (dec i) with Some l => option_map see_peer (link_peer (cl_peers l) (peer_label i mac)) | None => None end.
Proof. intros H. unfold c_peer. rewrite find_peer_plabel by exact H. destruct (find_link c (dec i)); reflexivity. Qed.
Lemma c_peer_none c i mac : is_canon mac -> c_link c i = None -> c_peer c i mac = None.
Proof. intros H. rewrite c_peer_eq by exact H. unfold c_link, link_label. destruct (find_link c (dec i)); [discriminate|reflexivity]. Qed.
(** Enough to know the link. *)
Lemma by_link c c' i : (forall j, find_link c' (dec j) = if i =? j then find_link c' (dec i) else find_link c (dec j)) ->
  forall j, j <> i -> c_link c' j = c_link c j /\ forall mac, is_canon mac -> c_peer c' j mac = c_peer c j mac.
Proof.
  intros H j Hj. assert (E : find_link c' (dec j) = find_link c (dec j)) by (rewrite H; destruct (N.eqb_spec i j); congruence).
  split; [unfold c_link, link_label; rewrite E; reflexivity|]. intros mac Hm. rewrite !c_peer_eq, E by exact Hm. reflexivity.
Qed.
Lemma put_other c i l : case_eq (cl_label l) (dec i) = true -> forall j, find_link (c_put l c) (dec j) = if i =? j then find_link (c_put l c) (dec i) else find_link c (dec j).
Proof. intros H j. rewrite !(find_link_put c i l) by exact H. rewrite N.eqb_refl. reflexivity. Qed.
Lemma put_same c i l l0 : case_eq (cl_label l) (dec i) = true -> find_link c (dec i) = Some l0 -> find_link (c_put l c) (dec i) = Some l.
Proof. intros H E. rewrite (find_link_put c i l i H), N.eqb_refl, E. reflexivity. Qed.
Lemma same_other c i : forall j, find_link c (dec j) = if i =? j then find_link c (dec i) else find_link c (dec j).
Proof. intros j. destruct (N.eqb_spec i j) as [->|]; reflexivity. Qed.
Lemma c_link_eq c i : c_link c i = option_map see_link (find_link c (dec i)).
Proof. reflexivity. Qed.
Lemma said_at c i s : sane s ->
  c_link (said c (enc i s)) i = say_l s (c_link c i)
  /\ (forall mac, is_canon mac -> c_peer (said c (enc i s)) i mac = say_p s (c_link c i) mac (c_peer c i mac))
  /\ forall j, find_link (said c (enc i s)) (dec j) = if i =? j then find_link (said c (enc i s)) (dec i) else find_link c (dec j).
Proof.
  intros Hs. unfold said. destruct s as [[ps| |ps]|m [ps| |ps]|b]; cbn [enc say_l say_p hear word_l word_p sane] in *; unfold add_object, remove_object, change_object, link_label.
  - (* a link comes *)
    rewrite !c_link_eq. destruct (find_link c (dec i)) as [l|] eqn:E; cbn [fst option_map].
    + rewrite E. split; [reflexivity|]. split; [reflexivity|]. rewrite <- E. apply same_other.
    + destruct (link_parse_see ps (new_link (dec i))) as (E1 & E2 & E3).
      assert (F : forall j, find_link (c ++ [link_parse (new_link (dec i)) ps]) (dec j) = if i =? j then Some (link_parse (new_link (dec i)) ps) else find_link c (dec j)).
      { intros j. rewrite find_link_app, E2. cbn [new_link cl_label]. rewrite case_dec. destruct (N.eqb_spec i j) as [<-|]; [rewrite E; reflexivity|]. destruct (find_link c (dec j)); reflexivity. }
      rewrite F, N.eqb_refl. cbn [option_map]. rewrite E1. split; [reflexivity|]. split; [|intros j; exact (F j)].
      intros mac Hm. rewrite !c_peer_eq, F, N.eqb_refl, E, E3 by exact Hm. reflexivity.
  - (* it goes *)
    rewrite !c_link_eq. destruct (find_link c (dec i)) as [l|] eqn:E; cbn [fst].
    + rewrite ?c_link_eq, find_link_filter, N.eqb_refl. split; [reflexivity|]. split; [|intros j; rewrite !find_link_filter, ?N.eqb_refl; reflexivity].
      intros mac Hm. rewrite c_peer_eq, find_link_filter, N.eqb_refl by exact Hm. reflexivity.
    + rewrite E. split; [reflexivity|]. split; [intros mac Hm; rewrite c_peer_eq, E by exact Hm; reflexivity|]. rewrite <- E. apply same_other.
  - (* it changes *)
    rewrite !c_link_eq. destruct (find_link c (dec i)) as [l|] eqn:E; cbn [fst option_map].
    + destruct (link_parse_see ps l) as (E1 & E2 & E3). assert (L := find_link_label _ _ _ E). rewrite <- E2 in L.
      assert (P := put_same c i _ l L E). rewrite P. cbn [option_map]. rewrite E1. split; [reflexivity|]. split; [|intros j; rewrite <- P; apply put_other; exact L].
      intros mac Hm. rewrite !c_peer_eq, P, E, E3 by exact Hm. reflexivity.
    + rewrite E. split; [reflexivity|]. split; [reflexivity|]. rewrite <- E. apply same_other.
  - (* a peer comes *)
    rewrite find_peer_plabel, link_of_plabel by exact Hs. rewrite !c_link_eq. destruct (find_link c (dec i)) as [l|] eqn:E; cbn [option_map].
    + destruct (link_peer (cl_peers l) (peer_label i m)) as [q|] eqn:Q; cbn [fst].
      * rewrite E. split; [reflexivity|]. split; [|rewrite <- E; apply same_other].
        intros mac Hm. destruct (eq_text m mac) eqn:M; [|reflexivity]. apply eq_text_spec in M. subst mac. rewrite c_peer_eq, E, Q by exact Hm. reflexivity.
      * destruct (peer_parse_see ps (new_peer (peer_label i m))) as (E1 & E2). destruct (peer_parse (new_peer (peer_label i m)) ps) as [q n] eqn:PP. cbn [fst] in *.
        assert (L := find_link_label _ _ _ E). set (l' := c_peers (cl_peers l ++ [q]) l). assert (L' : case_eq (cl_label l') (dec i) = true) by exact L.
        assert (P := put_same c i l' l L' E). rewrite P. split; [reflexivity|]. split; [|intros j; rewrite <- P; apply put_other; exact L'].
        intros mac Hm. rewrite !c_peer_eq, P, E by exact Hm. unfold l'. cbn [c_peers cl_peers]. rewrite link_peer_app, E2. cbn [new_peer cp_label]. rewrite case_plabel by assumption.
        destruct (eq_text m mac) eqn:M.
        -- apply eq_text_spec in M. subst mac. rewrite Q. cbn [option_map]. rewrite E1. reflexivity.
        -- destruct (link_peer (cl_peers l) (peer_label i mac)); reflexivity.
    + cbn [fst]. rewrite E. split; [reflexivity|]. split; [|rewrite <- E; apply same_other]. intros mac Hm. destruct (eq_text m mac); reflexivity.
  - (* it goes *)
    rewrite find_peer_plabel, link_of_plabel by exact Hs. rewrite !c_link_eq. destruct (find_link c (dec i)) as [l|] eqn:E; cbn [option_map].
    + destruct (link_peer (cl_peers l) (peer_label i m)) as [q|] eqn:Q; cbn [fst].
      * assert (L := find_link_label _ _ _ E). set (l' := c_peers (filter _ _) l). assert (L' : case_eq (cl_label l') (dec i) = true) by exact L.
        assert (P := put_same c i l' l L' E). rewrite P. split; [reflexivity|]. split; [|intros j; rewrite <- P; apply put_other; exact L'].
        intros mac Hm. rewrite !c_peer_eq, P, E by exact Hm. unfold l'. cbn [c_peers cl_peers]. rewrite link_peer_filter, case_plabel by assumption. destruct (eq_text m mac); reflexivity.
      * rewrite E. split; [reflexivity|]. split; [|rewrite <- E; apply same_other].
        intros mac Hm. destruct (eq_text m mac) eqn:M; [|reflexivity]. apply eq_text_spec in M. subst mac. rewrite c_peer_eq, E, Q by exact Hm. reflexivity.
    + cbn [fst]. rewrite E. split; [reflexivity|]. split; [|rewrite <- E; apply same_other]. intros mac Hm. destruct (eq_text m mac); reflexivity.
  - (* it changes *)
    rewrite find_peer_plabel, link_of_plabel by exact Hs. rewrite !c_link_eq. destruct (find_link c (dec i)) as [l|] eqn:E; cbn [option_map].
    + destruct (link_peer (cl_peers l) (peer_label i m)) as [q|] eqn:Q; cbn [fst].
      * destruct (peer_parse_see ps q) as (E1 & E2). destruct (peer_parse q ps) as [q' n] eqn:PP. cbn [fst] in *.
        assert (L := find_link_label _ _ _ E). set (l' := c_peers (c_put_p q' _) l). assert (L' : case_eq (cl_label l') (dec i) = true) by exact L.
        assert (P := put_same c i l' l L' E). rewrite P. split; [reflexivity|]. split; [|intros j; rewrite <- P; apply put_other; exact L'].
        intros mac Hm. rewrite !c_peer_eq, P, E by exact Hm. unfold l'. cbn [c_peers cl_peers].
        rewrite (link_peer_put _ q' (peer_label i m)) by (rewrite E2; exact (link_peer_label _ _ _ Q)). rewrite case_plabel by assumption.
        destruct (eq_text m mac) eqn:M; [|reflexivity]. apply eq_text_spec in M. subst mac. rewrite Q. cbn [option_map]. rewrite E1. reflexivity.
      * rewrite E. split; [reflexivity|]. split; [|rewrite <- E; apply same_other].
        intros mac Hm. destruct (eq_text m mac) eqn:M; [|reflexivity]. apply eq_text_spec in M. subst mac. rewrite c_peer_eq, E, Q by exact Hm. reflexivity.
    + cbn [fst]. rewrite E. split; [reflexivity|]. split; [|rewrite <- E; apply same_other]. intros mac Hm. destruct (eq_text m mac); reflexivity.
  - (* an answer *)
    rewrite !c_link_eq. destruct (find_link c (dec i)) as [l|] eqn:E; cbn [fst option_map].
    + set (l' := link_prop l (Managed b)). assert (L := find_link_label _ _ _ E). assert (L' : case_eq (cl_label l') (dec i) = true) by exact L.
      assert (P := put_same c i l' l L' E). rewrite P. split; [reflexivity|]. split; [|intros j; rewrite <- P; apply put_other; exact L'].
      intros mac Hm. rewrite !c_peer_eq, P, E by exact Hm. reflexivity.
    + rewrite E. split; [reflexivity|]. split; [reflexivity|]. rewrite <- E. apply same_other.
Qed.
Lemma said_else c i s j : sane s -> j <> i ->
  c_link (said c (enc i s)) j = c_link c j /\ forall mac, is_canon mac -> c_peer (said c (enc i s)) j mac = c_peer c j mac.
Proof. intros Hs. destruct (said_at c i s Hs) as (_ & _ & H). apply (by_link c (said c (enc i s)) i H). Qed.

(** ** Many signals about one link *)
Fixpoint says_l (ss : list saying) (o : option lview) : option lview := match ss with [] => o | s :: ss => says_l ss (say_l s o) end.
Fixpoint says_p (ss : list saying) (o : option lview) (mac : list byte) (q : option pview) : option pview :=
  match ss with [] => q | s :: ss => says_p ss (say_l s o) mac (say_p s o mac q) end.
Lemma hear_all_cons c s ss : fst (hear_all c (s :: ss)) = fst (hear_all (said c s) ss).
Proof. unfold said. cbn [hear_all]. destruct (hear c s) as [c1 n1]. cbn [fst]. destruct (hear_all c1 ss). reflexivity. Qed.
Lemma hear_all_app a : forall c b, fst (hear_all c (a ++ b)) = fst (hear_all (fst (hear_all c a)) b).
Proof. induction a as [|s a IH]; intros c b; [reflexivity|]. cbn [app]. rewrite !hear_all_cons, IH. reflexivity. Qed.
Lemma all_at i ss : forall c, Forall sane ss ->
  c_link (fst (hear_all c (map (enc i) ss))) i = says_l ss (c_link c i)
  /\ forall mac, is_canon mac -> c_peer (fst (hear_all c (map (enc i) ss))) i mac = says_p ss (c_link c i) mac (c_peer c i mac).
Proof.
  induction ss as [|s ss IH]; intros c H; [split; reflexivity|]. inversion H; subst. cbn [map]. rewrite hear_all_cons. cbn [says_l says_p].
  destruct (said_at c i s) as (E1 & E2 & _); [assumption|]. destruct (IH (said c (enc i s))) as (I1 & I2); [assumption|].
  split; [rewrite I1, E1; reflexivity|]. intros mac Hm. rewrite I2, E1, E2 by exact Hm. reflexivity.
Qed.
Lemma all_else i ss j : j <> i -> forall c, Forall sane ss ->
  c_link (fst (hear_all c (map (enc i) ss))) j = c_link c j /\ forall mac, is_canon mac -> c_peer (fst (hear_all c (map (enc i) ss))) j mac = c_peer c j mac.
Proof.
  intros Hj. induction ss as [|s ss IH]; intros c H; [split; reflexivity|]. inversion H; subst. cbn [map]. rewrite hear_all_cons.
  destruct (said_else c i s j) as (E1 & E2); [assumption|assumption|]. destruct (IH (said c (enc i s))) as (I1 & I2); [assumption|].
  split; [rewrite I1, E1; reflexivity|]. intros mac Hm. rewrite I2, E2 by exact Hm. reflexivity.
Qed.

(** What is told when a link goes. *)
Lemma find_first t l after : forall before, t <> [] -> case_eq (cl_label l) t = true -> (forall x, In x before -> case_eq (cl_label x) t = false) -> find_link (before ++ l :: after) t = Some l.
Proof.
  intros before N R. destruct t as [|x t]; [contradiction|].
  induction before as [|y before IH]; intros H; cbn [app find_link]; [now rewrite R|]. rewrite (H y (or_introl eq_refl)). apply IH. intros z I. apply H. now right.
Qed.
Theorem link_removed before l after : cl_label l <> [] -> (forall x, In x before -> case_eq (cl_label x) (cl_label l) = false) ->
  exists c, hear (before ++ l :: after) (Removed (LinkPath (cl_label l))) = (c, map (fun p => PeerFree (cp_label p)) (rev (cl_peers l)) ++ [LinkOff (cl_label l)]).
Proof.
  intros N H. cbn [hear remove_object].
  rewrite (find_first (cl_label l) l after before N (case_refl _) H). eexists. reflexivity.
Qed.
