From Verif Require Import Base DhcpOpt_Model DhcpOpt_Spec DhcpOpt_Proofs DhcpServer_Model DhcpServer_Spec DhcpServer_Proofs.

Lemma write_head (h tl d : list byte) off : off + lenN d <= lenN h ->
  mem_write (h ++ tl) off d = Ok ((takeN off h ++ d ++ dropN (off + lenN d) h) ++ tl).
Proof.
  intros H. unfold mem_write. len. replace (off + lenN d <=? lenN h + lenN tl) with true by lia.
  f_equal. rewrite takeN_app, dropN_app. replace (off - lenN h) with 0 by lia.
  replace (off + lenN d - lenN h) with 0 by lia. rewrite takeN_0, dropN_0, app_nil_r, <- !app_assoc. reflexivity.
Qed.
Lemma read_in (c : list byte) off n : off + n <= lenN c -> mem_read c off n = Ok (takeN n (dropN off c)).
Proof. intros. unfold mem_read. replace (off + n <=? lenN c) with true by lia. reflexivity. Qed.

Lemma head_ok ty c y tl : 628 <= lenN c -> ty = 2 \/ ty = 5 \/ ty = 6 ->
  (do xid <- mem_read c 4 4; do p <- mem_write (header ty ++ tl) 4 xid;
   do ch <- mem_read c 28 16; do p <- mem_write p 28 ch;
   do fl <- mem_read c 10 2; do p <- mem_write p 10 fl;
   do gw <- mem_read c 24 4; do p <- mem_write p 24 gw;
   do ci <- mem_read c 12 4; do p <- mem_write p 12 ci;
   mem_write p 16 (be32 y)) = Ok (reply_header c y ++ tl).
Proof.
  intros Hc Ht. rewrite !read_in by lia. cbn [bind].
  assert (L : forall k o, k + o <= 628 -> lenN (takeN k (dropN o c)) = k) by (intros; len; lia).
  pose proof (L 4 4 ltac:(lia)) as L1. pose proof (L 16 28 ltac:(lia)) as L2.
  pose proof (L 2 10 ltac:(lia)) as L3. pose proof (L 4 24 ltac:(lia)) as L4.
  pose proof (L 4 12 ltac:(lia)) as L5. unfold reply_header. pose proof (eq_refl (lenN (be32 y)) : lenN (be32 y) = 4) as L6.
  generalize dependent (takeN 4 (dropN 4 c)). generalize dependent (takeN 16 (dropN 28 c)).
  generalize dependent (takeN 2 (dropN 10 c)). generalize dependent (takeN 4 (dropN 24 c)).
  generalize dependent (takeN 4 (dropN 12 c)). generalize dependent (be32 y). clear - Ht.
  intros d6 L6 d5 L5 d4 L4 d3 L3 d2 L2 d1 L1.
  assert (E4 : forall d : list byte, lenN d = 4 -> exists a b c e, d = [a; b; c; e]).
  { intros d H. destruct d as [|a [|b [|c [|e [|f d]]]]]; unfold lenN in H; cbn [length] in H; try lia. now exists a, b, c, e. }
  assert (E2 : forall d : list byte, lenN d = 2 -> exists a b, d = [a; b]).
  { intros d H. destruct d as [|a [|b [|c d]]]; unfold lenN in H; cbn [length] in H; try lia. now exists a, b. }
  apply E4 in L1, L4, L5, L6. apply E2 in L3.
  destruct L1 as (? & ? & ? & ? & ->). destruct L4 as (? & ? & ? & ? & ->). destruct L5 as (? & ? & ? & ? & ->).
  destruct L6 as (? & ? & ? & ? & ->). destruct L3 as (? & ? & ->). clear E4 E2.
  unfold lenN in L2. do 16 (destruct d2 as [|? d2]; [cbn [length] in L2; lia|]).
  destruct d2; [|cbn [length] in L2; lia]. clear L2.
  assert (Hh : header ty = [2; 1; 6] ++ repeat 0 233 ++ [0x63; 0x82; 0x53; 0x63]).
  { unfold header. destruct Ht as [->|[->| ->]]; reflexivity. }
  rewrite Hh. clear.
  Ltac step_write tl :=
    rewrite write_head by (vm_compute; discriminate); cbn [bind];
    match goal with
    | |- context [mem_write (?h ++ tl) _ _] => let x := eval vm_compute in h in change h with x
    | |- Ok (?h ++ tl) = _ => let x := eval vm_compute in h in change h with x
    end.
  do 6 step_write tl. reflexivity.
Qed.

Lemma opts_wanted l : Forall (fun o : N * N => In (fst o) [1; 3; 6]) l -> forall os,
  lenN (encs os) + 6 * lenN l <= 306 ->
  fold_left add_opt (map (fun o => AddU32 (fst o) (snd o)) l) os = os ++ map (fun o => (fst o, be32 (snd o))) l
  /\ lenN (encs (os ++ map (fun o => (fst o, be32 (snd o))) l)) = lenN (encs os) + 6 * lenN l.
Proof.
  induction 1 as [|o l Ho Hl IH]; intros os H; cbn [map fold_left].
  - rewrite app_nil_r. split; [reflexivity|]. len. lia.
  - assert (W : wanted (AddU32 (fst o) (snd o)) = Some (fst o, be32 (snd o))).
    { cbn [wanted]. destruct Ho as [<-|[<-|[<-|[]]]]; reflexivity. }
    assert (A : add_opt os (AddU32 (fst o) (snd o)) = os ++ [(fst o, be32 (snd o))]).
    { unfold add_opt. rewrite W. change (lenN (enc (fst o, be32 (snd o)))) with 6. rewrite lenN_cons in H.
      replace (lenN (encs os) + 6 + 1 <=? 307) with true by lia. reflexivity. }
    rewrite A. rewrite lenN_cons in *.
    destruct (IH (os ++ [(fst o, be32 (snd o))])) as [E1 E2].
    { rewrite encs_app. len. change (lenN (encs [(fst o, be32 (snd o))])) with 6. lia. }
    rewrite <- app_assoc in E1, E2. change ([?x] ++ ?m) with (x :: m) in E1, E2. split; [exact E1|].
    refine (eq_trans E2 _). rewrite encs_app. len. change (lenN (encs [(fst o, be32 (snd o))])) with 6. lia.
Qed.

Lemma render_ok s c m : config_ok s -> 628 <= lenN c ->
  render s c m = Ok (Some (packet_with (reply_header c (reply_addr m)) (reply_options s m))).
Proof.
  intros [Hn Ho] Hc.
  set (more := match m with
    | Offer _ | Ack _ => AddU32 0x33 (secs s) :: map (fun o => AddU32 (fst o) (snd o)) (opts s)
    | Nak => [] | InformAck => map (fun o => AddU32 (fst o) (snd o)) (opts s) end).
  assert (R : render s c m =
    do r <- init_header (reply_type m);
    match r with
    | None => Ok None
    | Some p =>
        do xid <- mem_read c 4 4; do p <- mem_write p 4 xid;
        do ch <- mem_read c 28 16; do p <- mem_write p 28 ch;
        do fl <- mem_read c 10 2; do p <- mem_write p 10 fl;
        do gw <- mem_read c 24 4; do p <- mem_write p 24 gw;
        do ci <- mem_read c 12 4; do p <- mem_write p 12 ci;
        do p <- mem_write p 16 (be32 (reply_addr m));
        add_ops p (AddU32 0x36 (server_nip s) :: more)
    end).
  { unfold render. rewrite be32_eq. destruct m; reflexivity. }
  rewrite R. clear R. destruct (init_header_ok (reply_type m)) as [-> Hi]. cbn [bind].
  assert (Hh : lenN (reply_header c (reply_addr m)) = 240).
  { unfold reply_header. len. change (lenN (be32 (reply_addr m))) with 4. change (lenN (repeat 0 192)) with 192. lia. }
  assert (Ht : reply_type m = 2 \/ reply_type m = 5 \/ reply_type m = 6) by (destruct m; cbn; auto).
  unfold packet, packet_with at 1.
  pose proof (head_ok (reply_type m) c (reply_addr m)
    (encs [(53, [reply_type m])] ++ [255] ++ repeat 0 (N.to_nat (387 - lenN (encs [(53, [reply_type m])])))) Hc Ht) as H.
  match type of H with ?l = _ => set (chain := l) in H end.
  transitivity (do p <- chain; add_ops p (AddU32 54 (server_nip s) :: more)).
  { unfold chain. rewrite !read_in by lia. cbn [bind].
    repeat match goal with |- context [mem_write ?a ?b ?d] =>
      match a with context [mem_write] => fail 1 | _ => destruct (mem_write a b d); cbn [bind]; [|reflexivity] end end.
    reflexivity. }
  rewrite H. cbn [bind]. fold (packet_with (reply_header c (reply_addr m)) [(53, [reply_type m])]).
  assert (Hg : Forall good_add (AddU32 54 (server_nip s) :: more)).
  { assert (Ha : Forall good_add (map (fun o => AddU32 (fst o) (snd o)) (opts s))).
    { apply Forall_forall. intros x Hx. apply in_map_iff in Hx as (z & <- & _). exact I. }
    constructor; [exact I|]. unfold more. destruct m; try exact Ha; try constructor; try exact I; exact Ha. }
  rewrite (proj1 (add_ops_with _ _ Hh _ Hi Hg)). do 3 f_equal. clear - Hn Ho.
  change (fold_left add_opt (AddU32 54 (server_nip s) :: more) [(53, [reply_type m])])
    with (fold_left add_opt more [(53, [reply_type m]); (54, be32 (server_nip s))]).
  assert (Hl : lenN (opts s) <= 3) by (unfold lenN; lia).
  unfold more, reply_options, configured. destruct m; cbn [reply_type].
  - change (fold_left add_opt (AddU32 51 (secs s) :: ?l) [(53, [2]); (54, be32 (server_nip s))])
      with (fold_left add_opt l [(53, [2]); (54, be32 (server_nip s)); (51, be32 (secs s))]).
    apply (opts_wanted (opts s) Ho). change (lenN (encs _)) with 15. lia.
  - change (fold_left add_opt (AddU32 51 (secs s) :: ?l) [(53, [5]); (54, be32 (server_nip s))])
      with (fold_left add_opt l [(53, [5]); (54, be32 (server_nip s)); (51, be32 (secs s))]).
    apply (opts_wanted (opts s) Ho). change (lenN (encs _)) with 15. lia.
  - reflexivity.
  - apply (opts_wanted (opts s) Ho). change (lenN (encs _)) with 9. lia.
Qed.

(** ** Reading *)
Lemma received_size got : lenN (received got) = 628.
Proof. unfold received. len. change (lenN (repeat 0 628)) with 628. lia. Qed.
Lemma byte_in p i : i < lenN p -> exists b, byte_at p i = Ret b.
Proof. intros H. destruct (nthN_Some p i H) as (b & E). exists b. unfold byte_at. now rewrite E. Qed.
Lemma be32_in p i : i + 3 < lenN p -> exists v, get_be32 p i = Ret v.
Proof.
  intros H. unfold get_be32. destruct (byte_in p i) as (a & ->); [lia|]. destruct (byte_in p (i + 1)) as (b & ->); [lia|].
  destruct (byte_in p (i + 2)) as (c & ->); [lia|]. destruct (byte_in p (i + 3)) as (d & ->); [lia|].
  cbn [obind]. eexists. reflexivity.
Qed.
Lemma le32_in p i : i + 3 < lenN p -> exists v, get_le32 p i = Ret v.
Proof.
  intros H. unfold get_le32. destruct (byte_in p i) as (a & ->); [lia|]. destruct (byte_in p (i + 1)) as (b & ->); [lia|].
  destruct (byte_in p (i + 2)) as (c & ->); [lia|]. destruct (byte_in p (i + 3)) as (d & ->); [lia|].
  cbn [obind]. eexists. reflexivity.
Qed.

Lemma decode_safe s got : well_formed (received got) 240 -> addresses_long got ->
  exists r, decode 400 s got = Ret r.
Proof.
  intros W A. unfold decode. change (N.to_nat PACKET) with 628%nat. fold (received got). unfold PACKET. fold (received_len got).
  pose proof (received_size got) as Hl. assert (Hp : received_len got <= 628) by (unfold received_len; lia).
  unfold addresses_long in A. unfold received in *. 
  set (p := takeN 628 (got ++ repeat 0 628)) in *. set (n := received_len got) in *.
  destruct (negb _); [eexists; reflexivity|].
  assert (Look : forall code, exists r, lift (get_option 400 p n code) = Ret r
    /\ forall o, r = Some o -> get_option 400 p n code = Ok (Some (Some o)) /\ 242 <= o
       /\ exists l, nthN p (o - 1) = Some l /\ o + l < n).
  { intros code. destruct (lookup_well_formed p n code Hl Hp W) as (r & E & K). rewrite E. exists r.
    split; [reflexivity|]. intros o ->. split; [reflexivity|]. destruct (K o eq_refl) as (K1 & l & _ & K2 & K3). eauto. }
  assert (C : exists t, check_packet_type 400 p n = Ret t).
  { unfold check_packet_type. destruct (byte_in p 2) as (a & ->); [lia|]. cbn [obind].
    destruct (negb _); [eexists; reflexivity|]. destruct (byte_in p 0) as (b & ->); [lia|]. cbn [obind].
    destruct (negb _); [eexists; reflexivity|]. destruct (Look MESSAGE_TYPE) as (r & -> & K). cbn [obind].
    destruct r as [o|]; [|eexists; reflexivity]. destruct (K o eq_refl) as (_ & _ & l & _ & K3).
    destruct (byte_in p o) as (t & ->); [lia|]. cbn [obind]. eexists; reflexivity. }
  destruct C as (t & ->). cbn [obind]. destruct (t =? 0); [eexists; reflexivity|].
  assert (Addr : forall code, code = 50 \/ code = 54 -> exists v,
    obind (lift (get_option 400 p n code)) (fun o =>
      match o with None => Ret None | Some i => obind (get_be32 p i) (fun v => Ret (Some v)) end) = Ret v).
  { intros code Hcode. destruct (Look code) as (r & -> & K). cbn [obind]. destruct r as [o|]; [|eexists; reflexivity].
    destruct (K o eq_refl) as (E & _ & l & K2 & K3). pose proof (A code o l Hcode E K2).
    destruct (be32_in p o) as (v & ->); [lia|]. cbn [obind]. eexists; reflexivity. }
  destruct (Addr 54 (or_intror eq_refl)) as (sid & Hsid).
  destruct (lift (get_option 400 p n 54)) as [o| |]; cbn [obind] in Hsid |- *; try discriminate. rewrite Hsid. cbn [obind].
  match goal with |- exists r, (if ?b then _ else _) = _ => destruct b end; [eexists; reflexivity|].
  destruct (Addr 50 (or_introl eq_refl)) as (req & Hreq).
  destruct (lift (get_option 400 p n 50)) as [o2| |]; cbn [obind] in Hreq |- *; try discriminate. rewrite Hreq. cbn [obind].
  destruct (le32_in p 12) as (ci & ->); [lia|]. cbn [obind]. eexists; reflexivity.
Qed.

(** ** A client asking for its own address *)
Lemma own_address s fuel mem now i x : inv s -> has s x -> mac x = chaddr i -> type i = 3 -> requested i = nip x ->
  exists s', handle fuel mem now s i = Ret (s', [Ack (nip x)]) /\ has s' (mkLease (now + secs s) (nip x) (mac x)).
Proof.
  intros I Hx Hm T3 Hr. unfold handle. destruct (find_by_mac s (chaddr i) I) as (l & -> & Hl). cbn [obind].
  rewrite T3. change (3 =? 1) with false. change (3 =? 3) with true. cbv iota.
  replace (if (match req_ip i with Some v => v | None => 0 end) =? 0 then ciaddr i
           else match req_ip i with Some v => v | None => 0 end) with (nip x)
    by (rewrite <- Hr; unfold requested; destruct (req_ip i); [reflexivity|now rewrite N.eqb_refl]).
  destruct (t_range s (inv_table s I) x Hx) as [R0 R1].
  destruct (N.eqb_spec (nip x) 0) as [E|E]; [contradiction|].
  destruct l as [id|]; [|exfalso; now apply (Hl x)].
  destruct Hl as (Hid & y & Ey & Hy). cbn [obind]. unfold deref. rewrite Ey. cbn [obind].
  assert (y = x).
  { destruct Hx as (j & Hj & Ej). assert (j = id) by (eapply (i_mac s I); eauto; congruence). congruence. }
  subst y. rewrite N.eqb_refl. unfold send_ack.
  destruct (add_lease_ok mem now s 0 (chaddr i) (nip x) I) as (s' & r & -> & I' & C & K). cbn [obind].
  exists s'. split; [reflexivity|]. destruct r as [id'|].
  - destruct K as (_ & _ & _ & K). apply K. left. unfold fresh_lease. cbn [N.eqb]. now rewrite Hm.
  - exfalso. destruct K as (-> & [K|(_ & K)]).
    + assert (U : usable s (chaddr i) (nip x) = true); [|congruence]. apply usable_iff.
      destruct (t_client s (inv_table s I) x Hx) as [M1 M2]. rewrite <- Hm. split; split; auto.
    + now apply (K x Hx).
Qed.

Lemma own_address_option s fuel mem now i x : reachable s ->
  has s x -> mac x = chaddr i -> type i = 3 -> req_ip i = Some (nip x) ->
  exists s', handle fuel mem now s i = Ret (s', [Ack (nip x)]) /\ has s' (mkLease (now + secs s) (nip x) (mac x)).
Proof.
  intros R Hx Hm T3 Hr. apply reachable_inv in R as (I & _). apply own_address; auto.
  unfold requested. rewrite Hr. destruct (N.eqb_spec (nip x) 0) as [E|_]; [|reflexivity].
  now apply (t_range s (inv_table s I) x Hx) in E.
Qed.
