From Verif Require Import Base ArpPkt_Model ArpPkt_Spec.

Lemma sub_byte a : a mod 256 < 256. Proof. lia. Qed.
Lemma bytes16_htons n : n < 65536 -> bytes16 (htons n) = [n / 256; n mod 256].
Proof. intros H. unfold bytes16, htons. f_equal; [lia|f_equal; lia]. Qed.
Lemma htonl_parts a b c d : a < 256 -> b < 256 -> c < 256 -> d < 256 ->
  bytes32 (a * 16777216 + b * 65536 + c * 256 + d) = [d; c; b; a].
Proof.
  intros. unfold bytes32.
  assert (E0 : (a * 16777216 + b * 65536 + c * 256 + d) mod 256 = d)
    by (replace (a * 16777216 + b * 65536 + c * 256 + d) with (d + (a * 65536 + b * 256 + c) * 256) by lia; rewrite N.mod_add by lia; apply N.mod_small; lia).
  assert (E1 : (a * 16777216 + b * 65536 + c * 256 + d) / 256 = a * 65536 + b * 256 + c)
    by (symmetry; apply (N.div_unique _ _ _ d); lia).
  assert (E2 : (a * 16777216 + b * 65536 + c * 256 + d) / 65536 = a * 256 + b)
    by (symmetry; apply (N.div_unique _ _ _ (c * 256 + d)); lia).
  assert (E3 : (a * 16777216 + b * 65536 + c * 256 + d) / 16777216 = a)
    by (symmetry; apply (N.div_unique _ _ _ (b * 65536 + c * 256 + d)); lia).
  rewrite E0, E1, E2, E3. f_equal. f_equal.
  - replace (a * 65536 + b * 256 + c) with (c + (a * 256 + b) * 256) by lia; rewrite N.mod_add by lia; apply N.mod_small; lia.
  - f_equal.
    + replace (a * 256 + b) with (b + a * 256) by lia; rewrite N.mod_add by lia; apply N.mod_small; lia.
    + f_equal. apply N.mod_small; lia.
Qed.
Lemma bytes32_htonl n :
  bytes32 (htonl n) = [n / 16777216 mod 256; n / 65536 mod 256; n / 256 mod 256; n mod 256].
Proof. unfold htonl. apply htonl_parts; apply sub_byte. Qed.
Lemma value4 a b c d : value [a; b; c; d] = ((a * 256 + b) * 256 + c) * 256 + d.
Proof. reflexivity. Qed.
Lemma parts n : n < 2 ^ 32 -> value [n / 16777216 mod 256; n / 65536 mod 256; n / 256 mod 256; n mod 256] = n.
Proof.
  intros H. rewrite value4. change (2 ^ 32) with 4294967296 in H.
  replace (n / 65536) with (n / 256 / 256) by (rewrite N.div_div by lia; reflexivity).
  replace (n / 16777216) with (n / 256 / 256 / 256) by (rewrite !N.div_div by lia; reflexivity).
  assert (n / 256 / 256 / 256 < 256) by (rewrite !N.div_div by lia; apply N.div_lt_upper_bound; lia).
  rewrite (N.mod_small (n / 256 / 256 / 256)) by assumption.
  pose proof (N.div_mod n 256). pose proof (N.div_mod (n / 256) 256). pose proof (N.div_mod (n / 256 / 256) 256). lia.
Qed.
Lemma same_iff a b : same a b = true <-> a = b.
Proof.
  revert b; induction a as [|x a IH]; intros [|y b]; cbn [same]; split; try discriminate; try reflexivity.
  - intros H. apply andb_true_iff in H as [H1 H2]. apply N.eqb_eq in H1. apply IH in H2. congruence.
  - intros H. injection H as -> ->. rewrite N.eqb_refl. now apply IH.
Qed.

Lemma mac_six mac : hw_address mac -> exists a b c d e f, mac = [a; b; c; d; e; f].
Proof.
  intros [H _]. destruct mac as [|a [|b [|c [|d [|e [|f [|]]]]]]]; try discriminate. repeat eexists.
Qed.
Lemma packet_is mac src tgt : hw_address mac ->
  packet mac src tgt = Ok ([0; 1; 8; 0; 6; 4; 0; 1] ++ mac ++ bytes32 (htonl src) ++ repeat 0 6 ++ bytes32 (htonl tgt)).
Proof.
  intros H. destruct (mac_six _ H) as (a & b & c & d & e & f & ->).
  unfold packet. rewrite !bytes32_htonl. reflexivity.
Qed.
Lemma packet_says mac src tgt p : hw_address mac -> ip_address src -> ip_address tgt ->
  packet mac src tgt = Ok p -> lenN p = 28 /\ Forall is_byte p /\ says p = question mac src tgt.
Proof.
  intros H Hs Ht E. rewrite packet_is in E by assumption.
  match type of E with Ok ?q = _ => assert (p = q) as -> by congruence end. clear E.
  destruct (mac_six _ H) as (a & b & c & d & e & f & ->). rewrite !bytes32_htonl.
  split; [reflexivity|split].
  - apply Forall_app; split; [repeat constructor; reflexivity|].
    apply Forall_app; split; [apply H|].
    repeat (constructor; [unfold is_byte; first [apply sub_byte|reflexivity]|]). constructor.
  - transitivity (question [a; b; c; d; e; f]
      (value [src / 16777216 mod 256; src / 65536 mod 256; src / 256 mod 256; src mod 256])
      (value [tgt / 16777216 mod 256; tgt / 65536 mod 256; tgt / 256 mod 256; tgt mod 256])); [reflexivity|].
    rewrite !parts by assumption. reflexivity.
Qed.

Lemma sends w mac src tgt ifi : hw_address mac -> ip_address src -> ip_address tgt ->
  exists l r, send_arp w mac src tgt ifi = Ok (l, r) /\ left_open w l = 0%Z /\
    ((w_socket w < 0)%Z /\ r = w_socket w /\ sent l = [] \/
     (0 <= w_socket w)%Z /\ (w_bind w < 0)%Z /\ r = w_bind w /\ sent l = [] \/
     (0 <= w_socket w)%Z /\ (0 <= w_bind w)%Z /\ r = w_send w /\ exists p, sent l = [(p, broadcast ifi)] /\
       lenN p = 28 /\ Forall is_byte p /\ says p = question mac src tgt).
Proof.
  intros H Hs Ht. unfold send_arp.
  destruct (w_socket w <? 0)%Z eqn:Es.
  { do 2 eexists; split; [reflexivity|]. cbn [left_open sent app]. rewrite Es. split; [reflexivity|].
    left. apply Z.ltb_lt in Es. auto. }
  replace (mem_write (memset 0 8) 0 (memset 255 ETH_ALEN)) with (Ok (repeat 255 6 ++ [0; 0])) by reflexivity.
  cbn [Base.bind]. change (htons ETH_P_ARP) with 0x0608.
  destruct (w_bind w <? 0)%Z eqn:Eb.
  { do 2 eexists; split; [reflexivity|]. cbn [left_open sent app]. rewrite Es. split; [reflexivity|].
    right; left. apply Z.ltb_lt in Eb. apply Z.ltb_ge in Es. auto. }
  destruct (packet mac src tgt) as [p|] eqn:Ep; [|rewrite packet_is in Ep by assumption; discriminate].
  cbn [Base.bind]. do 2 eexists; split; [reflexivity|]. cbn [left_open sent app]. rewrite Es. split; [reflexivity|].
  right; right. apply Z.ltb_ge in Eb, Es. split; [assumption|]. split; [assumption|]. split; [reflexivity|].
  exists p. split; [reflexivity|]. eapply packet_says; eauto.
Qed.

(** Receiving *)
Lemma at_len l off n : lenN (at_ l off n) = n.
Proof. unfold at_. len. unfold lenN. rewrite repeat_length. lia. Qed.
Lemma repeat_drop (x : N) n m : dropN n (repeat x m) = repeat x (m - N.to_nat n).
Proof. unfold dropN. generalize (N.to_nat n) as k. intros k; revert m; induction k as [|k IH]; intros [|m]; cbn [skipn repeat Nat.sub]; auto. Qed.
Lemma repeat_take (x : N) n m : takeN n (repeat x m) = repeat x (Nat.min (N.to_nat n) m).
Proof. unfold takeN. generalize (N.to_nat n) as k. intros k; revert m; induction k as [|k IH]; intros [|m]; cbn [firstn repeat Nat.min]; auto. f_equal; auto. Qed.
Lemma load_at pkt : exists m, load pkt = Ok m /\ forall off n, off + n <= 28 -> mem_read m off n = Ok (at_ pkt off n).
Proof.
  unfold load, mem_write, arp_size, memset.
  replace (0 + lenN (takeN 28 pkt) <=? lenN (repeat 0 (N.to_nat 28))) with true
    by (symmetry; apply N.leb_le; rewrite lenN_takeN; change (lenN (repeat 0 (N.to_nat 28))) with 28; lia).
  eexists; split; [reflexivity|]. intros off n H.
  unfold mem_read. rewrite takeN_0. cbn [app].
  replace (off + n <=? lenN (takeN 28 pkt ++ dropN (0 + lenN (takeN 28 pkt)) (repeat 0 (N.to_nat 28)))) with true.
  2:{ symmetry; apply N.leb_le. len. change (lenN (repeat 0 (N.to_nat 28))) with 28. lia. }
  f_equal. unfold at_. rewrite !takeN_dropN_comm. f_equal. rewrite !takeN_app, takeN_takeN.
  replace (N.min (off + n) 28) with (off + n) by lia. f_equal.
  rewrite repeat_drop, !repeat_take. f_equal. len. lia.
Qed.
Lemma at_bytes l off n : Forall is_byte l -> Forall is_byte (at_ l off n).
Proof.
  intros H. unfold at_, takeN, dropN. apply Forall_forall. intros x Hx.
  assert (In x (l ++ repeat 0 (N.to_nat (off + n)))) as Hi.
  { rewrite <- (firstn_skipn (N.to_nat off)). apply in_or_app; right.
    rewrite <- (firstn_skipn (N.to_nat n)). apply in_or_app; left. exact Hx. }
  apply in_app_or in Hi as [Hi|Hi]; [rewrite Forall_forall in H; auto|].
  apply repeat_spec in Hi. subst. reflexivity.
Qed.
Lemma len4 (l : list N) : lenN l = 4 -> exists a b c d, l = [a; b; c; d].
Proof.
  unfold lenN; intros H. destruct l as [|a [|b [|c [|d [|]]]]]; cbn [length] in H; try lia. repeat eexists.
Qed.
Lemma len2 (l : list N) : lenN l = 2 -> exists a b, l = [a; b].
Proof. unfold lenN; intros H. destruct l as [|a [|b [|]]]; cbn [length] in H; try lia. repeat eexists. Qed.
Lemma same16 l n : lenN l = 2 -> Forall is_byte l -> n < 65536 -> same l (bytes16 (htons n)) = (value l =? n).
Proof.
  intros H F Hn. destruct (len2 _ H) as (a & b & ->). rewrite bytes16_htons by assumption.
  inversion F as [|? ? Fa F']; subst. inversion F' as [|? ? Fb _]; subst. unfold is_byte in *.
  change (value [a; b]) with ((0 * 256 + a) * 256 + b).
  apply eq_true_iff_eq. rewrite same_iff, N.eqb_eq. split.
  - intros E. injection E as E1 E2. pose proof (N.div_mod n 256). lia.
  - intros <-. f_equal; [|f_equal].
    + apply (N.div_unique _ _ _ b); lia.
    + apply (N.mod_unique _ _ a); lia.
Qed.
Lemma value_parts a b c d n : a < 256 -> b < 256 -> c < 256 -> d < 256 -> n = value [a; b; c; d] ->
  [n / 16777216 mod 256; n / 65536 mod 256; n / 256 mod 256; n mod 256] = [a; b; c; d].
Proof.
  intros Ha Hb Hc Hd ->. rewrite value4.
  pose proof (htonl_parts a b c d Ha Hb Hc Hd) as E. unfold bytes32 in E.
  replace (((a * 256 + b) * 256 + c) * 256 + d) with (a * 16777216 + b * 65536 + c * 256 + d) by lia.
  injection E as E0 E1 E2 E3. rewrite E0, E1, E2, E3. reflexivity.
Qed.
Lemma same32 l n : lenN l = 4 -> Forall is_byte l -> ip_address n -> same l (bytes32 (htonl n)) = (value l =? n).
Proof.
  intros H F Hn. destruct (len4 _ H) as (a & b & c & d & ->). rewrite bytes32_htonl.
  inversion F as [|? ? Fa F1]; subst. inversion F1 as [|? ? Fb F2]; subst.
  inversion F2 as [|? ? Fc F3]; subst. inversion F3 as [|? ? Fd _]; subst. unfold is_byte in *.
  apply eq_true_iff_eq. rewrite same_iff, N.eqb_eq. split.
  - intros ->. now apply parts.
  - intros E. symmetry. now apply value_parts.
Qed.
Lemma reads_packet ip pkt : ip_address ip -> Forall is_byte pkt -> recv_arp ip pkt = Ok (verdict ip (says pkt)).
Proof.
  intros Hi F. unfold recv_arp. destruct (load_at pkt) as (m & -> & R). cbn [Base.bind].
  rewrite (R arp_op 2) by (unfold arp_op; lia). cbn [Base.bind].
  rewrite !same16 by (first [apply at_len|now apply at_bytes|reflexivity]).
  rewrite (R arp_spa 4), (R arp_tpa 4) by (unfold arp_spa, arp_tpa; lia). cbn [Base.bind].
  rewrite !same32 by (first [apply at_len|now apply at_bytes|assumption]).
  unfold verdict. cbn [operation sender_ip target_ip says]. unfold ARPOP_REPLY, ARPOP_REQUEST, arp_op, arp_spa, arp_tpa.
  destruct (value (at_ pkt 6 2) =? 2), (value (at_ pkt 6 2) =? 1); reflexivity.
Qed.
Lemma socket_listens w ifi :
  let (l, r) := arp_socket w ifi in
  sent l = [] /\ ((0 <= w_socket w)%Z -> (w_bind w <= 0)%Z ->
    (r < 0)%Z /\ left_open w l = 0%Z \/ r = w_socket w /\ w_bind w = 0%Z /\ left_open w l = 1%Z /\ In (Bind (LL 0x0608 ifi 0 (repeat 0 8))) l) /\
  ((w_socket w < 0)%Z -> (r < 0)%Z /\ left_open w l = 0%Z).
Proof.
  unfold arp_socket. change (htons ETH_P_ARP) with 0x0608. change (memset 0 8) with (repeat 0 8).
  destruct (w_socket w <? 0)%Z eqn:E.
  - cbn [left_open sent]. rewrite E. apply Z.ltb_lt in E. split; [reflexivity|]. split; [lia|]. intros _; split; [lia|reflexivity].
  - pose proof E as E'. apply Z.ltb_ge in E'. destruct (w_bind w =? 0)%Z eqn:B; cbn [left_open sent app]; rewrite E; split; try reflexivity.
    + apply Z.eqb_eq in B. split; [intros _ _; right; split; [reflexivity|]; split; [exact B|]; split; [reflexivity|right; left; reflexivity]|lia].
    + apply Z.eqb_neq in B. split; [intros _ Hb; left; split; [lia|reflexivity]|lia].
Qed.
