(** Proofs about the addresses and the command line of miracle-dhcp. *)
From Coq Require Import String.
From Verif Require Import Base Text Text_Proofs Settings_Model Settings_Spec Settings_Proofs DhcpMain_Model DhcpMain_Spec.
From Verif Require WpasMsg_Model WpasMsg_Proofs Settings_Player DhcpVal_Proofs.
Local Open Scope list_scope.

(** ** Numbers below 256 *)
Definition upto (n : nat) : list N := map N.of_nat (seq 0 n).
Lemma in_upto n a : a < N.of_nat n -> In a (upto n).
Proof. intros H. unfold upto. apply in_map_iff. exists (N.to_nat a). split; [lia|]. apply in_seq. lia. Qed.
Definition beq (a b : list N) : bool := if list_eq_dec N.eq_dec a b then true else false.
Lemma beq_eq a b : beq a b = true -> a = b.
Proof. unfold beq. destruct (list_eq_dec N.eq_dec a b); [auto|discriminate]. Qed.
Definition shape3 (a : N) : list N :=
  if a <? 10 then [48 + a] else if a <? 100 then [48 + a / 10; 48 + a mod 10] else [48 + a / 100; 48 + a / 10 mod 10; 48 + a mod 10].
Lemma dec_shape a : a < 256 -> dec a = shape3 a.
Proof.
  intros H. assert (F : forallb (fun a => beq (dec a) (shape3 a)) (upto 256) = true) by (vm_compute; reflexivity).
  rewrite forallb_forall in F. apply beq_eq, F, in_upto. exact H.
Qed.
Lemma dec_snoc a d : a <> 0 -> d < 10 -> a * 10 + d < 256 -> dec (a * 10 + d) = dec a ++ [48 + d].
Proof.
  intros A D H. rewrite !dec_shape by lia. unfold shape3.
  replace (a * 10 + d <? 10) with false by lia.
  destruct (a <? 10) eqn:L1.
  - replace (a * 10 + d <? 100) with true by lia. cbn [app]. repeat (apply (f_equal2 cons); [lia|]). reflexivity.
  - replace (a * 10 + d <? 100) with false by lia. replace (a <? 100) with true by lia. cbn [app]. repeat (apply (f_equal2 cons); [lia|]). reflexivity.
Qed.

(** ** inet_pton *)
Lemma pton_number a r k done : a < 256 -> k < 4 -> pton (dec a ++ r) 0 false k done = pton r a true (k + 1) done.
Proof.
  intros A K. rewrite dec_shape by exact A. unfold shape3.
  destruct (a <? 10) eqn:L1; [|destruct (a <? 100) eqn:L2]; cbn [app pton andb].
  - unfold is_dec. replace ((48 <=? 48 + a) && (48 + a <=? 57)) with true by lia.
    replace (255 <? 0 * 10 + (48 + a - 48)) with false by lia. replace (4 <? k + 1) with false by lia. f_equal. lia.
  - unfold is_dec. replace ((48 <=? 48 + a / 10) && (48 + a / 10 <=? 57)) with true by lia.
    replace (255 <? 0 * 10 + (48 + a / 10 - 48)) with false by lia. replace (4 <? k + 1) with false by lia. cbn [andb].
    replace ((48 <=? 48 + a mod 10) && (48 + a mod 10 <=? 57)) with true by lia.
    replace (0 * 10 + (48 + a / 10 - 48) =? 0) with false by lia.
    replace (255 <? (0 * 10 + (48 + a / 10 - 48)) * 10 + (48 + a mod 10 - 48)) with false by lia. f_equal. lia.
  - unfold is_dec. replace ((48 <=? 48 + a / 100) && (48 + a / 100 <=? 57)) with true by lia.
    replace (255 <? 0 * 10 + (48 + a / 100 - 48)) with false by lia. replace (4 <? k + 1) with false by lia. cbn [andb].
    replace ((48 <=? 48 + a / 10 mod 10) && (48 + a / 10 mod 10 <=? 57)) with true by lia.
    replace (0 * 10 + (48 + a / 100 - 48) =? 0) with false by lia.
    replace (255 <? (0 * 10 + (48 + a / 100 - 48)) * 10 + (48 + a / 10 mod 10 - 48)) with false by lia. cbn [andb].
    replace ((48 <=? 48 + a mod 10) && (48 + a mod 10 <=? 57)) with true by lia.
    replace ((0 * 10 + (48 + a / 100 - 48)) * 10 + (48 + a / 10 mod 10 - 48) =? 0) with false by lia.
    replace (255 <? ((0 * 10 + (48 + a / 100 - 48)) * 10 + (48 + a / 10 mod 10 - 48)) * 10 + (48 + a mod 10 - 48)) with false by lia. f_equal. lia.
Qed.
Lemma pton_dot r a k done : k <> 4 -> pton (46 :: r) a true k done = pton r 0 false k (done ++ [a]).
Proof. intros K. cbn [pton]. change (is_dec 46) with false. change ((46 =? 46) && true) with true. now replace (k =? 4) with false by lia. Qed.
Lemma pton_dotted s a b c d : dotted s a b c d -> inet_pton s = Some [a; b; c; d].
Proof.
  intros (A & B & C & D & ->). change (text ".") with [46]. unfold inet_pton. rewrite pton_number by lia. cbn [app].
  rewrite pton_dot, pton_number by lia. rewrite pton_dot, pton_number by lia. rewrite pton_dot by lia.
  replace (dec d) with (dec d ++ []) by apply app_nil_r. rewrite pton_number by lia. reflexivity.
Qed.
Definition goes_on (r : list byte) (a k : N) (done q : list N) : Prop :=
  (r = [] /\ 4 <= k /\ q = done ++ [a]) \/ exists r', r = 46 :: r' /\ k <> 4 /\ pton r' 0 false k (done ++ [a]) = Some q.
Lemma pton_in s : forall tp k done q, tp < 256 -> pton s tp true k done = Some q ->
  exists a r, a < 256 /\ dec tp ++ s = dec a ++ r /\ goes_on r a k done q.
Proof.
  induction s as [|c s IH]; intros tp k done q T H; cbn [pton] in H.
  - destruct (k <? 4) eqn:K; [discriminate|]. exists tp, []. repeat split; auto. left. repeat split; [lia|congruence].
  - destruct (is_dec c) eqn:D.
    + cbn [andb] in H. destruct (tp =? 0) eqn:Z; [discriminate|]. destruct (255 <? tp * 10 + (c - 48)) eqn:L; [discriminate|].
      unfold is_dec in D. destruct (IH (tp * 10 + (c - 48)) k done q) as (a & r & A & E & G); [lia|exact H|]. exists a, r. repeat split; auto.
      rewrite <- E, dec_snoc by lia. rewrite <- app_assoc. cbn [app]. do 2 f_equal. lia.
    + destruct (c =? 46) eqn:Dot; cbn [andb] in H; [|discriminate]. destruct (k =? 4) eqn:K; [discriminate|].
      exists tp, (c :: s). repeat split; auto. right. exists s. repeat split; [f_equal; lia|lia|exact H].
Qed.
Lemma pton_begin s k done q : k < 4 -> pton s 0 false k done = Some q ->
  exists a r, a < 256 /\ s = dec a ++ r /\ goes_on r a (k + 1) done q.
Proof.
  intros K H. destruct s as [|c s]; cbn [pton] in H; [replace (k <? 4) with true in H by lia; discriminate|].
  destruct (is_dec c) eqn:D; [|destruct (c =? 46); discriminate]. cbn [andb] in H.
  destruct (255 <? 0 * 10 + (c - 48)) eqn:L; [discriminate|]. destruct (4 <? k + 1) eqn:K'; [discriminate|].
  unfold is_dec in D. destruct (pton_in s (0 * 10 + (c - 48)) (k + 1) done q) as (a & r & A & E & G); [lia|exact H|]. exists a, r. repeat split; auto.
  rewrite <- E. rewrite dec_shape by lia. unfold shape3. replace (0 * 10 + (c - 48) <? 10) with true by lia. cbn [app]. f_equal. lia.
Qed.
Lemma pton_back s q : inet_pton s = Some q -> exists a b c d, dotted s a b c d /\ q = [a; b; c; d].
Proof.
  intros H. unfold inet_pton in H.
  destruct (pton_begin _ 0 _ _ ltac:(lia) H) as (a & r & A & -> & [(_ & K & _)|(r1 & -> & _ & H1)]); [lia|].
  destruct (pton_begin _ (0 + 1) _ _ ltac:(lia) H1) as (b & r & B & -> & [(_ & K & _)|(r2 & -> & _ & H2)]); [lia|].
  destruct (pton_begin _ (0 + 1 + 1) _ _ ltac:(lia) H2) as (c & r & C & -> & [(_ & K & _)|(r3 & -> & _ & H3)]); [lia|].
  destruct (pton_begin _ (0 + 1 + 1 + 1) _ _ ltac:(lia) H3) as (d & r & D & -> & [(-> & _ & ->)|(r4 & _ & K & _)]); [|lia].
  exists a, b, c, d. split; [|reflexivity]. repeat split; auto. change (text ".") with [46]. rewrite app_nil_r. reflexivity.
Qed.
Lemma pton_iff s q : inet_pton s = Some q <-> exists a b c d, dotted s a b c d /\ q = [a; b; c; d].
Proof. split; [apply pton_back|]. intros (a & b & c & d & D & ->). now apply pton_dotted. Qed.
Lemma ntop_dotted s a b c d : dotted s a b c d -> inet_ntop [a; b; c; d] = s.
Proof. intros (_ & _ & _ & _ & ->). reflexivity. Qed.
Lemma dotted_len s a b c d : dotted s a b c d -> lenN s < 16.
Proof.
  intros (A & B & C & D & ->). change (text ".") with [46].
  pose proof (DhcpVal_Proofs.dec3 a A). pose proof (DhcpVal_Proofs.dec3 b B). pose proof (DhcpVal_Proofs.dec3 c C). pose proof (DhcpVal_Proofs.dec3 d D). len. lia.
Qed.
Lemma subnet_iff s t : make_subnet s = Some t <-> is_address t /\ t = s.
Proof.
  unfold make_subnet. split.
  - destruct (inet_pton s) as [q|] eqn:E; [|discriminate]. intros [= <-]. apply pton_back in E as (a & b & c & d & D & ->).
    rewrite (ntop_dotted _ _ _ _ _ D). split; [now exists a, b, c, d|reflexivity].
  - intros ((a & b & c & d & D) & ->). rewrite (pton_dotted _ _ _ _ _ D). now rewrite (ntop_dotted _ _ _ _ _ D).
Qed.
Lemma address_iff p x t : make_address p x = Some t <->
  is_address t /\ t = match p with Some p => p | None => text "192.168.77" end ++ text "." ++ x.
Proof.
  unfold make_address, or. set (buf := match p with Some a => a | None => text "192.168.77" end ++ 46 :: x).
  change (match p with Some p => p | None => text "192.168.77" end ++ text "." ++ x) with buf.
  pose proof (subnet_iff buf t) as S. unfold make_subnet in S. unfold INET_ADDRSTRLEN. destruct (16 <=? lenN buf) eqn:L; [|exact S].
  split; [discriminate|]. intros ((a & b & c & d & D) & ->). apply dotted_len in D. lia.
Qed.

(** ** The command line *)
Lemma dhcp_longs_good : good_longs dhcp_longs. Proof. good_l. Qed.
Lemma dhcp_shorts_good : good_shorts dhcp_shorts. Proof. good_s. Qed.
Lemma dhcp_start_rules : dhcp_rules [] d_start.
Proof.
  refine (conj _ (conj _ (conj _ (conj _ (conj _ (conj _ (conj _ (conj _ (conj _ (conj _ (conj _ (conj _ (conj _ _))))))))))))); hits.
Qed.
Lemma dhcp_step es e s : dhcp_rules es s -> ~ ending dhcp_finish e -> ints [OCommFd] [e] ->
  exists s', dhcp_opt e s = Ok (Go s') /\ dhcp_rules (es ++ [e]) s'.
Proof.
  intros R Ne I. destruct s as [l d t n i c sv p lo g dn su f o].
  destruct R as (R1 & R2 & R3 & R4 & R5 & R6 & R7 & R8 & R9 & R10 & R11 & R12 & R13 & R14).
  cbn [d_level d_date d_time d_netdev d_ip d_comm d_server d_prefix d_local d_gateway d_dns d_subnet d_from d_to] in *.
  destruct e as [x v|]; [|elim Ne; exact Logic.I].
  destruct x; cbn [dhcp_opt];
    try (elim Ne; cbn; tauto);
    try (destruct (num_ok _ _ _ I) as (z & E); [cbn; tauto|]; rewrite E; cbn [bind]; assert (E' : z = num_of v) by (unfold num_of; now rewrite E));
    eexists; (split; [reflexivity|]); unfold dhcp_rules;
    cbn [d_level d_date d_time d_netdev d_ip d_comm d_server d_prefix d_local d_gateway d_dns d_subnet d_from d_to];
    refine (conj _ (conj _ (conj _ (conj _ (conj _ (conj _ (conj _ (conj _ (conj _ (conj _ (conj _ (conj _ (conj _ _)))))))))))));
    try hits; try (eapply decides_hit; [eassumption|exact E']).
Qed.
Lemma dhcp_ends e s : ending dhcp_finish e -> dhcp_opt e s = Ok (match e with GBad => Refuse | _ => Finish end).
Proof.
  destruct s. destruct e as [o v|]; [|reflexivity]. cbn [ending dhcp_finish In]. intros H. destruct o; cbn [dhcp_opt]; try reflexivity; exfalso; intuition discriminate.
Qed.
Lemma settle_iff access ops s f : settle access ops s = Go f <-> ops = [] /\ access (d_ip s) = true /\ configured s f.
Proof.
  unfold settle, configured. destruct ops as [|w ops]; [|split; [discriminate|intros ([=] & _)]].
  destruct (d_netdev s) as [n|]; [|split; [discriminate|intros (_ & _ & [=] & _)]].
  destruct (access (d_ip s)); cbn [negb]; [|split; [discriminate|intros (_ & [=] & _)]].
  destruct f as [fn fi fc fl fs]. cbn [f_netdev f_ip f_comm f_level f_serve].
  destruct (d_server s) eqn:Es; cbn [negb].
  - unfold make_all.
    destruct fs as [[xl xg xd xs xf xt]|]; cbn [a_local a_gateway a_dns a_subnet a_from a_to].
    + pose proof (address_iff (d_prefix s) (or (d_local s) (text "1")) xl) as H1.
      pose proof (address_iff (d_prefix s) (or (d_gateway s) (text "1")) xg) as H2.
      pose proof (address_iff (d_prefix s) (or (d_dns s) (text "1")) xd) as H3.
      pose proof (subnet_iff (or (d_subnet s) (text "255.255.255.0")) xs) as H4.
      pose proof (address_iff (d_prefix s) (or (d_from s) (text "100")) xf) as H5.
      pose proof (address_iff (d_prefix s) (or (d_to s) (text "199")) xt) as H6.
      unfold or at 2 in H1. unfold or at 2 in H2. unfold or at 2 in H3. unfold or at 2 in H4. unfold or at 2 in H5. unfold or at 2 in H6.
      unfold part. rewrite <- H1, <- H2, <- H3, <- H4, <- H5, <- H6. clear.
      destruct (make_address _ (or (d_local s) _)) as [y1|]; [|split; [discriminate|intuition discriminate]].
      destruct (make_address _ (or (d_gateway s) _)) as [y2|]; [|split; [discriminate|intuition discriminate]].
      destruct (make_address _ (or (d_dns s) _)) as [y3|]; [|split; [discriminate|intuition discriminate]].
      destruct (make_subnet _) as [y4|]; [|split; [discriminate|intuition discriminate]].
      destruct (make_address _ (or (d_from s) _)) as [y5|]; [|split; [discriminate|intuition discriminate]].
      destruct (make_address _ (or (d_to s) _)) as [y6|]; [|split; [discriminate|intuition discriminate]].
      split; [intros H; inversion H; subst; intuition reflexivity|].
      intros (_ & _ & E1 & E2 & E3 & E4 & _ & E5 & E6 & E7 & E8 & E9 & E10). congruence.
    + split; [|intros (_ & _ & _ & _ & _ & _ & H & _); discriminate].
      destruct (make_address _ _); [|discriminate]. destruct (make_address _ _); [|discriminate]. destruct (make_address _ _); [|discriminate].
      destruct (make_subnet _); [|discriminate]. destruct (make_address _ _); [|discriminate]. destruct (make_address _ _); discriminate.
  - destruct fs as [a|]; [split; [|intros (_ & _ & _ & _ & _ & _ & H & _); discriminate]|].
    + destruct (_ && _); discriminate.
    + destruct (d_prefix s), (d_local s), (d_gateway s), (d_dns s), (d_subnet s), (d_from s), (d_to s); cbn [is_none andb];
        (split; [intros H; inversion H; subst; intuition reflexivity|intros (_ & _ & E1 & E2 & E3 & E4 & F); try (exfalso; intuition discriminate)]).
      congruence.
Qed.
Lemma dhcp_started access argv es ops : line dhcp_letters dhcp_names argv es ops ->
  (forall e, In e es -> ~ ending dhcp_finish e) -> ints [OCommFd] es ->
  exists s, dhcp_rules es s /\ (forall f, parse_argv access argv = Ok (Go f) <-> ops = [] /\ access (d_ip s) = true /\ configured s f)
    /\ ((forall f, parse_argv access argv <> Ok (Go f)) -> parse_argv access argv = Ok Refuse).
Proof.
  intros L N I. change dhcp_letters with dhcp_shorts in L. change dhcp_names with dhcp_longs in L.
  destruct (rounds_inv dhcp_opt dhcp_finish [OCommFd] dhcp_rules _ dhcp_start_rules dhcp_step es N I) as (s & R & V).
  exists s. split; [exact V|]. unfold parse_argv. rewrite (getopt_line _ _ dhcp_longs_good dhcp_shorts_good _ _ _ L []). rewrite R. cbn [bind app]. split.
  - intros f. rewrite <- settle_iff. split; [congruence|]. now intros ->.
  - intros H. assert (K : settle access ops s <> Finish).
    { unfold settle. destruct ops; [|discriminate]. destruct (d_netdev s); [|discriminate]. destruct (negb (access _)); [discriminate|].
      destruct (negb (d_server s)); [destruct (_ && _); discriminate|]. destruct (make_all s); discriminate. }
    destruct (settle access ops s) as [f| |]; [now elim (H f)|now elim K|reflexivity].
Qed.
Lemma dhcp_ended access argv es ops pre e post : line dhcp_letters dhcp_names argv es ops ->
  es = pre ++ e :: post -> (forall x, In x pre -> ~ ending dhcp_finish x) -> ints [OCommFd] pre -> ending dhcp_finish e ->
  parse_argv access argv = Ok (match e with GBad => Refuse | _ => Finish end).
Proof.
  intros L S N I E. subst es. change dhcp_letters with dhcp_shorts in L. change dhcp_names with dhcp_longs in L.
  unfold parse_argv. rewrite (getopt_line _ _ dhcp_longs_good dhcp_shorts_good _ _ _ L []).
  rewrite (rounds_end dhcp_opt dhcp_finish [OCommFd] dhcp_rules _ dhcp_start_rules dhcp_step dhcp_ends pre e post N I E). now destruct e.
Qed.
