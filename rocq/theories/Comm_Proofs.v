From Coq Require Import String.
From Verif Require Import Base Text Comm_Model Comm_Spec.
Local Open Scope list_scope.

(** ** C124 *)
Lemma hex_val_some c v : hex_val c = Some v <-> hexc c v.
Proof.
  unfold hex_val. split.
  - destruct ((48 <=? c) && (c <=? 57)) eqn:E1; [intros H; injection H as <-; constructor; lia|].
    destruct ((97 <=? c) && (c <=? 102)) eqn:E2; [intros H; injection H as <-; constructor; lia|].
    destruct ((65 <=? c) && (c <=? 70)) eqn:E3; [intros H; injection H as <-; constructor; lia|]. discriminate.
  - intros H. inversion H; subst.
    + replace ((48 <=? c) && (c <=? 57)) with true by lia. reflexivity.
    + replace ((48 <=? c) && (c <=? 57)) with false by lia. replace ((97 <=? c) && (c <=? 102)) with true by lia. reflexivity.
    + replace ((48 <=? c) && (c <=? 57)) with false by lia. replace ((97 <=? c) && (c <=? 102)) with false by lia. replace ((65 <=? c) && (c <=? 70)) with true by lia. reflexivity.
Qed.
Lemma hexc_lt c v : hexc c v -> v < 16.
Proof. intros H. inversion H; lia. Qed.
Lemma hexc_space c v : hexc c v -> is_space c = false /\ (c =? 45) || (c =? 43) = false /\ c <> 120 /\ c <> 88 /\ c <> 58 /\ c <> 0 /\ c <> 32.
Proof. intros H. unfold is_space. inversion H; repeat split; lia. Qed.
Lemma scan_hex_lt s x r : scan_hex s = Some (x, r) -> x < 256.
Proof.
  unfold scan_hex. destruct (skip_space s) as [|c t]; [discriminate|]. destruct ((c =? 45) || (c =? 43)).
  - destruct t as [|d t]; [discriminate|]. destruct (hex_val d); [|discriminate]. intros H. injection H as <- _. apply N.mod_lt. discriminate.
  - destruct (hex_val c) as [a|] eqn:E; [|discriminate]. apply hex_val_some, hexc_lt in E. destruct t as [|d t]; [intros H; injection H as <- _; lia|].
    destruct ((c =? 48) && _); [intros H; injection H as <- _; lia|]. destruct (hex_val d) as [b|] eqn:E2; [|intros H; injection H as <- _; lia].
    apply hex_val_some, hexc_lt in E2. intros H. injection H as <- _. lia.
Qed.
Lemma scan_mac_ok n : forall s, List.length (scan_mac n s) = n /\ Forall (fun x => x < 256) (scan_mac n s).
Proof.
  assert (Z : forall k, List.length (repeat 0 k) = k /\ Forall (fun x => x < 256) (repeat 0 k)).
  { intros k. split; [apply repeat_length|]. apply Forall_forall. intros x H. apply repeat_spec in H. subst. lia. }
  induction n as [|n IH]; intros s; [split; [reflexivity|constructor]|]. cbn [scan_mac]. destruct (scan_hex s) as [[x r]|] eqn:E; [|apply Z].
  assert (K : forall l, List.length l = n /\ Forall (fun x => x < 256) l -> List.length (x :: l) = S n /\ Forall (fun x => x < 256) (x :: l)).
  { intros l [H1 H2]. split; [cbn [List.length]; congruence|]. constructor; [exact (scan_hex_lt _ _ _ E)|exact H2]. }
  destruct r as [|c r]; [apply K, Z|]. destruct (c =? 58); apply K; auto.
Qed.
Lemma digit_table d : d < 16 -> digit d = nth (N.to_nat d) table 0.
Proof.
  intros H. assert (E : d = N.of_nat (N.to_nat d)) by lia. assert (H' : (N.to_nat d < 16)%nat) by lia. rewrite E at 1. revert H'. generalize (N.to_nat d) as k. clear.
  intros k H. do 16 (destruct k as [|k]; [reflexivity|]). lia.
Qed.
Lemma two_digits x : x < 256 -> [digit (x / 16); digit (x mod 16)] = two x.
Proof. intros H. unfold two. rewrite !digit_table by lia. reflexivity. Qed.
Lemma reformat_canon s : reformat_mac s = Ok (canon (scan_mac 6 s)).
Proof.
  unfold reformat_mac. destruct (scan_mac_ok 6 s) as [HL HF]. destruct (scan_mac 6 s) as [|a [|b [|c [|d [|e [|f [|g l]]]]]]]; try discriminate HL.
  repeat match goal with H : Forall _ (_ :: _) |- _ => inversion H; subst; clear H end.
  cbn [map join]. rewrite !two_digits by assumption. reflexivity.
Qed.
Lemma reformat_form s : exists m, is_mac m /\ reformat_mac s = Ok (canon m).
Proof. exists (scan_mac 6 s). split; [apply scan_mac_ok|apply reformat_canon]. Qed.
Lemma scan_spells x a rest : spells x a -> no_more rest -> scan_hex (a ++ rest) = Some (x, rest).
Proof.
  intros H Hr. unfold scan_hex. destruct H as [c a H|c d a b H1 H2]; cbn [app skip_space].
  - destruct (hexc_space _ _ H) as (-> & -> & _). apply hex_val_some in H. rewrite H. destruct rest as [|d t]; [reflexivity|]. destruct Hr as (R1 & R2 & R3).
    replace ((d =? 120) || (d =? 88)) with false by lia. rewrite andb_false_r. destruct (hex_val d) as [v|] eqn:E; [|reflexivity]. apply hex_val_some in E. exfalso. eapply R1, E.
  - destruct (hexc_space _ _ H1) as (-> & -> & _). destruct (hexc_space _ _ H2) as (_ & _ & X1 & X2 & _). apply hex_val_some in H1, H2. rewrite H1, H2.
    replace ((d =? 120) || (d =? 88)) with false by lia. rewrite andb_false_r. reflexivity.
Qed.
Lemma colon_no_more r : no_more (58 :: r).
Proof. split; [|lia]. intros v H. inversion H; lia. Qed.
Lemma scan_spelling m : forall t rest, spelling m t -> no_more rest -> scan_mac (List.length m) (t ++ rest) = m.
Proof.
  induction m as [|x m IH]; intros t rest H Hr; [destruct H|]. cbn [List.length scan_mac]. destruct m as [|y m].
  - cbn [spelling] in H. rewrite (scan_spells x t rest H Hr). cbn [List.length scan_mac repeat]. destruct rest as [|c r]; [reflexivity|]. destruct (c =? 58); reflexivity.
  - destruct H as (a & b & -> & H1 & H2). rewrite <- app_assoc. cbn [app]. rewrite (scan_spells x a _ H1 (colon_no_more _)). rewrite N.eqb_refl. f_equal. apply IH; auto.
Qed.
Lemma reformat_reads m t rest : is_mac m -> spelling m t -> no_more rest -> reformat_mac (t ++ rest) = Ok (canon m).
Proof. intros [HL _] Hs Hr. rewrite reformat_canon, <- HL, (scan_spelling m t rest Hs Hr). reflexivity. Qed.
Lemma hexc_table d : d < 16 -> hexc (nth (N.to_nat d) table 0) d.
Proof.
  intros H. rewrite <- digit_table by exact H. unfold digit. destruct (d <? 10) eqn:E.
  - replace d with (48 + d - 48) at 2 by lia. constructor. lia.
  - replace d with (87 + d - 87) at 2 by lia. apply HLower. lia.
Qed.
Lemma two_spells x : x < 256 -> spells x (two x).
Proof. intros H. unfold two. replace x with (16 * (x / 16) + x mod 16) at 1 by lia. constructor; apply hexc_table; lia. Qed.
Lemma mac_six m : is_mac m -> exists a b c d e f, m = [a; b; c; d; e; f] /\ a < 256 /\ b < 256 /\ c < 256 /\ d < 256 /\ e < 256 /\ f < 256.
Proof.
  intros [HL HF]. destruct m as [|a [|b [|c [|d [|e [|f [|g l]]]]]]]; try discriminate HL.
  repeat match goal with H : Forall _ (_ :: _) |- _ => inversion H; subst; clear H end. exists a, b, c, d, e, f. auto 10.
Qed.
Lemma canon_spelling m : is_mac m -> spelling m (canon m).
Proof.
  intros H. destruct (mac_six m H) as (a & b & c & d & e & f & -> & Ha & Hb & Hc & Hd & He & Hf). cbn [canon spelling app].
  repeat (eexists; eexists; split; [reflexivity|]; split; [apply two_spells; assumption|]). apply two_spells. exact Hf.
Qed.
Lemma reformat_idem s : exists r, reformat_mac s = Ok r /\ reformat_mac r = Ok r /\ lenN r = 17.
Proof.
  destruct (reformat_form s) as (m & Hm & E). exists (canon m). split; [exact E|]. split.
  - rewrite <- (app_nil_r (canon m)) at 1. apply reformat_reads; [exact Hm|apply canon_spelling, Hm|exact I].
  - destruct (mac_six m Hm) as (a & b & c & d & e & f & -> & _). reflexivity.
Qed.
Lemma canon_inj m m' : is_mac m -> is_mac m' -> canon m = canon m' -> m = m'.
Proof.
  intros H H' E. assert (R := scan_spelling m (canon m) [] (canon_spelling m H) I). assert (R' := scan_spelling m' (canon m') [] (canon_spelling m' H') I).
  destruct H as [HL _], H' as [HL' _]. rewrite HL in R. rewrite HL' in R'. rewrite E in R. congruence.
Qed.
Lemma ntoa_spelling m : is_mac m -> spelling m (ether_ntoa m).
Proof.
  intros H. assert (K : forall x, x < 256 -> spells x (if x <? 16 then [digit x] else [digit (x / 16); digit (x mod 16)])).
  { intros x Hx. destruct (x <? 16) eqn:E; [|rewrite two_digits by exact Hx; apply two_spells, Hx]. rewrite digit_table by lia. constructor. apply hexc_table. lia. }
  destruct (mac_six m H) as (a & b & c & d & e & f & -> & Ha & Hb & Hc & Hd & He & Hf). unfold ether_ntoa. cbn [map join spelling].
  repeat (eexists; eexists; split; [reflexivity|]; split; [apply K; assumption|]). apply K. exact Hf.
Qed.

(** ** C125: messages *)
Lemma get_in b i : i < lenN b -> exists c, get b i = Ok c.
Proof.
  intros H. unfold get. destruct (nth_error b (N.to_nat i)) eqn:E; [eauto|]. apply nth_error_None in E. unfold lenN in H. lia.
Qed.
Lemma comm_safe g msg : exists o, comm_fn g msg = Ok o /\ (o = None <-> msg = []).
Proof.
  destruct msg as [|c0 msg]; [exists None; split; [reflexivity|tauto]|]. set (ms := c0 :: msg). unfold comm_fn. fold ms.
  replace (match ms with [] => Ok None | _ => _ end) with (let buf := takeN 511 ms ++ [0] in let l := lenN (takeN 511 ms) in
      do skip <- (if l <? 3 then Ok true else do c <- get buf 1; if negb (c =? 58) then Ok true else do d <- get buf 2; Ok (d =? 0));
      if skip then Ok (Some g) else let t := cstr (dropN 2 buf) in do k <- get buf 0;
        do g <- (if k =? 76 then Ok (mkGrp (Some t) (g_peers g))
                 else if k =? 71 then Ok (mkGrp (g_local g) (first q_owner (set_remote t) (g_peers g)))
                 else if k =? 82 then match split_space t with
                   | Some ((_ :: _) as m, (_ :: _) as ip) => do mac <- reformat_mac m; Ok (mkGrp (g_local g) (first (has_mac mac) (set_remote ip) (g_peers g)))
                   | _ => Ok g end else Ok g); Ok (Some (report g))) by reflexivity.
  cbv zeta. destruct (lenN (takeN 511 ms) <? 3) eqn:El; [exists (Some g); split; [reflexivity|split; discriminate]|].
  set (buf := takeN 511 ms ++ [0]). assert (Hb : 3 < lenN buf) by (unfold buf; len; lia).
  destruct (get_in buf 1) as [c1 ->]; [lia|]. cbn [bind]. destruct (get_in buf 0) as [k E0]; [lia|].
  destruct (negb (c1 =? 58)); [exists (Some g); split; [reflexivity|split; discriminate]|].
  destruct (get_in buf 2) as [c2 ->]; [lia|]. cbn [bind]. destruct (c2 =? 0); [exists (Some g); split; [reflexivity|split; discriminate]|]. rewrite E0. cbn [bind].
  assert (F : forall r : res grp, (exists g', r = Ok g') -> exists o, (do g <- r; Ok (Some (report g))) = Ok o /\ (o = None <-> ms = [])).
  { intros r [g' ->]. exists (Some (report g')). split; [reflexivity|split; discriminate]. }
  apply F. destruct (k =? 76); [eauto|]. destruct (k =? 71); [eauto|]. destruct (k =? 82); [|eauto].
  destruct (split_space _) as [[[|m0 m] [|i0 ip]]|]; eauto. rewrite reformat_canon. cbn [bind]. eauto.
Qed.

Definition plain (t : list byte) : Prop := t <> [] /\ lenN t <= 509 /\ Forall (fun c => c <> 0) t.
Definition take_line (k : byte) (t : list byte) (g : grp) : grp :=
  if k =? 76 then mkGrp (Some t) (g_peers g)
  else if k =? 71 then mkGrp (g_local g) (first q_owner (set_remote t) (g_peers g))
  else if k =? 82 then
    match split_space t with
    | Some ((_ :: _) as m, (_ :: _) as ip) => mkGrp (g_local g) (first (has_mac (canon (scan_mac 6 m))) (set_remote ip) (g_peers g))
    | _ => g
    end
  else g.
Lemma cstr_plain t : Forall (fun c => c <> 0) t -> cstr (t ++ [0]) = t.
Proof. induction 1 as [|c t H _ IH]; [reflexivity|]. cbn [app cstr]. replace (c =? 0) with false by lia. rewrite IH. reflexivity. Qed.
Lemma comm_plain g k t : plain t -> comm_fn g (k :: 58 :: t) = Ok (Some (report (take_line k t g))).
Proof.
  intros (H0 & H1 & H2). unfold comm_fn. destruct t as [|c t]; [congruence|]. rewrite takeN_all by (rewrite !lenN_cons in *; lia).
  replace (lenN (k :: 58 :: c :: t) <? 3) with false by (rewrite !lenN_cons in *; lia). unfold get.
  change (N.to_nat 0) with 0%nat. change (N.to_nat 1) with 1%nat. change (N.to_nat 2) with 2%nat. cbn [app nth_error bind]. rewrite N.eqb_refl. cbn [negb].
  inversion H2; subst. replace (c =? 0) with false by lia. change (dropN 2 (k :: 58 :: c :: t ++ [0])) with ((c :: t) ++ [0]). rewrite cstr_plain by exact H2. unfold take_line.
  destruct (k =? 76); [reflexivity|]. destruct (k =? 71); [reflexivity|]. destruct (k =? 82); [|reflexivity].
  destruct (split_space (c :: t)) as [[[|m0 m] [|i0 ip]]|]; try reflexivity. rewrite reformat_canon. reflexivity.
Qed.
Lemma addr_plain a : is_addr a -> plain a.
Proof. intros (H0 & H1 & H2). split; [exact H0|]. split; [lia|]. eapply Forall_impl; [|exact H2]. cbv beta. intros. lia. Qed.

Lemma first_same f u ps : (forall p, q_mac (u p) = q_mac p /\ q_sta (u p) = q_sta p /\ q_in (u p) = q_in p /\ q_owner (u p) = q_owner p) -> same_peers ps (first f u ps).
Proof.
  intros H. unfold same_peers. induction ps as [|p ps (I1 & I2 & I3 & I4)]; [auto|]. cbn [first]. destruct (H p) as (A & B & C & D).
  destruct (f p); cbn [map]; repeat split; congruence.
Qed.
Lemma same_trans a b c : same_peers a b -> same_peers b c -> same_peers a c.
Proof. unfold same_peers. intros (A1 & A2 & A3 & A4) (B1 & B2 & B3 & B4). repeat split; congruence. Qed.
Lemma same_refl a : same_peers a a.
Proof. repeat split. Qed.
Definition done (p : peer) : peer := match q_remote p with Some _ => set_conn p | None => p end.
Lemma done_fields p : q_mac (done p) = q_mac p /\ q_sta (done p) = q_sta p /\ q_in (done p) = q_in p /\ q_owner (done p) = q_owner p.
Proof. unfold done. destruct (q_remote p); auto. Qed.
Lemma done_remote p : q_remote (done p) = q_remote p.
Proof. unfold done. destruct (q_remote p) eqn:E; auto. Qed.
Lemma report_same g : same_peers (g_peers g) (g_peers (report g)) /\ map q_remote (g_peers (report g)) = map q_remote (g_peers g) /\ g_local (report g) = g_local g.
Proof.
  unfold report. destruct (g_local g) as [a|] eqn:E; [|split; [apply same_refl|auto]]. fold done.
  destruct (existsb q_owner (g_peers g)); cbn [g_peers g_local].
  - split; [apply first_same, done_fields|]. split; [|auto]. induction (g_peers g) as [|p ps IH]; [reflexivity|]. cbn [first]. destruct (q_owner p); cbn [map]; [rewrite done_remote; reflexivity|congruence].
  - unfold same_peers. rewrite !map_map. repeat split; apply map_ext; intros p; destruct (done_fields p) as (A & B & C & D); assert (R := done_remote p); unfold done in *; destruct (q_in p) eqn:Ei; auto.
Qed.
Lemma eq_text_iff a b : eq_text a b = true <-> a = b.
Proof. unfold eq_text. destruct (list_eq_dec N.eq_dec a b); split; auto; discriminate. Qed.
Lemma has_mac_iff mac p : has_mac mac p = true <-> knows mac p.
Proof.
  unfold has_mac, knows. rewrite orb_true_iff, eq_text_iff. destruct (q_sta p) as [s|]; [rewrite eq_text_iff; split; intros [H|H]; [auto|right; congruence|auto|right; congruence]|].
  split; [intros [H|H]; [auto|discriminate]|intros [H|H]; [auto|discriminate]].
Qed.
Lemma first_told mac ip ps : told mac ip ps (first (has_mac mac) (set_remote ip) ps).
Proof.
  induction ps as [|p ps IH]; [left; split; [constructor|reflexivity]|]. cbn [first]. destruct (has_mac mac p) eqn:E.
  - right. exists [], p, ps. split; [reflexivity|]. split; [constructor|]. split; [apply has_mac_iff, E|reflexivity].
  - assert (N : ~ knows mac p) by (rewrite <- has_mac_iff; congruence). destruct IH as [[H1 H2]|(a & q & b & -> & H1 & H2 & H3)].
    + left. split; [constructor; auto|]. cbn [map]. congruence.
    + right. exists (p :: a), q, b. split; [reflexivity|]. split; [constructor; auto|]. split; [auto|]. cbn [map app]. congruence.
Qed.
Lemma told_report mac ip ps g : told mac ip ps (g_peers g) -> told mac ip ps (g_peers (report g)).
Proof. unfold told. destruct (report_same g) as (_ & -> & _). auto. Qed.
Lemma split_app a b : Forall (fun c => c <> 32) a -> split_space (a ++ 32 :: b) = Some (a, b).
Proof. induction 1 as [|c a H _ IH]; [reflexivity|]. cbn [app split_space]. replace (c =? 32) with false by lia. rewrite IH. reflexivity. Qed.
Lemma spelling_chars m : forall t, spelling m t -> t <> [] /\ Forall (fun c => c <> 0 /\ c <> 32) t /\ (List.length t <= 3 * List.length m)%nat.
Proof.
  assert (K : forall x a, spells x a -> a <> [] /\ Forall (fun c => c <> 0 /\ c <> 32) a /\ (List.length a <= 2)%nat).
  { intros x a [c v H|c d v w H1 H2]; [destruct (hexc_space _ _ H) as (_ & _ & _ & _ & _ & ? & ?)|
      destruct (hexc_space _ _ H1) as (_ & _ & _ & _ & _ & ? & ?), (hexc_space _ _ H2) as (_ & _ & _ & _ & _ & ? & ?)];
      (split; [discriminate|]; split; [repeat constructor; auto|cbn; lia]). }
  induction m as [|x m IH]; intros t H; [destruct H|]. destruct m as [|y m].
  - destruct (K _ _ H) as (A & B & C). split; [exact A|]. split; [exact B|]. cbn [List.length]. lia.
  - destruct H as (a & b & -> & H1 & H2). destruct (K _ _ H1) as (A & B & C). destruct (IH b H2) as (A' & B' & C'). split; [destruct a; discriminate|]. split.
    + apply Forall_app. split; [exact B|]. constructor; [lia|exact B'].
    + rewrite app_length. cbn [List.length] in *. lia.
Qed.
Lemma event_line m ip : is_mac m -> is_addr ip -> exists t, server_event m ip = 82 :: 58 :: t /\ plain t /\ split_space t = Some (ether_ntoa m, ip) /\ ether_ntoa m <> [] /\ ip <> [].
Proof.
  intros Hm Hi. destruct (spelling_chars m _ (ntoa_spelling m Hm)) as (A & B & C). destruct (mac_six m Hm) as (a0 & b0 & c0 & d0 & e0 & f0 & E & _).
  exists (ether_ntoa m ++ 32 :: ip). destruct Hi as (I0 & I1 & I2). repeat match goal with |- _ /\ _ => split end.
  - reflexivity.
  - split; [destruct (ether_ntoa m); discriminate|]. split.
    + unfold lenN in *. rewrite app_length. cbn [List.length]. subst m. cbn [List.length] in C. lia.
    + apply Forall_app. split; [eapply Forall_impl; [|exact B]; cbv beta; tauto|]. constructor; [lia|]. eapply Forall_impl; [|exact I2]. cbv beta. intros. lia.
  - apply split_app. eapply Forall_impl; [|exact B]. cbv beta. tauto.
  - exact A.
  - exact I0.
Qed.
Lemma said_event g m ip : is_mac m -> is_addr ip -> exists g', comm_fn g (server_event m ip) = Ok (Some g') /\ g_local g' = g_local g
  /\ same_peers (g_peers g) (g_peers g') /\ told (canon m) ip (g_peers g) (g_peers g').
Proof.
  intros Hm Hi. destruct (event_line m ip Hm Hi) as (t & -> & Hp & Hs & N1 & N2). rewrite comm_plain by exact Hp. eexists. split; [reflexivity|].
  assert (E : take_line 82 t g = mkGrp (g_local g) (first (has_mac (canon m)) (set_remote ip) (g_peers g))).
  { unfold take_line. change (82 =? 76) with false. change (82 =? 71) with false. change (82 =? 82) with true. cbv iota. rewrite Hs.
    assert (R := scan_spelling m (ether_ntoa m) [] (ntoa_spelling m Hm) I). rewrite app_nil_r in R. destruct Hm as [HL _]. rewrite HL in R.
    destruct (ether_ntoa m); [congruence|]. destruct ip; [congruence|]. rewrite R. reflexivity. }
  destruct (report_same (take_line 82 t g)) as (R1 & R2 & R3). rewrite R3. split; [rewrite E; reflexivity|]. split.
  - eapply same_trans; [|exact R1]. rewrite E. cbn [g_peers]. apply first_same. intros p. auto.
  - apply told_report. rewrite E. apply first_told.
Qed.
Lemma said_local g a : is_addr a -> exists g', comm_fn g (text "L:" ++ a) = Ok (Some g') /\ g_local g' = Some a
  /\ same_peers (g_peers g) (g_peers g') /\ map q_remote (g_peers g') = map q_remote (g_peers g).
Proof.
  intros Ha. change (text "L:" ++ a) with (76 :: 58 :: a). rewrite comm_plain by apply addr_plain, Ha. eexists. split; [reflexivity|].
  destruct (report_same (take_line 76 a g)) as (R1 & R2 & R3). rewrite R3, R2. auto.
Qed.
Lemma said_router g a ps p qs : is_addr a -> g_peers g = ps ++ p :: qs -> Forall (fun p => q_owner p = false) ps -> q_owner p = true ->
  exists g', comm_fn g (text "G:" ++ a) = Ok (Some g') /\ g_local g' = g_local g
  /\ same_peers (g_peers g) (g_peers g') /\ map q_remote (g_peers g') = map q_remote ps ++ Some a :: map q_remote qs.
Proof.
  intros Ha E Ho Hp. change (text "G:" ++ a) with (71 :: 58 :: a). rewrite comm_plain by apply addr_plain, Ha. eexists. split; [reflexivity|].
  destruct (report_same (take_line 71 a g)) as (R1 & R2 & R3). rewrite R3, R2. split; [reflexivity|]. split.
  - eapply same_trans; [|exact R1]. apply first_same. intros q. auto.
  - change (g_peers (take_line 71 a g)) with (first q_owner (set_remote a) (g_peers g)). rewrite E. clear -Ho Hp. induction ps as [|q ps IH]; cbn [app first].
    + rewrite Hp. reflexivity.
    + inversion Ho; subst. rewrite H1. cbn [map app]. f_equal. auto.
Qed.
(** Another line changes no address. *)
Lemma said_other g k a : is_addr a -> k <> 76 -> k <> 71 -> k <> 82 -> exists g', comm_fn g (k :: 58 :: a) = Ok (Some g') /\ g_local g' = g_local g
  /\ same_peers (g_peers g) (g_peers g') /\ map q_remote (g_peers g') = map q_remote (g_peers g).
Proof.
  intros Ha H1 H2 H3. rewrite comm_plain by apply addr_plain, Ha. eexists. split; [reflexivity|].
  assert (E : take_line k a g = g) by (unfold take_line; replace (k =? 76) with false by lia; replace (k =? 71) with false by lia; replace (k =? 82) with false by lia; reflexivity).
  rewrite E. destruct (report_same g) as (R1 & R2 & R3). auto.
Qed.

(** ** C126: leases of the client *)
Definition alone (mac : list byte) (l : option (list byte)) (r : option (list byte)) (c : bool) : grp := mkGrp l [mkPeer mac None true true r c].
Lemma alone_L mac a l r c : is_addr a -> comm_fn (alone mac l r c) (text "L:" ++ a) = Ok (Some (alone mac (Some a) r (match r with Some _ => true | None => c end))).
Proof. intros Ha. change (text "L:" ++ a) with (76 :: 58 :: a). rewrite comm_plain by apply addr_plain, Ha. destruct r; reflexivity. Qed.
Lemma alone_G mac a l r c : is_addr a -> comm_fn (alone mac (Some l) r c) (text "G:" ++ a) = Ok (Some (alone mac (Some l) (Some a) true)).
Proof. intros Ha. change (text "G:" ++ a) with (71 :: 58 :: a). rewrite comm_plain by apply addr_plain, Ha. reflexivity. Qed.
Lemma alone_k mac k a l r c : is_addr a -> k <> 76 -> k <> 71 -> k <> 82 ->
  comm_fn (alone mac (Some l) r c) (k :: 58 :: a) = Ok (Some (alone mac (Some l) r (match r with Some _ => true | None => c end))).
Proof.
  intros Ha H1 H2 H3. rewrite comm_plain by apply addr_plain, Ha. unfold take_line. replace (k =? 76) with false by lia. replace (k =? 71) with false by lia. replace (k =? 82) with false by lia.
  destruct r; reflexivity.
Qed.
Lemma run_app a : forall g b g', run g a = Ok (Some g') -> run g (a ++ b) = run g' b.
Proof.
  induction a as [|e a IH]; intros g b g' H; [cbn [run] in H; injection H as ->; reflexivity|]. cbn [run app] in *. destruct (step g e) as [[o|]|]; cbn [bind] in *; try discriminate. auto.
Qed.
Lemma addr_no47 a : is_addr a -> Forall (fun c => c <> 47) a.
Proof. intros (_ & _ & H). eapply Forall_impl; [|exact H]. cbv beta. intros. lia. Qed.
Lemma slash_inj a : forall b s t, Forall (fun c => c <> 47) a -> Forall (fun c => c <> 47) b -> a ++ 47 :: s = b ++ 47 :: t -> a = b /\ s = t.
Proof.
  induction a as [|x a IH]; intros [|y b] s t Ha Hb E; cbn [app] in E; inversion E; subst; auto.
  - inversion Hb; congruence.
  - inversion Ha; congruence.
  - inversion Ha; inversion Hb; subst. destruct (IH b s t) as [-> ->]; auto.
Qed.
Lemma mask_addr l : good_lease l -> is_addr (mask l).
Proof.
  intros (_ & H & _). unfold mask. destruct (l_subnet l) as [|s ss]; [|inversion H; auto]. split; [discriminate|]. split; [vm_compute; discriminate|]. repeat (apply Forall_cons; [right; vm_compute; split; discriminate|]). apply Forall_nil.
Qed.
(** What wifid knows after the messages of one new address. *)
Lemma new_address mac l a lo r c : good_lease l -> l_addr l = Some a ->
  exists c', run (alone mac lo r c) (map Msg ([text "L:" ++ a; text "S:" ++ mask l] ++ match l_dns l with d :: _ => [text "D:" ++ d] | [] => [] end ++ match l_router l with g :: _ => [text "G:" ++ g] | [] => [] end))
    = Ok (Some (alone mac (Some a) (match l_router l with g :: _ => Some g | [] => r end) c')) /\ (l_router l <> [] -> c' = true).
Proof.
  intros Hl Ea. assert (Hs := mask_addr l Hl). destruct Hl as ((a' & Ea' & Ha) & _ & Hd & Hr). replace a' with a in * by congruence. clear Ea'.
  cbn [map app run step]. rewrite alone_L by exact Ha. cbn [bind]. change (text "S:" ++ mask l) with (83 :: 58 :: mask l). rewrite alone_k by (auto; lia). cbn [bind].
  destruct (l_dns l) as [|d ds]; cbn [map app run step].
  - destruct (l_router l) as [|g gs]; cbn [map app run step]; [eexists; split; [reflexivity|congruence]|]. inversion Hr; subst. rewrite alone_G by assumption. cbn [bind run]. eexists. split; [reflexivity|auto].
  - inversion Hd; subst. change (text "D:" ++ d) with (68 :: 58 :: d). rewrite alone_k by (auto; lia). cbn [bind].
    destruct (l_router l) as [|g gs]; cbn [map app run step]; [eexists; split; [reflexivity|congruence]|]. inversion Hr; subst. rewrite alone_G by assumption. cbn [bind run]. eexists. split; [reflexivity|auto].
Qed.
Definition knowing (mac : list byte) (l : lease) (c : client) (g : grp) (ok : bool) : Prop :=
  exists a r k, l_addr l = Some a /\ is_addr a /\ c_addr c = Some (a ++ 47 :: mask l) /\ g = alone mac (Some a) r k
    /\ (ok = true -> r = hd_error (l_router l) /\ k = true).
Lemma leases_runs ls : forall c, c_runs (fst (leases c ls)) = true -> c_runs c = true.
Proof.
  induction ls as [|[l [f a]] ls IH]; intros c H; [exact H|]. cbn [leases] in H. destruct (c_runs c) eqn:E; [reflexivity|]. cbn [fst] in H. congruence.
Qed.
Fixpoint last_of (l : lease) (ls : list (lease * (bool * bool))) : lease := match ls with [] => l | (l, _) :: ls => last_of l ls end.
Lemma leases_step mac c lo r k l f a : good_lease l -> (same (c_addr c) (match l_addr l with Some x => x ++ 47 :: mask l | None => [] end) = false) -> c_runs (fst (lease_fn c l f a)) = true ->
  exists g, run (alone mac lo r k) (map Msg (snd (lease_fn c l f a))) = Ok (Some g) /\ forall ok, (ok = true -> l_router l <> []) -> knowing mac l (fst (lease_fn c l f a)) g ok.
Proof.
  intros Hl Hs Hr. assert (Hm := mask_addr l Hl). assert (Hl' := Hl). destruct Hl' as ((x & Ex & Hx) & _). unfold lease_fn in *. rewrite Ex in *. fold (mask l) in *. rewrite Hs in *.
  destruct f; cbn [negb fst c_runs] in *; [|discriminate]. destruct a; cbn [negb fst c_runs snd] in *; [|discriminate].
  destruct (new_address mac l x lo r k Hl Ex) as (k' & E & K). eexists. split; [exact E|]. intros ok Hok. exists x, (match l_router l with g :: _ => Some g | [] => r end), k'.
  split; [exact Ex|]. split; [exact Hx|]. split; [reflexivity|]. split; [reflexivity|]. intros H. specialize (Hok H). split; [|auto]. destruct (l_router l); [congruence|reflexivity].
Qed.
Lemma leases_know mac ok ls : forall l0 c g, knowing mac l0 c g ok -> good_lease l0 -> Forall (fun x => good_lease (fst x)) ls -> (ok = true -> steady ((l0, (true, true)) :: ls)) ->
  c_runs (fst (leases c ls)) = true ->
  exists g', run g (map Msg (snd (leases c ls))) = Ok (Some g') /\ knowing mac (last_of l0 ls) (fst (leases c ls)) g' ok.
Proof.
  induction ls as [|[l [f a]] ls IH]; intros l0 c g K G0 HF Hst Hr; [exists g; split; [reflexivity|exact K]|]. inversion HF; subst. cbn [fst] in H1.
  assert (Hc := leases_runs _ c Hr). cbn [leases last_of] in *. rewrite Hc in *. destruct (lease_fn c l f a) as [c1 m1] eqn:El. destruct (leases c1 ls) as [c2 m2] eqn:E2. cbn [fst snd] in *.
  assert (Hc1 : c_runs c1 = true) by (apply (leases_runs ls); rewrite E2; exact Hr).
  assert (Hst' : ok = true -> steady ((l, (true, true)) :: ls)) by (intros Ho; exact (proj1 (proj2 (Hst Ho)))).
  assert (N : exists g1, run g (map Msg m1) = Ok (Some g1) /\ knowing mac l c1 g1 ok).
  { destruct K as (x & r & k & Ex & Hx & Ec & -> & Hok). assert (G1' := H1). destruct G1' as ((y & Ey & Hy) & _).
    destruct (same (c_addr c) (y ++ 47 :: mask l)) eqn:Es.
    - assert (El' : lease_fn c l f a = (c, [])) by (unfold lease_fn; rewrite Ey; fold (mask l); rewrite Es; reflexivity). rewrite El' in El. injection El as <- <-. eexists. split; [reflexivity|].
      rewrite Ec in Es. unfold same in Es. destruct (list_eq_dec _ _ _) as [Eq|]; [|discriminate]. destruct (slash_inj _ _ _ _ (addr_no47 _ Hx) (addr_no47 _ Hy) Eq) as [-> Em].
      exists y, r, k. split; [exact Ey|]. split; [exact Hy|]. split; [congruence|]. split; [reflexivity|]. intros Ho. destruct (Hok Ho) as [-> ->]. split; [|reflexivity].
      destruct (Hst Ho) as (_ & _ & Hn). symmetry. apply Hn; congruence.
    - destruct (leases_step mac c (Some x) r k l f a H1) as (g1 & E1 & K1); [rewrite Ey; exact Es|rewrite El; exact Hc1|]. rewrite El in *. cbn [fst snd] in *. exists g1. split; [exact E1|]. apply K1. intros Ho. exact (proj1 (Hst' Ho)). }
  destruct N as (g1 & E1 & K1). destruct (IH l c1 g1 K1 H1 H2 Hst') as (g' & E' & K'); [rewrite E2; exact Hr|]. rewrite E2 in *. cbn [fst snd] in *. exists g'. split; [|exact K'].
  rewrite map_app, (run_app _ _ _ _ E1). exact E'.
Qed.
Lemma rev_last_of ls : forall l f, exists ff, (match rev ((l, f) :: ls) with x :: _ => [x] | [] => [] end) = [(last_of l ls, ff)].
Proof.
  induction ls as [|[l1 f1] ls IH]; intros l f; [eexists; reflexivity|]. cbn [last_of]. destruct (IH l1 f1) as [ff E]. exists ff. cbn [rev] in *. destruct (rev ls ++ [(l1, f1)]); [discriminate|]. exact E.
Qed.
Lemma leases_end mac ok l f ls c ms : Forall (fun x => good_lease (fst x)) ((l, f) :: ls) -> (ok = true -> steady ((l, f) :: ls)) -> leases new_client ((l, f) :: ls) = (c, ms) -> c_runs c = true ->
  exists g, run (owned mac) (map Msg ms) = Ok (Some g) /\ knowing mac (last_of l ls) c g ok.
Proof.
  intros HF Hst E Hr. destruct f as [fl ad]. inversion HF; subst. cbn [fst] in H1. cbn [leases] in E. cbn [new_client c_runs] in E. fold new_client in E.
  destruct (lease_fn new_client l fl ad) as [c1 m1] eqn:El. destruct (leases c1 ls) as [c2 m2] eqn:E2. injection E as -> <-.
  assert (Hc1 : c_runs c1 = true) by (apply (leases_runs ls); rewrite E2; exact Hr).
  destruct (leases_step mac new_client None None false l fl ad H1) as (g1 & E1 & K1); [reflexivity|rewrite El; exact Hc1|]. rewrite El in *. cbn [fst snd] in *.
  assert (K1' : knowing mac l c1 g1 ok) by (apply K1; intros Ho; exact (proj1 (Hst Ho))).
  destruct (leases_know mac ok ls l c1 g1 K1' H1 H2) as (g' & E' & K'); [|rewrite E2; exact Hr|].
  - intros Ho. exact (Hst Ho).
  - rewrite E2 in *. cbn [fst snd] in *. exists g'. split; [|exact K']. rewrite map_app. change (owned mac) with (alone mac None None false). rewrite (run_app _ _ _ _ E1). exact E'.
Qed.
Lemma client_local mac ls c ms a : Forall (fun x => good_lease (fst x)) ls -> leases new_client ls = (c, ms) -> c_runs c = true -> last_addr ls a ->
  exists g, run (owned mac) (map Msg ms) = Ok (Some g) /\ g_local g = Some a.
Proof.
  intros HF E Hr (l & f & Hl & Ea). destruct ls as [|[l0 f0] ls]; [destruct Hl|]. destruct (rev_last_of ls l0 f0) as [ff EL]. rewrite EL in Hl. destruct Hl as [Hl|[]]. injection Hl as <- _.
  destruct (leases_end mac false l0 f0 ls c ms HF) as (g & Eg & (x & r & k & Ex & _ & _ & -> & _)); auto; [discriminate|]. exists (alone mac (Some x) r k). split; [exact Eg|]. cbn [alone g_local]. congruence.
Qed.
Lemma client_remote mac ls c ms r : Forall (fun x => good_lease (fst x)) ls -> leases new_client ls = (c, ms) -> c_runs c = true -> steady ls -> last_router ls r ->
  exists g, run (owned mac) (map Msg ms) = Ok (Some g) /\ map q_remote (g_peers g) = [Some r] /\ map q_conn (g_peers g) = [true].
Proof.
  intros HF E Hr Hst (l & f & rs & Hl & Ea). destruct ls as [|[l0 f0] ls]; [destruct Hl|]. destruct (rev_last_of ls l0 f0) as [ff EL]. rewrite EL in Hl. destruct Hl as [Hl|[]]. injection Hl as <- _.
  destruct (leases_end mac true l0 f0 ls c ms HF) as (g & Eg & (x & r' & k & Ex & _ & _ & -> & Hk)); auto. destruct (Hk eq_refl) as [-> ->]. rewrite Ea in *.
  eexists. split; [exact Eg|]. split; reflexivity.
Qed.

(** ** C127: peers of the server *)
Lemma report_conn g i p : (exists a, g_local g = Some a) -> Forall (fun p => q_owner p = false) (g_peers g) -> nth_error (g_peers g) i = Some p -> q_in p = true -> q_remote p <> None ->
  nth_error (g_peers (report g)) i = Some (set_conn p).
Proof.
  intros [a Ea] Ho Hn Hi Hr. unfold report. rewrite Ea. assert (E : existsb q_owner (g_peers g) = false).
  { clear -Ho. induction Ho as [|q ps H _ IH]; [reflexivity|]. cbn [existsb]. rewrite H. exact IH. }
  rewrite E. cbn [g_peers]. rewrite nth_error_map, Hn. cbn [option_map]. rewrite Hi. destruct (q_remote p); [reflexivity|congruence].
Qed.
Lemma nth_mid {A} (a : list A) x b : nth_error (a ++ x :: b) (List.length a) = Some x.
Proof. induction a; auto. Qed.
Lemma first_mid f u a : forall p b, Forall (fun q => f q = false) a -> f p = true -> first f u (a ++ p :: b) = a ++ u p :: b.
Proof. induction a as [|q a IH]; intros p b Ha Hp; cbn [app first]; [rewrite Hp; reflexivity|]. inversion Ha; subst. rewrite H1. f_equal. auto. Qed.
Lemma owner_first f u ps : (forall p, q_owner (u p) = q_owner p) -> Forall (fun p => q_owner p = false) ps -> Forall (fun p => q_owner p = false) (first f u ps).
Proof. intros Hu. induction 1 as [|q ps H Hp IH]; cbn [first]; [constructor|]. destruct (f q); constructor; auto. rewrite Hu. exact H. Qed.
Lemma server_peer g m ip a p b : is_mac m -> is_addr ip -> g_local g <> None -> Forall (fun p => q_owner p = false) (g_peers g) ->
  g_peers g = a ++ p :: b -> Forall (fun q => ~ knows (canon m) q) a -> knows (canon m) p -> q_in p = true ->
  exists g' p', comm_fn g (server_event m ip) = Ok (Some g') /\ nth_error (g_peers g') (List.length a) = Some p' /\ q_mac p' = q_mac p /\ q_remote p' = Some ip /\ q_conn p' = true.
Proof.
  intros Hm Hi Hl Ho E Ha Hk Hin. destruct (event_line m ip Hm Hi) as (t & -> & Hp & Hs & N1 & N2). rewrite comm_plain by exact Hp.
  assert (Et : take_line 82 t g = mkGrp (g_local g) (first (has_mac (canon m)) (set_remote ip) (g_peers g))).
  { unfold take_line. change (82 =? 76) with false. change (82 =? 71) with false. change (82 =? 82) with true. cbv iota. rewrite Hs.
    assert (R := scan_spelling m (ether_ntoa m) [] (ntoa_spelling m Hm) I). rewrite app_nil_r in R. destruct Hm as [HL _]. rewrite HL in R.
    destruct (ether_ntoa m); [congruence|]. destruct ip; [congruence|]. rewrite R. reflexivity. }
  rewrite Et. exists (report (mkGrp (g_local g) (first (has_mac (canon m)) (set_remote ip) (g_peers g)))), (set_conn (set_remote ip p)). split; [reflexivity|]. split; [|auto].
  apply report_conn; cbn [g_local g_peers]; auto.
  - destruct (g_local g); [eauto|congruence].
  - apply owner_first; auto.
  - rewrite E, first_mid; [apply nth_mid| |apply has_mac_iff, Hk]. eapply Forall_impl; [|exact Ha]. cbv beta. intros q Hq. rewrite <- has_mac_iff in Hq. destruct (has_mac _ q); congruence.
  - discriminate.
Qed.
(** Any line of text reports whoever has an address. *)
Lemma line_reports g k t g' i p : t <> [] -> lenN t <= 509 -> Forall (fun c => c <> 0) t -> Forall (fun p => q_owner p = false) (g_peers g) -> comm_fn g (k :: 58 :: t) = Ok (Some g') ->
  g_local g' <> None -> nth_error (g_peers g') i = Some p -> q_in p = true -> q_remote p <> None -> q_conn p = true.
Proof.
  intros H0 H1 H2 Ho E Hl Hn Hi Hr. rewrite comm_plain in E by (split; auto). injection E as <-. set (g1 := take_line k t g) in *.
  assert (Ho1 : Forall (fun p => q_owner p = false) (g_peers g1)).
  { unfold g1, take_line. destruct (k =? 76); [exact Ho|]. destruct (k =? 71); [apply owner_first; auto|]. destruct (k =? 82); [|exact Ho].
    destruct (split_space t) as [[[|m0 m] [|i0 ip]]|]; auto. apply owner_first; auto. }
  destruct (report_same g1) as ((_ & _ & S3 & _) & S5 & S6). rewrite S6 in Hl.
  destruct (nth_error (g_peers g1) i) as [q|] eqn:Eq.
  - assert (A : q_in q = q_in p).
    { assert (A1 := nth_error_map q_in i (g_peers (report g1))). rewrite S3, nth_error_map, Eq, Hn in A1. cbn [option_map] in A1. congruence. }
    assert (B : q_remote q = q_remote p).
    { assert (A1 := nth_error_map q_remote i (g_peers (report g1))). rewrite S5, nth_error_map, Eq, Hn in A1. cbn [option_map] in A1. congruence. }
    assert (R := report_conn g1 i q). rewrite Hn in R. destruct (g_local g1) as [x|]; [|congruence]. specialize (R (ex_intro _ x eq_refl) Ho1 Eq). rewrite A, B in R. specialize (R Hi Hr). injection R as ->. reflexivity.
  - exfalso. assert (A1 := nth_error_map q_in i (g_peers (report g1))). rewrite S3, nth_error_map, Eq, Hn in A1. discriminate.
Qed.
Definition Forallb_addr (s : list byte) : bool := negb (lenN s =? 0) && (lenN s <=? 15) && forallb (fun c => (c =? 46) || (48 <=? c) && (c <=? 57)) s.
Lemma addr_b s : Forallb_addr s = true -> is_addr s.
Proof.
  unfold Forallb_addr. rewrite !andb_true_iff, forallb_forall. intros [[H1 H2] H3]. split; [intros ->; discriminate|]. split; [lia|]. apply Forall_forall. intros c H. specialize (H3 c H). lia.
Qed.

(** ** Blanks and signs *)
Lemma blank_space c : blank c -> is_space c = true.
Proof. unfold blank, is_space. intros [->|[A B]]; [reflexivity|]. apply N.leb_le in A, B. rewrite A, B. apply orb_true_r. Qed.
Lemma skip_blanks w s : Forall blank w -> skip_space (w ++ s)%list = skip_space s.
Proof. induction 1 as [|c w H _ IH]; [reflexivity|]. cbn [app skip_space]. now rewrite (blank_space c H). Qed.
Lemma reformat_blanks w s : Forall blank w -> reformat_mac (w ++ s)%list = reformat_mac s.
Proof. intros H. assert (E : scan_hex (w ++ s)%list = scan_hex s) by (unfold scan_hex; now rewrite (skip_blanks w s H)). unfold reformat_mac. cbn [scan_mac]. now rewrite E. Qed.
Lemma two_scan x s : x < 256 -> scan_hex (two x ++ s)%list = Some (x, s).
Proof.
  intros H. pose proof (two_spells x H) as S. unfold two in *. remember (nth _ table 0) as c. remember (nth _ table 0) as d in S at 1 |- *.
  inversion S as [|? ? a b H1 H2]; subst.
  unfold scan_hex. cbn [app skip_space]. destruct (hexc_space _ _ H1) as (-> & -> & _). destruct (hexc_space _ _ H2) as (_ & _ & X1 & X2 & _). apply hex_val_some in H1, H2. rewrite H1, H2.
  replace ((_ =? 120) || (_ =? 88)) with false by lia. rewrite andb_false_r. reflexivity.
Qed.
Lemma reformat_sign c a s : hexc c a -> reformat_mac (45 :: c :: s) = reformat_mac (two ((256 - a) mod 256) ++ s)%list /\ reformat_mac (43 :: c :: s) = reformat_mac (two a ++ s)%list.
Proof.
  intros H. pose proof (hexc_lt _ _ H) as L. pose proof (proj2 (hex_val_some c a) H) as V.
  assert (M : (256 - a) mod 256 < 256) by (apply N.mod_lt; discriminate).
  unfold reformat_mac. cbn [scan_mac]. rewrite two_scan by exact M. rewrite two_scan by lia.
  assert (E1 : scan_hex (45 :: c :: s) = Some ((256 - a) mod 256, s)) by (unfold scan_hex; cbn [skip_space]; change (is_space 45) with false; cbn iota; rewrite V; reflexivity).
  assert (E2 : scan_hex (43 :: c :: s) = Some (a mod 256, s)) by (unfold scan_hex; cbn [skip_space]; change (is_space 43) with false; cbn iota; rewrite V; reflexivity).
  rewrite E1, E2, (N.mod_small a 256) by lia. split; reflexivity.
Qed.
Lemma same_spec a b : same a b = true <-> a = Some b.
Proof. unfold same. destruct a as [a|]; [|split; discriminate]. destruct (list_eq_dec N.eq_dec a b); split; congruence. Qed.
Lemma lease_runs c l f a : c_runs (fst (lease_fn c l f a)) = true <-> c_runs c = true /\ exists x, l_addr l = Some x /\ (c_addr c = Some (x ++ text "/" ++ mask l)%list \/ f && a = true).
Proof.
  unfold lease_fn. destruct (l_addr l) as [x|] eqn:E; [|cbn; split; [discriminate|intros (_ & y & [=] & _)]]. cbv zeta. fold (mask l).
  change (text "/" ++ mask l)%list with (47 :: mask l). destruct (same (c_addr c) _) eqn:S.
  - apply same_spec in S. cbn [fst]. rewrite S. split; [intros R; eauto|tauto].
  - assert (N : c_addr c <> Some (x ++ 47 :: mask l)%list) by (intros X; apply same_spec in X; congruence).
    destruct f, a; cbn [negb andb fst c_runs].
    + split; [intros R; eauto 6|tauto].
    + split; [discriminate|]. intros (_ & y & [= <-] & [X|X]); [contradiction|discriminate].
    + split; [discriminate|]. intros (_ & y & [= <-] & [X|X]); [contradiction|discriminate].
    + split; [discriminate|]. intros (_ & y & [= <-] & [X|X]); [contradiction|discriminate].
Qed.
Lemma lease_silent c l f a : f && a = false -> snd (lease_fn c l f a) = [].
Proof. intros H. unfold lease_fn. destruct (l_addr l); [|reflexivity]. cbv zeta. destruct (same _ _); [reflexivity|]. destruct f, a; try discriminate; reflexivity. Qed.
