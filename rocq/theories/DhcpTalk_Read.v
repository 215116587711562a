From Verif Require Import Base DhcpRaw_Model DhcpOpt_Model DhcpOpt_Spec DhcpOpt_Proofs DhcpServer_Model DhcpServer_Spec DhcpServer_Send.
From Verif Require Import DhcpClient_Model DhcpTalk_Model DhcpTalk_Spec DhcpTalk_Proofs.

(** ** Buffers *)
Lemma sent_bytes h os : lenN h = 240 -> lenN (encs os) <= 306 ->
  takeN 548 (packet_with h os) = h ++ encs os ++ 255 :: repeat 0 (N.to_nat (307 - lenN (encs os))).
Proof.
  intros Hh L. unfold packet_with.
  replace (N.to_nat (387 - lenN (encs os))) with (N.to_nat (307 - lenN (encs os)) + 80)%nat by lia.
  rewrite repeat_app.
  replace (h ++ encs os ++ [255] ++ repeat 0 (N.to_nat (307 - lenN (encs os))) ++ repeat 0 80)
    with ((h ++ encs os ++ 255 :: repeat 0 (N.to_nat (307 - lenN (encs os)))) ++ repeat 0 80) by (rewrite <- !app_assoc; reflexivity).
  assert (E : lenN (h ++ encs os ++ 255 :: repeat 0 (N.to_nat (307 - lenN (encs os)))) = 548) by (len; rewrite lenN_repeat; lia).
  rewrite takeN_app, takeN_all by lia. rewrite E. change (548 - 548) with 0. now rewrite takeN_0, app_nil_r.
Qed.
Lemma sent_len h os : lenN h = 240 -> lenN (encs os) <= 306 -> lenN (takeN 548 (packet_with h os)) = 548.
Proof. intros Hh L. rewrite sent_bytes by assumption. len. rewrite lenN_repeat. lia. Qed.
Lemma received_sent h os : lenN h = 240 -> lenN (encs os) <= 306 ->
  received (takeN 548 (packet_with h os)) = packet_with h os.
Proof.
  intros Hh L. unfold received. rewrite takeN_app, sent_len by assumption. change (628 - 548) with 80.
  rewrite (takeN_all 628) by (rewrite sent_len by assumption; lia). change (takeN 80 (repeat 0 628)) with (repeat 0 80).
  rewrite sent_bytes by assumption. unfold packet_with. rewrite <- !app_assoc. cbn [app]. do 3 f_equal.
  rewrite <- repeat_app. f_equal. lia.
Qed.

(** ** Looking up *)
Lemma look fuel h os rest plen code : (400 <= fuel)%nat -> lenN h = 240 -> inv os -> 548 <= plen ->
  exists r, get_option fuel (h ++ encs os ++ 255 :: rest) plen code = Ok (Some r) /\
  match first code os with
  | None => r = None
  | Some d => exists l1 l2, h ++ encs os ++ 255 :: rest = l1 ++ d ++ l2 /\ r = Some (lenN l1)
  end.
Proof.
  intros Hf Hh [H1 H2] Hp. pose proof (encs_count os) as Hc.
  destruct (get_loop_list plen code os H1 fuel h rest 388%Z) as (r & E & M); [lia|lia|lia|].
  exists r. split; [unfold get_option, HDR; rewrite <- Hh; exact E|].
  destruct (first code os); [|exact M]. destruct M as (l1 & l2 & A & B & _). eauto.
Qed.
Lemma byte_here l1 b l2 : byte_at (l1 ++ b :: l2) (lenN l1) = Ret b.
Proof. unfold byte_at. rewrite nthN_app. replace (lenN l1 <? lenN l1) with false by lia. rewrite N.sub_diag. reflexivity. Qed.
Lemma byte_off p l1 b l2 i : p = l1 ++ b :: l2 -> i = lenN l1 -> byte_at p i = Ret b.
Proof. intros -> ->. apply byte_here. Qed.
Lemma be32_here l1 l2 v : get_be32 (l1 ++ be32 v ++ l2) (lenN l1) = Ret v.
Proof.
  rewrite be32_eq. set (a := v / 2 ^ 24). set (b := v / 2 ^ 16 mod 256). set (c := v / 2 ^ 8 mod 256). set (d := v mod 256).
  unfold get_be32. cbn [app].
  rewrite (byte_off _ l1 a (b :: c :: d :: l2)) by reflexivity. cbn [obind].
  rewrite (byte_off _ (l1 ++ [a]) b (c :: d :: l2)) by (rewrite <- ?app_assoc; len; reflexivity). cbn [obind].
  rewrite (byte_off _ (l1 ++ [a; b]) c (d :: l2)) by (rewrite <- ?app_assoc; len; reflexivity). cbn [obind].
  rewrite (byte_off _ (l1 ++ [a; b; c]) d l2) by (rewrite <- ?app_assoc; len; reflexivity). cbn [obind].
  f_equal. unfold a, b, c, d. change (2 ^ 24) with 16777216. change (2 ^ 16) with 65536. change (2 ^ 8) with 256. lia.
Qed.
Lemma le32_here l1 l2 v : get_le32 (l1 ++ be32 v ++ l2) (lenN l1) = Ret (swap32 v).
Proof.
  rewrite be32_eq. set (a := v / 2 ^ 24). set (b := v / 2 ^ 16 mod 256). set (c := v / 2 ^ 8 mod 256). set (d := v mod 256).
  unfold get_le32. cbn [app].
  rewrite (byte_off _ l1 a (b :: c :: d :: l2)) by reflexivity. cbn [obind].
  rewrite (byte_off _ (l1 ++ [a]) b (c :: d :: l2)) by (rewrite <- ?app_assoc; len; reflexivity). cbn [obind].
  rewrite (byte_off _ (l1 ++ [a; b]) c (d :: l2)) by (rewrite <- ?app_assoc; len; reflexivity). cbn [obind].
  rewrite (byte_off _ (l1 ++ [a; b; c]) d l2) by (rewrite <- ?app_assoc; len; reflexivity). cbn [obind].
  reflexivity.
Qed.
(** An option with a number. *)
Lemma look_u32 fuel h os rest plen code : (400 <= fuel)%nat -> lenN h = 240 -> inv os -> 548 <= plen ->
  match first code os with
  | None => read_u32 fuel (h ++ encs os ++ 255 :: rest) plen code = Ret None
  | Some d => forall v, d = be32 v -> read_u32 fuel (h ++ encs os ++ 255 :: rest) plen code = Ret (Some v)
  end.
Proof.
  intros Hf Hh Hi Hp. destruct (look fuel h os rest plen code Hf Hh Hi Hp) as (r & E & M). unfold read_u32. rewrite E. cbn [lift obind].
  destruct (first code os) as [d|]; [|now subst]. destruct M as (l1 & l2 & M & ->). intros v ->. rewrite M, be32_here. reflexivity.
Qed.
Lemma look_u8 fuel h os rest plen code : (400 <= fuel)%nat -> lenN h = 240 -> inv os -> 548 <= plen ->
  forall v, first code os = Some [v] ->
  exists i, lift (get_option fuel (h ++ encs os ++ 255 :: rest) plen code) = Ret (Some i) /\ byte_at (h ++ encs os ++ 255 :: rest) i = Ret v.
Proof.
  intros Hf Hh Hi Hp v F. destruct (look fuel h os rest plen code Hf Hh Hi Hp) as (r & E & M). rewrite F in M. destruct M as (l1 & l2 & M & ->).
  exists (lenN l1). rewrite E. split; [reflexivity|]. rewrite M. apply byte_here.
Qed.

(** ** The options of a message *)
Lemma first_app code a b : first code (a ++ b) = match first code a with Some d => Some d | None => first code b end.
Proof.
  unfold first. induction a as [|o a IH]; cbn [app find]; [reflexivity|]. destruct (fst o =? code); [reflexivity|exact IH].
Qed.
Lemma first_room code l : Forall (fun o : opt => fst o <> code) l -> forall os, first code (fold_left with_room l os) = first code os.
Proof.
  induction 1 as [|o l H _ IH]; intros os; cbn [fold_left]; [reflexivity|]. rewrite IH. unfold with_room.
  destruct (_ <=? 307); [|reflexivity]. rewrite first_app. destruct (first code os); [reflexivity|].
  unfold first. cbn [find]. destruct (N.eqb_spec (fst o) code); [contradiction|reflexivity].
Qed.
Lemma first_all k e code : cfg_ok k -> code = 53 \/ code = 54 \/ code = 50 -> first code (all_options k e) = first code (message_options k e).
Proof.
  intros K C. destruct e; cbn [all_options]; try reflexivity; apply first_room; pose proof (ok_sends k K) as S;
    (rewrite Forall_forall in *; intros o Ho; destruct (S o Ho); lia).
Qed.
Lemma first_reqs k code : code = 53 \/ code = 54 \/ code = 50 -> first code ([(57, be16 576)] ++ match k_reqs k with [] => [] | l => [(55, l)] end) = None.
Proof. intros [->|[->| ->]]; destruct (k_reqs k); reflexivity. Qed.
Lemma message_says k e t : cfg_ok k -> message_type e = Some t ->
  first 53 (all_options k e) = Some [t] /\ first 54 (all_options k e) = option_map be32 (meant e)
  /\ first 50 (all_options k e) = option_map be32 (asked_for e).
Proof.
  intros K T. rewrite !first_all by auto. unfold message_options. rewrite T. cbn [given]. rewrite !first_app.
  change (first 53 [(53, [t])]) with (Some [t]). change (first 54 [(53, [t])]) with (@None (list byte)). change (first 50 [(53, [t])]) with (@None (list byte)).
  split; [reflexivity|].
  assert (Z : forall code, code = 53 \/ code = 54 \/ code = 50 -> first code match e with
    | Release _ _ => [] | _ => [(57, be16 576)] ++ match k_reqs k with [] => [] | l => [(55, l)] end end = None).
  { intros code C. destruct e; try (now apply first_reqs). reflexivity. }
  rewrite !Z by auto. destruct (asked_for e), (meant e); split; reflexivity.
Qed.

(** ** The server reads what the client means *)
Lemma header_parts mac xid s f ci tl : lenN mac = 6 -> lenN xid = 4 -> lenN ci = 4 ->
  let p := client_header mac xid s f ci ++ tl in
  takeN 4 (dropN 236 p) = [0x63; 0x82; 0x53; 0x63] /\ byte_at p 2 = Ret 6 /\ byte_at p 0 = Ret 1
  /\ takeN 6 (dropN 28 p) = mac /\ get_le32 p 12 = get_le32 (repeat 0 12 ++ ci ++ []) 12.
Proof.
  intros Hm Hx Hc. apply E6 in Hm as (? & ? & ? & ? & ? & ? & ->). apply E4 in Hx as (? & ? & ? & ? & ->). apply E4 in Hc as (? & ? & ? & ? & ->).
  unfold client_header, be16. set (s1 := s / 256). set (s2 := s mod 256). clearbody s1 s2. repeat split; reflexivity.
Qed.

Lemma decode_message fuel s k xid el e t : (400 <= fuel)%nat -> cfg_ok k -> lenN xid = 4 -> message_type e = Some t -> inv (all_options k e) ->
  decode fuel s (message k xid el e)
  = Ret (if match meant e with Some v => negb (v =? server_nip s) | None => false end then None
         else Some (mkInput t (meant e) (asked_for e) (swap32 (in_use e)) (k_mac k))).
Proof.
  intros Hf K X T Hi. unfold decode, message. set (h := client_header _ _ _ _ _). set (os := all_options k e) in *.
  assert (Hh : lenN h = 240) by (apply client_header_len; [apply K|exact X|reflexivity]).
  change (takeN PACKET (?g ++ repeat 0 (N.to_nat PACKET))) with (received g).
  rewrite received_sent, sent_len by (auto; apply Hi). change (N.min PACKET 548) with 548.
  change (packet_with h os) with (h ++ encs os ++ 255 :: repeat 0 (N.to_nat (387 - lenN (encs os)))).
  set (rest := repeat 0 (N.to_nat (387 - lenN (encs os)))).
  destruct (header_parts (k_mac k) xid (seconds e el) (if unicast e then 0 else 128) (be32 (in_use e)) (encs os ++ 255 :: rest)) as (P1 & P2 & P3 & P4 & P5);
    [apply K|exact X|reflexivity|]. fold h in P1, P2, P3, P4, P5.
  rewrite P1. change (negb (eq_bytes _ _)) with false. cbv iota. unfold check_packet_type. rewrite P2. cbn [obind].
  change (negb (6 =? ETH_ALEN)) with false. cbv iota. rewrite P3. cbn [obind]. change (negb (1 =? 1)) with false. cbv iota.
  destruct (message_says k e t K T) as (F1 & F2 & F3). fold os in F1, F2, F3.
  destruct (look_u8 fuel h os rest 548 53 Hf Hh Hi ltac:(lia) t F1) as (i & L1 & L2). change MESSAGE_TYPE with 53. rewrite L1. cbn [obind]. rewrite L2. cbn [obind].
  assert (T' : (t <? 1) || (8 <? t) = false /\ t =? 0 = false).
  { destruct e; try discriminate T; apply (f_equal (fun x => match x with Some x => x | None => 0 end)) in T; cbn [message_type] in T; subst t; split; reflexivity. }
  destruct T' as [-> ->].
  pose proof (look_u32 fuel h os rest 548 54 Hf Hh Hi ltac:(lia)) as S. pose proof (look_u32 fuel h os rest 548 50 Hf Hh Hi ltac:(lia)) as R.
  rewrite F2 in S. rewrite F3 in R. unfold read_u32 in S, R.
  assert (S' : (let* o := lift (get_option fuel (h ++ encs os ++ 255 :: rest) 548 54) in
    match o with Some i => let* v := get_be32 (h ++ encs os ++ 255 :: rest) i in Ret (Some v) | None => Ret None end) = Ret (meant e)).
  { destruct (meant e); cbn [option_map] in S; [now apply S|exact S]. }
  assert (R' : (let* o := lift (get_option fuel (h ++ encs os ++ 255 :: rest) 548 50) in
    match o with Some i => let* v := get_be32 (h ++ encs os ++ 255 :: rest) i in Ret (Some v) | None => Ret None end) = Ret (asked_for e)).
  { destruct (asked_for e); cbn [option_map] in R; [now apply R|exact R]. }
  destruct (lift (get_option fuel (h ++ encs os ++ 255 :: rest) 548 54)) as [o1| |]; cbn [obind] in S' |- *; try discriminate.
  rewrite S'. cbn [obind]. 
  destruct (match meant e with Some v => negb (v =? server_nip s) | None => false end); [reflexivity|].
  destruct (lift (get_option fuel (h ++ encs os ++ 255 :: rest) 548 50)) as [o2| |]; cbn [obind] in R' |- *; try discriminate.
  rewrite R'. cbn [obind]. rewrite P5. change 12 with (lenN (repeat 0 12)). rewrite le32_here. cbn [obind]. unfold ETH_ALEN. rewrite P4. reflexivity.
Qed.

(** ** The client reads what the server answers *)
Lemma reply_inv s m : config_ok s -> inv (reply_options s m).
Proof.
  intros [L O]. split.
  - assert (C : Forall good_opt (configured s)).
    { unfold configured. rewrite Forall_forall in *. intros x Hx. apply in_map_iff in Hx as (o & <- & Ho). apply O in Ho.
      unfold good_opt. cbn [fst snd]. change (lenN (be32 (snd o))) with 4. cbn [In] in Ho. lia. }
    unfold reply_options. constructor; [unfold good_opt; cbn [fst snd]; change (lenN [reply_type m]) with 1; lia|].
    constructor; [unfold good_opt; cbn [fst snd]; change (lenN (be32 (server_nip s))) with 4; lia|].
    destruct m; try exact C; try constructor; try exact C; unfold good_opt; cbn [fst snd]; change (lenN (be32 (secs s))) with 4; lia.
  - assert (C : lenN (encs (configured s)) = 6 * lenN (opts s)).
    { unfold configured. generalize (opts s). induction l as [|o l IH]; [reflexivity|]. cbn [map]. rewrite encs_cons. len. rewrite IH, enc_len. cbn [snd].
      change (lenN (be32 (snd o))) with 4. lia. }
    assert (L' : lenN (opts s) <= 3) by (unfold lenN; lia).
    unfold reply_options. rewrite encs_app. len. change (lenN (encs [_; _])) with 9.
    destruct m; [rewrite encs_cons; len; rewrite C, enc_len; cbn [snd]; change (lenN (be32 (secs s))) with 4; lia
      |rewrite encs_cons; len; rewrite C, enc_len; cbn [snd]; change (lenN (be32 (secs s))) with 4; lia|change (lenN (encs [])) with 0; lia|rewrite C; lia].
Qed.
Lemma reply_says s m : config_ok s ->
  first 53 (reply_options s m) = Some [reply_type m] /\ first 54 (reply_options s m) = Some (be32 (server_nip s))
  /\ first 51 (reply_options s m) = match m with Offer _ | Ack _ => Some (be32 (secs s)) | _ => None end.
Proof.
  intros [_ O]. split; [reflexivity|]. split; [reflexivity|]. destruct m; try reflexivity.
  unfold reply_options. rewrite first_app. change (first 51 [(53, _); (54, _)]) with (@None (list byte)).
  unfold configured, first. induction O as [|o l Ho _ IH]; [reflexivity|]. cbn [map find fst].
  replace (fst o =? 51) with false; [exact IH|]. cbn [In] in Ho. lia.
Qed.

Lemma reply_parts mac xid s f ci y tl : lenN mac = 6 -> lenN xid = 4 -> lenN ci = 4 -> lenN y = 4 ->
  forall tl', let c := client_header mac xid s f ci ++ tl in
  let h := [2; 1; 6; 0] ++ takeN 4 (dropN 4 c) ++ [0; 0] ++ takeN 2 (dropN 10 c) ++ takeN 4 (dropN 12 c) ++ y
    ++ [0; 0; 0; 0] ++ takeN 4 (dropN 24 c) ++ takeN 16 (dropN 28 c) ++ repeat 0 192 ++ [0x63; 0x82; 0x53; 0x63] in
  exists h', set_broadcast (h ++ tl') = h' ++ tl' /\ lenN h' = 240
  /\ forall tl'', let p := h' ++ tl'' in byte_at p 2 = Ret 6 /\ takeN 4 (dropN 4 p) = xid /\ takeN 6 (dropN 28 p) = mac
     /\ get_be32 p 16 = get_be32 (repeat 0 16 ++ y ++ []) 16.
Proof.
  intros Hm Hx Hc Hy. apply E6 in Hm as (? & ? & ? & ? & ? & ? & ->). apply E4 in Hx as (? & ? & ? & ? & ->). apply E4 in Hc as (? & ? & ? & ? & ->).
  apply E4 in Hy as (? & ? & ? & ? & ->).
  unfold client_header, be16. generalize (s / 256), (s mod 256). intros s1 s2 tl'. cbv zeta.
  match goal with |- exists h', set_broadcast (?h ++ tl') = _ /\ _ => let v := eval vm_compute in h in (change h with v) end.
  eexists. split; [unfold set_broadcast; cbn [app]; match goal with |- takeN 10 ?l ++ match dropN 10 ?l with _ => _ end = _ =>
    match l with ?a0 :: ?a1 :: ?a2 :: ?a3 :: ?a4 :: ?a5 :: ?a6 :: ?a7 :: ?a8 :: ?a9 :: ?f :: ?t =>
      change (takeN 10 l) with [a0; a1; a2; a3; a4; a5; a6; a7; a8; a9]; change (dropN 10 l) with (f :: t) end end; cbn [app];
    match goal with |- ?l = _ => let rec split_at l := match l with tl' => constr:(@nil N) | ?a :: ?r => let x := split_at r in constr:(a :: x) end in
      let x := split_at l in (transitivity (x ++ tl'); [reflexivity|reflexivity]) end|].
  split; [reflexivity|]. intros tl''. repeat split; reflexivity.
Qed.

Lemma answer_ok fuel s k xid el e m rest : (400 <= fuel)%nat -> config_ok s -> cfg_ok k -> lenN xid = 4 -> inv (all_options k e) ->
  exists r, render s (takeN PACKET (message k xid el e ++ repeat 0 (N.to_nat PACKET))) m = Ok (Some r)
  /\ read_packet fuel k xid (takeN 548 (set_broadcast r) ++ rest) 548 = Ret (answer_read s m).
Proof.
  intros Hf C K X Hi. unfold message. set (h := client_header _ _ _ _ _). set (os := all_options k e) in *.
  assert (Hh : lenN h = 240) by (apply client_header_len; [apply K|exact X|reflexivity]).
  change (takeN PACKET (?g ++ repeat 0 (N.to_nat PACKET))) with (received g).
  rewrite received_sent by (auto; apply Hi).
  assert (L : 628 <= lenN (packet_with h os)) by (unfold packet_with; len; rewrite lenN_repeat, Hh; destruct Hi; lia).
  rewrite (render_ok s _ m C L). eexists. split; [reflexivity|].
  pose proof (reply_inv s m C) as Hr. unfold packet_with at 1. unfold reply_header. unfold packet_with at 1 2 3 4 5. 
  destruct (reply_parts (k_mac k) xid (seconds e el) (if unicast e then 0 else 128) (be32 (in_use e)) (be32 (reply_addr m))
    (encs os ++ [255] ++ repeat 0 (N.to_nat (387 - lenN (encs os)))) (ok_mac k K) X eq_refl eq_refl
    (encs (reply_options s m) ++ [255] ++ repeat 0 (N.to_nat (387 - lenN (encs (reply_options s m)))))) as (h' & E & L' & P).
  fold h in E. cbv zeta in E. rewrite E. clear E.
  change (h' ++ encs (reply_options s m) ++ [255] ++ repeat 0 (N.to_nat (387 - lenN (encs (reply_options s m))))) with (packet_with h' (reply_options s m)).
  rewrite sent_bytes by (auto; apply Hr). rewrite <- !app_assoc. change ((255 :: ?a) ++ ?b) with (255 :: a ++ b).
  set (rest' := repeat 0 (N.to_nat (307 - lenN (encs (reply_options s m)))) ++ rest).
  destruct (P (encs (reply_options s m) ++ 255 :: rest')) as (P1 & P2 & P3 & P4).
  unfold read_packet. rewrite P1. cbn [obind]. rewrite P2, P3.
  assert (R : forall l, eq_bytes l l = true) by (intros; now apply DhcpServer_Proofs.eq_bytes_ok). rewrite !R. change (negb (6 =? 6)) with false. cbn [negb orb].
  rewrite P4. change 16 with (lenN (repeat 0 16)). rewrite be32_here. cbn [obind].
  destruct (reply_says s m C) as (F1 & F2 & F3).
  destruct (look_u8 fuel h' (reply_options s m) rest' 548 53 Hf L' Hr ltac:(lia) _ F1) as (i & L1 & L2).
  change MESSAGE_TYPE with 53. rewrite L1. cbn [obind]. rewrite L2. cbn [obind].
  pose proof (look_u32 fuel h' (reply_options s m) rest' 548 54 Hf L' Hr ltac:(lia)) as S. rewrite F2 in S. rewrite (S _ eq_refl). cbn [obind].
  pose proof (look_u32 fuel h' (reply_options s m) rest' 548 51 Hf L' Hr ltac:(lia)) as T. rewrite F3 in T.
  unfold answer_read. destruct m; first [rewrite (T _ eq_refl)|rewrite T]; reflexivity.
Qed.

(** Other clients do not take it. *)
Lemma answer_other fuel s k xid el e m rest k' xid' : config_ok s -> cfg_ok k -> lenN xid = 4 -> inv (all_options k e) ->
  xid' <> xid \/ k_mac k' <> k_mac k ->
  exists r, render s (takeN PACKET (message k xid el e ++ repeat 0 (N.to_nat PACKET))) m = Ok (Some r)
  /\ read_packet fuel k' xid' (takeN 548 (set_broadcast r) ++ rest) 548 = Ret (Packet false None None None 0).
Proof.
  intros C K X Hi D. unfold message. set (h := client_header _ _ _ _ _). set (os := all_options k e) in *.
  assert (Hh : lenN h = 240) by (apply client_header_len; [apply K|exact X|reflexivity]).
  change (takeN PACKET (?g ++ repeat 0 (N.to_nat PACKET))) with (received g).
  rewrite received_sent by (auto; apply Hi).
  assert (L : 628 <= lenN (packet_with h os)) by (unfold packet_with; len; rewrite lenN_repeat, Hh; destruct Hi; lia).
  rewrite (render_ok s _ m C L). eexists. split; [reflexivity|].
  pose proof (reply_inv s m C) as Hr. unfold packet_with at 1. unfold reply_header. unfold packet_with at 1 2 3 4 5.
  destruct (reply_parts (k_mac k) xid (seconds e el) (if unicast e then 0 else 128) (be32 (in_use e)) (be32 (reply_addr m))
    (encs os ++ [255] ++ repeat 0 (N.to_nat (387 - lenN (encs os)))) (ok_mac k K) X eq_refl eq_refl
    (encs (reply_options s m) ++ [255] ++ repeat 0 (N.to_nat (387 - lenN (encs (reply_options s m)))))) as (h' & E & L' & P).
  fold h in E. cbv zeta in E. rewrite E. clear E.
  change (h' ++ encs (reply_options s m) ++ [255] ++ repeat 0 (N.to_nat (387 - lenN (encs (reply_options s m))))) with (packet_with h' (reply_options s m)).
  rewrite sent_bytes by (auto; apply Hr). rewrite <- !app_assoc. change ((255 :: ?a) ++ ?b) with (255 :: a ++ b).
  destruct (P (encs (reply_options s m) ++ 255 :: repeat 0 (N.to_nat (307 - lenN (encs (reply_options s m)))) ++ rest)) as (P1 & P2 & P3 & P4).
  unfold read_packet. rewrite P1. cbn [obind]. rewrite P2, P3. change (negb (6 =? 6)) with false.
  assert (Z : negb (eq_bytes xid xid') || false || negb (eq_bytes (k_mac k) (k_mac k')) = true).
  { destruct D as [D|D].
    - replace (eq_bytes xid xid') with false by (symmetry; apply DhcpServer_Proofs.eq_bytes_no; auto). reflexivity.
    - replace (eq_bytes (k_mac k) (k_mac k')) with false by (symmetry; apply DhcpServer_Proofs.eq_bytes_no; auto). now rewrite !orb_true_r. }
  rewrite Z. reflexivity.
Qed.

(** ** An exchange *)
Lemma answers_ok fuel s k xid el e rest out : (400 <= fuel)%nat -> config_ok s -> cfg_ok k -> lenN xid = 4 -> inv (all_options k e) ->
  answers fuel k xid s (message k xid el e) rest out = Ret (map (answer_read s) out).
Proof.
  intros Hf C K X Hi. induction out as [|m out IH]; cbn [answers map]; [reflexivity|].
  destruct (answer_ok fuel s k xid el e m rest Hf C K X Hi) as (r & -> & R). cbn [lift obind]. rewrite R. cbn [obind]. rewrite IH. reflexivity.
Qed.
Definition input_of (k : config) (e : event) (t : N) : input := mkInput t (meant e) (asked_for e) (swap32 (in_use e)) (k_mac k).
Lemma same_config_ok s s' : DhcpServer_Proofs.same_config s s' -> config_ok s -> config_ok s'.
Proof. intros (_ & _ & _ & _ & E). unfold config_ok. now rewrite E. Qed.
Lemma exchange_ok fuel mem now s k xid el e t rest : (400 <= fuel)%nat -> cfg_ok k -> lenN xid = 4 -> message_type e = Some t ->
  match meant e with Some v => v = server_nip s | None => True end ->
  config_ok s -> DhcpServer_Proofs.inv s -> start_ip s < 2 ^ 32 ->
  exchange fuel mem now s k xid (Z.of_N el) e rest
  = let* (s', out) := handle fuel mem now s (input_of k e t) in Ret (s', map (answer_read s) out).
Proof.
  intros Hf K X T M C I S. unfold exchange. destruct (render_event_ok k xid el e t K X T) as (p & -> & _ & Hi & E).
  cbn [lift obind]. rewrite E. unfold listener_event. rewrite (decode_message fuel s k xid el e t Hf K X T Hi). cbn [obind].
  replace (match meant e with Some v => negb (v =? server_nip s) | None => false end) with false
    by (destruct (meant e); [subst; now rewrite N.eqb_refl|reflexivity]).
  fold (input_of k e t). destruct (DhcpServer_Proofs.handle_ok fuel mem now s (input_of k e t) I S) as [[_ ->]|(s' & out & -> & _ & SC & _)]; cbn [obind]; [reflexivity|].
  rewrite (answers_ok fuel s' k xid el e rest out Hf (same_config_ok s s' SC C) K X Hi). cbn [obind]. do 2 f_equal.
  apply map_ext. intros m. unfold answer_read. destruct SC as (_ & _ & E1 & E2 & _). now rewrite E1, E2.
Qed.
