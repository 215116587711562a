(** Whole messages, packets and streams through the parser. *)
From Coq Require Import String.
From Verif Require Import Base Atoi_Model Qstr_Model Text Text_Proofs RtspMsg_Model RtspMsg_Spec RtspMsg_Proofs RtspSeal_Proofs
  RtspBuilt_Proofs RtspText_Proofs RtspSend_Proofs RtspParser_Model RtspParser_Spec RtspParser_Frame RtspWire_Spec RtspRecv_Proofs.

Lemma effects_other xs : forall r c, Forall (fun x => ~ known (fst x)) xs -> forall ys r' c', effects ys r c r' c' -> effects (xs ++ ys) r c r' c'.
Proof.
  induction xs as [|x xs IH]; intros r c F ys r' c' E; [exact E|]. inversion F as [|? ? Hx F']; subst. cbn [app].
  apply (EffsCons x _ r c r c); [|now apply IH]. unfold known in Hx. constructor.
  - destruct (case_eq (fst x) (text "Content-Length")) eqn:Q; [exfalso; apply Hx; auto|reflexivity].
  - destruct (case_eq (fst x) (text "CSeq")) eqn:Q; [exfalso; apply Hx; auto|reflexivity].
Qed.
Lemma full_effects f cookie hs bs : good_message f cookie hs bs ->
  effects (full_headers cookie hs bs) 0 0 (lenN (body_bytes bs)) (with_flag cookie).
Proof.
  intros (_ & Gc & _ & Gn & _ & Gl & _). assert (E32 : 2 ^ 32 = 4294967296) by reflexivity. assert (E64 : 2 ^ 64 = 18446744073709551616) by reflexivity.
  unfold full_headers. apply effects_other; [assumption|].
  assert (Cs : forall r, effects [(text "CSeq", [dec cookie])] r 0 r (with_flag cookie)).
  { intros r. eapply EffsCons; [apply EffSeq; lia|constructor]. }
  destruct bs as [|b bs]; [apply Cs|]. cbn [app].
  eapply EffsCons; [apply EffLength; lia|]. eapply EffsCons; [apply EffOther; reflexivity|]. apply Cs.
Qed.
Lemma text_field name v : forallb (fun c => (33 <=? c) && negb (c =? 34) && negb (c =? 58)) name = true -> name <> [] -> v <> [] -> simple v -> good_field (name, [v]).
Proof.
  intros H N Nv Sv. rewrite forallb_forall in H. split; [|split; [|split]].
  - split; [exact N|]. apply Forall_forall. intros c Hc. apply H in Hc. lia.
  - cbn [fst]. intros Hc. apply H in Hc. lia.
  - discriminate.
  - constructor; [now apply simple_good_token|constructor].
Qed.
Lemma full_good f cookie hs bs : good_message f cookie hs bs -> Forall good_field (full_headers cookie hs bs).
Proof.
  intros (_ & _ & Gh & _). unfold full_headers. apply Forall_app. split; [assumption|]. apply Forall_app. split.
  - destruct bs as [|b bs]; [constructor|]. constructor.
    + apply text_field; [reflexivity|discriminate|apply dec_nonnil|apply dec_simple].
    + constructor; [|constructor]. apply text_field; [reflexivity|discriminate|discriminate|apply simpleb; reflexivity].
  - constructor; [|constructor]. apply text_field; [reflexivity|discriminate|apply dec_nonnil|apply dec_simple].
Qed.
Lemma full_len cookie (hs bs : list field) : lenN hs <= 61 -> lenN (full_headers cookie hs bs) <= 64.
Proof.
  intros L. unfold full_headers. rewrite !lenN_app. change (lenN [(text "CSeq", [dec cookie])]) with 1.
  destruct bs; rewrite ?lenN_cons, lenN_nil; unfold field in *; lia.
Qed.

(** The body of a received message. *)
Lemma body_taken f cookie hs bs c m : good_message f cookie hs bs -> bs <> [] -> taken f (full_headers cookie hs bs) c m ->
  exists m', append_body m (body_bytes bs) (Some 0) = Ok (m', None) /\ closed m' /\ m_start m' = start_of f /\ m_major m' = 1 /\ m_minor m' = 0
    /\ m_cookie m' = c /\ a_used (m_headers m') = map header_of (full_headers cookie hs bs) /\ a_used (m_body_headers m') = map header_of bs /\ m_body m' = None.
Proof.
  intros G Nb [[Wm D S I B] T1 T2 T3 T4 T5 T6 T7]. assert (G0 := G). destruct G as (Gf & Gc & Gh & Gn & Gb & Gl & Gs).
  unfold append_body. destruct (body_bytes bs) as [|z zs] eqn:Ez.
  { exfalso. pose proof (lenN_fields bs) as H. rewrite Ez, lenN_nil in H. apply Nb. apply lenN_0_nil. unfold field in *. lia. }
  rewrite <- Ez in *. clear z zs Ez.
  assert (L : lenN (a_used (m_headers m)) <= 64) by (rewrite T5, lenN_map; now apply full_len).
  assert (Hct : last_of (text "Content-Type") (a_used (m_headers m)) (header_of (text "Content-Type", [text "text/parameters"]))).
  { rewrite T5. unfold full_headers. rewrite map_app. destruct bs as [|b bs]; [congruence|].
    exists (map header_of hs ++ [header_of (text "Content-Length", [dec (lenN (body_bytes (b :: bs)))])]). eexists.
    split; [rewrite <- app_assoc; reflexivity|]. split; [reflexivity|]. repeat (constructor; [reflexivity|]). constructor. }
  destruct (known_deref m _ (m_ctype m) _ (wf_ctype m Wm) Hct L) as (p & Ep & Ed & _). rewrite Ep, Ed. cbn [bind header_of h_value snd].
  change (str_eq (join [text "text/parameters"]) (text "text/parameters")) with true. cbn [negb].
  unfold open_body. rewrite guard_open by assumption. rewrite I, B. cbn [no_ptr negb orb bind].
  set (m1 := set_iter m true None (m_iter_token m)).
  assert (W1 : wf m1). { destruct Wm as [? ? ? ? ? Op]. constructor; auto. red in Op |- *. rewrite I in Op. exact Op. }
  destruct (body_lines bs (Datatypes.length (body_bytes bs)) m1 0) as (m2 & E2 & W2 & K2 & I2 & B2 & H2 & C1 & C2 & C3 & U2); auto.
  { change (m_body_headers m1) with (m_body_headers m). rewrite T6. cbn [no_arr a_used]. rewrite lenN_nil, p62. pose proof (lenN_fields bs).
    assert (E32 : 2 ^ 32 = 4294967296) by reflexivity. unfold field in *. lia. }
  rewrite E2. cbn [bind]. destruct (kept_data _ _ K2) as (D2 & S2 & _). change (is_data m1) with (is_data m) in D2. change (m_sealed m1) with (m_sealed m) in S2.
  unfold close_body. rewrite guard_open by congruence. rewrite I2, B2. cbn [no_ptr negb].
  eexists. split; [reflexivity|]. destruct K2 as (K1 & K2 & K3 & K4 & K5 & _).
  assert (W3 : wf (set_iter m2 false None (m_iter_token m2))). { destruct W2 as [? ? ? ? ? Op]. constructor; auto. red in Op |- *. rewrite I2 in Op. exact Op. }
  split; [constructor; [exact W3|exact (eq_trans D2 D)|exact (eq_trans S2 S)|reflexivity|reflexivity]|].
  cbn [set_iter m_start m_major m_minor m_cookie m_headers m_body_headers m_body].
  change (m_headers m1) with (m_headers m) in H2. change (m_body_headers m1) with (m_body_headers m) in U2. rewrite T6 in U2. cbn [no_arr a_used app] in U2.
  rewrite H2, U2, K1, K2, K3, K4, K5. unfold m1. cbn [set_iter m_start m_major m_minor m_cookie m_body]. auto 10.
Qed.

Lemma recv_message f cookie hs bs d ck w t : ready d -> good_message f cookie hs bs ->
  exists d' m, ready d' /\ arrives (Msg f cookie hs bs) m
    /\ feed (d, ck, w) (wire f cookie hs bs ++ t) = feed (d', ck, w ++ [m]) t.
Proof.
  intros R G. assert (Gf : good_first f) by apply G. unfold wire.
  rewrite <- !app_assoc. destruct (feed_start f d ck w (flat_map field_line (full_headers cookie hs bs) ++ [13; 10] ++ body_bytes bs ++ t) R Gf) as (q & E). rewrite E.
  assert (T0 : taken f [] 0 (msg_new (start_of f))).
  { constructor; try reflexivity. constructor; auto; [apply wf_new|now destruct f]. }
  destruct (feed_fields f (full_headers cookie hs bs) [] 0 (msg_new (start_of f)) 0 (lenN (body_bytes bs)) (with_flag cookie) None (line_of_status f) 0 (d_size d) (d_channel d) ck w q
    ([13; 10] ++ body_bytes bs ++ t)) as (om & L & rem & m & q' & E1 & P & T).
  { now apply pending_first. } { exact T0. } { rewrite lenN_nil. apply full_len. apply G. } { eapply full_good; eassumption. } { eapply full_effects; eassumption. }
  rewrite E1. cbn [app] in T |- *. destruct bs as [|b bs].
  - change (lenN (body_bytes [])) with 0 in P. cbn [body_bytes flat_map app].
    assert (T' := T). destruct T' as [C T1 T2 T3 T4 T5 T6 T7]. destruct (seal_recv f cookie hs [] m ck G C T1 T2 T3 T4 T5) as (m' & Es & Ct & Ck); [rewrite T6; reflexivity|assumption|].
    destruct (feed_end_empty om L rem m (d_size d) (d_channel d) ck w q' t ck m' P Es) as (d' & R' & E2).
    exists d', (set_used m'). split; [assumption|]. split; [|exact E2]. unfold arrives. cbn [m_sealed m_used set_used]. split; [apply Ct|]. split; [reflexivity|].
    split; [exact Ct|exact Ck].
  - assert (Nz : lenN (body_bytes (b :: bs)) <> 0). { pose proof (lenN_fields (b :: bs)) as H. rewrite lenN_cons in H. lia. }
    destruct (feed_end_body om L rem m _ (d_size d) (d_channel d) ck w q' (body_bytes (b :: bs) ++ t) P Nz) as (q2 & E2). rewrite E2.
    destruct (body_taken f cookie hs (b :: bs) (with_flag cookie) m G) as (m1 & Ea & C & T1 & T2 & T3 & T4 & T5 & T6 & T7); [discriminate|exact T|].
    destruct (seal_recv f cookie hs (b :: bs) m1 ck G C T1 T2 T3 T4 T5 T6 T7) as (m' & Es & Ct & Ck).
    destruct (feed_body_bytes (body_bytes (b :: bs)) m [] 10 (d_size d) (d_channel d) q2 ck w t m1 ck m') as (d' & R' & E3); [intros H; rewrite H in Nz; now apply Nz|exact Ea|exact Es|].
    exists d', (set_used m'). split; [assumption|]. split; [|exact E3]. unfold arrives. cbn [m_sealed m_used set_used]. split; [apply Ct|]. split; [reflexivity|].
    split; [exact Ct|exact Ck].
Qed.

(** ** Data packets *)
Lemma feed_data_bytes l : forall b x rem sz ch q ck w t m ck' m', l <> [] -> sz = lenN b + lenN l -> new_data ch (b ++ l) = inl m -> seal ck m = Ok (ck', m', None) ->
  exists d, ready d /\ feed (mkParser None b (lenN b) SDataBody x rem sz ch q, ck, w) (l ++ t) = feed (d, ck', w ++ [set_used m']) t.
Proof.
  induction l as [|c l IH]; intros b x rem sz ch q ck w t m ck' m' Hl Hs En Es; [congruence|].
  cbn [app feed_seq]. unfold feed_char. fields. unfold feed_data_body. fields. rewrite lenN_cons in Hs.
  destruct l as [|c' l].
  - rewrite lenN_nil in Hs. destruct (N.leb_spec sz (lenN b + 1)); [|lia].
    replace sz with (lenN (b ++ [c])) by (rewrite lenN_app; change (lenN [c]) with 1; lia). rewrite (copy_front _ (b ++ [c]) []) by (cbn; now rewrite app_nil_r).
    cbn [bind]. unfold submit_data. cbn [d_channel]. rewrite En. unfold dispatch. rewrite Es. cbn [bind record app].
    eexists. split; [|reflexivity]. fields. rewrite dropN_all by (rewrite lenN_app; change (lenN [c]) with 1; lia). repeat split.
  - rewrite lenN_cons in Hs. destruct (N.leb_spec sz (lenN b + 1)); [lia|]. cbn [bind]. fields.
    replace (lenN b + 1) with (lenN (b ++ [c])) by (now rewrite lenN_app).
    destruct (IH (b ++ [c]) c rem sz ch q ck w t m ck' m') as (d & R & E); [discriminate|rewrite !lenN_app, !lenN_cons, lenN_nil; lia|rewrite <- app_assoc; exact En|exact Es|].
    exists d. split; [exact R|]. exact E.
Qed.
Lemma recv_packet channel payload d ck w t : ready d -> good_item (Pkt channel payload) ->
  exists d' m, ready d' /\ arrives (Pkt channel payload) m /\ m_cookie m = next_cookie ck
    /\ feed (d, ck, w) (wire_of (Pkt channel payload) ++ t) = feed (d', next_cookie ck, w ++ [m]) t.
Proof.
  intros (R1 & R2 & R3 & R4) (Gc & Gl). cbn [wire_of app feed_seq]. unfold feed_char at 1. cbn [fst]. change (d_state (push d 36)) with (d_state d). rewrite R4.
  unfold feed_new. change ((36 =? 13) || (36 =? 10) || (36 =? 9) || (36 =? 32)) with false. change (36 =? 36) with true. cbn iota. cbn [bind]. fields. rewrite R2, R3. cbn [app].
  change (dropN (0 + 1) [36]) with (@nil N). unfold feed_char at 1. fields. unfold feed_data_head. fields. cbn [app]. change (3 <=? 0 + 1) with false. cbn iota. cbn [bind]. fields.
  unfold feed_char at 1. fields. unfold feed_data_head. fields. cbn [app]. change (3 <=? 0 + 1 + 1) with false. cbn iota. cbn [bind]. fields.
  unfold feed_char at 1. fields. unfold feed_data_head. fields. cbn [app]. change (3 <=? 0 + 1 + 1 + 1) with true. cbn iota.
  set (d0 := mkParser _ _ (0 + 1 + 1 + 1) _ _ _ _ _ _). assert (Ec : copy d0 3 = Ok [channel; lenN payload / 256; lenN payload mod 256]) by reflexivity. rewrite Ec. unfold d0. cbn [bind]. fields.
  change (dropN (0 + 1 + 1 + 1) [channel; lenN payload / 256; lenN payload mod 256]) with (@nil N).
  assert (Es : lenN payload / 256 * 256 + lenN payload mod 256 = lenN payload) by (pose proof (N.div_mod (lenN payload) 256); lia). rewrite Es.
  assert (En : new_data channel ([] ++ payload) = inl (msg_new (Data channel payload))).
  { unfold new_data. destruct (N.eqb_spec channel (2 ^ 32 - 1)) as [H|_]; [|reflexivity]. exfalso. change (2 ^ 32 - 1) with 4294967295 in H. lia. }
  destruct (feed_data_bytes payload [] (lenN payload mod 256) (d_remaining d) (lenN payload) channel (d_quoted d) ck w t (msg_new (Data channel payload)) (next_cookie ck)
    (set_sealed (serialize_data (set_cookie' (msg_new (Data channel payload)) (next_cookie ck)) channel payload)) ) as (d' & R & E).
  { intros H. apply (f_equal lenN) in H. change (lenN []) with 0 in H. lia. } { reflexivity. } { exact En. } { reflexivity. }
  exists d'. eexists. split; [exact R|]. split; [|split; [|rewrite R1; exact E]]; [|reflexivity].
  unfold arrives. cbn [m_sealed m_used set_used set_sealed serialize_data set_raw set_cookie' msg_new m_start m_raw].
  do 2 (split; [reflexivity|]). split; [reflexivity|]. cbn [wire_of]. rewrite (N.mod_small channel) by assumption.
  rewrite (N.mod_small (lenN payload / 256)); [reflexivity|]. apply N.div_lt_upper_bound; lia.
Qed.
Lemma sent_packet channel payload : good_item (Pkt channel payload) ->
  exists m, sent (Pkt channel payload) = Some m /\ m_raw m = Some (wire_of (Pkt channel payload)).
Proof.
  intros (Gc & Gl). cbn [sent]. unfold new_data. destruct (N.eqb_spec channel (2 ^ 32 - 1)) as [H|_]; [exfalso; change (2 ^ 32 - 1) with 4294967295 in H; lia|].
  eexists. split; [reflexivity|]. cbn [m_raw set_sealed serialize_data set_raw wire_of]. rewrite (N.mod_small channel) by assumption.
  rewrite (N.mod_small (lenN payload / 256)); [reflexivity|]. apply N.div_lt_upper_bound; lia.
Qed.

(** ** Streams *)
Lemma recv_items is : forall d ck w, ready d -> Forall good_item is ->
  exists d' ck' ms, ready d' /\ Forall2 arrives is ms /\ feed (d, ck, w) (flat_map wire_of is) = Ok (d', ck', w ++ ms, None).
Proof.
  induction is as [|i is IH]; intros d ck w R G.
  - exists d, ck, []. rewrite app_nil_r. auto.
  - inversion G as [|? ? G1 G2]; subst. cbn [flat_map].
    assert (H : exists d1 ck1 m, ready d1 /\ arrives i m /\ feed (d, ck, w) (wire_of i ++ flat_map wire_of is) = feed (d1, ck1, w ++ [m]) (flat_map wire_of is)).
    { destruct i as [f cookie hs bs|channel payload].
      - destruct (recv_message f cookie hs bs d ck w (flat_map wire_of is) R G1) as (d1 & m & ? & ? & ?). eauto 8.
      - destruct (recv_packet channel payload d ck w (flat_map wire_of is) R G1) as (d1 & m & ? & ? & _ & ?). eauto 8. }
    destruct H as (d1 & ck1 & m & R1 & A & E). rewrite E. destruct (IH d1 ck1 (w ++ [m]) R1 G2) as (d' & ck' & ms & R' & A' & E').
    exists d', ck', (m :: ms). rewrite E', <- app_assoc. auto.
Qed.
Lemma sent_wire i : good_item i -> exists m, sent i = Some m /\ m_raw m = Some (wire_of i).
Proof.
  destruct i as [f cookie hs bs|channel payload]; [|apply sent_packet]. intros G. destruct (build_wire f cookie hs bs G) as (m & E & C & _).
  exists m. split; [exact E|]. apply C.
Qed.
Lemma init_ready : ready parser_init. Proof. repeat split. Qed.
Lemma wire_nonnil i : wire_of i <> [].
Proof. destruct i; [|discriminate]. cbn [wire_of]. unfold wire, status. now destruct (match f with Req _ _ => _ | Rep _ _ => _ end). Qed.

Lemma stream_received is ls : Forall good_item is -> Forall (fun l => l <> []) ls -> concat ls = flat_map wire_of is ->
  exists d ck ms, parse_chunks record (parser_init, 0, []) ls = Ok (d, ck, ms, None) /\ Forall2 arrives is ms /\ ready d.
Proof.
  intros G F E. destruct (recv_items is parser_init 0 [] init_ready G) as (d & ck & ms & R & A & E').
  pose proof (parse_chunks_seq record ls parser_init 0 [] eq_refl F) as S. rewrite E, E' in S.
  destruct (parse_chunks record (parser_init, 0, []) ls) as [[[[d1 ck1] w1] [e|]]|]; cbn in S; try contradiction.
  injection S as -> -> ->. exists d, ck, ms. auto.
Qed.

Lemma packet_in_sync channel payload is ls : channel < 256 -> 0 < lenN payload < 65536 -> Forall good_item is ->
  Forall (fun l => l <> []) ls -> concat ls = wire_of (Pkt channel payload) ++ flat_map wire_of is ->
  exists d ck m ms, parse_chunks record (parser_init, 0, []) ls = Ok (d, ck, m :: ms, None)
    /\ m_start m = Data channel payload /\ Forall2 arrives is ms /\ ready d.
Proof.
  intros Hc Hp Hi Hl E. destruct (stream_received (Pkt channel payload :: is) ls) as (d & ck & ms & R & A & Rd); auto.
  { constructor; [split; assumption|assumption]. }
  inversion A as [|i m is' ms' Am A']; subst. destruct Am as (_ & _ & M & _). exists d, ck, m, ms'. auto.
Qed.
Lemma packet_round_trip channel payload ls : channel < 256 -> 0 < lenN payload < 65536 ->
  Forall (fun l => l <> []) ls -> concat ls = wire_of (Pkt channel payload) ->
  (exists m, sent (Pkt channel payload) = Some m /\ m_raw m = Some (concat ls))
  /\ exists d ck m, parse_chunks record (parser_init, 0, []) ls = Ok (d, ck, [m], None)
       /\ m_start m = Data channel payload /\ ready d.
Proof.
  intros Hc Hp Hl E. split. { rewrite E. apply sent_wire. split; assumption. }
  destruct (packet_in_sync channel payload [] ls) as (d & ck & m & ms & R & M & A & Rd); auto. { rewrite E. cbn [flat_map]. now rewrite app_nil_r. }
  inversion A; subst. exists d, ck, m. auto.
Qed.
