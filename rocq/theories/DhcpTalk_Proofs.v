From Coq Require Import Permutation.
From Verif Require Import Base DhcpRaw_Model DhcpOpt_Model DhcpOpt_Spec DhcpOpt_Proofs DhcpServer_Model DhcpServer_Spec DhcpServer_Send.
From Verif Require Import DhcpClient_Model DhcpTalk_Model DhcpTalk_Spec.

(** ** Configuration *)
Lemma put_value_In code d l o : In o (put_value code d l) -> In o l \/ o = (code, d).
Proof. unfold put_value. rewrite in_app_iff, filter_In. cbn [In]. intuition. Qed.

Record cfg_ok (k : config) : Prop := {
  ok_mac : lenN (k_mac k) = 6;
  ok_reqs : Forall (fun c => 1 <= c <= 254) (k_reqs k);
  ok_nodup : NoDup (k_reqs k);
  ok_sends : Forall (fun o => (fst o = 12 \/ fst o = 61) /\ lenN (snd o) <= 255) (k_sends k) }.

Lemma configure_ok k o : cfg_ok k -> (forall code, o = SetRequest code -> 1 <= code <= 254) -> cfg_ok (configure k o).
Proof.
  intros [M R D S] Ho. destruct o as [code| | | |code t]; cbn [configure].
  - destruct (existsb (N.eqb code) (k_reqs k)) eqn:E; [now constructor|]. constructor; cbn [k_mac k_reqs k_sends]; auto.
    constructor; [|exact D]. intros Hi. apply not_true_iff_false in E. apply E. rewrite existsb_exists. exists code. split; [exact Hi|apply N.eqb_refl].
  - constructor; cbn [k_mac k_reqs k_sends]; auto; constructor.
  - constructor; cbn [k_mac k_reqs k_sends]; auto.
  - constructor; cbn [k_mac k_reqs k_sends]; auto. rewrite Forall_forall in *. intros x Hx.
    apply put_value_In in Hx as [Hx| ->]; [now apply S|]. cbn [fst snd]. rewrite lenN_cons, M. split; [now right|lia].
  - destruct (code =? 12); [|now constructor].
    constructor; cbn [k_mac k_reqs k_sends]; auto. rewrite Forall_forall in *. intros x Hx.
    apply put_value_In in Hx as [Hx| ->]; [now apply S|]. cbn [fst snd]. split; [now left|len; lia].
Qed.
Lemma configured_ok mac l k : configured_by mac l k -> real_codes l -> cfg_ok k /\ k_mac k = mac.
Proof.
  intros (M & KM & KR & KS) R.
  assert (G : forall l k, cfg_ok k -> real_codes l -> cfg_ok (fold_left configure l k) /\ k_mac (fold_left configure l k) = k_mac k).
  { clear. induction l as [|o l IH]; intros k K R; cbn [fold_left]; [now split|].
    destruct (IH (configure k o)) as [A B].
    - apply configure_ok; [exact K|]. intros code ->. apply R. now left.
    - intros code Hc. apply R. now right.
    - split; [exact A|]. rewrite B. destruct o; cbn [configure]; repeat match goal with |- context [if ?b then _ else _] => destruct b end; reflexivity. }
  destruct (G l (new_config mac)) as [[A1 A2 A3 A4] B]; [constructor; cbn [new_config k_mac k_reqs k_sends]; auto; constructor|exact R|].
  split; [|exact KM]. constructor; [now rewrite KM|now rewrite KR|now rewrite KR|exact (Permutation_Forall KS A4)].
Qed.

Lemma reqs_few k : cfg_ok k -> lenN (k_reqs k) <= 254.
Proof.
  intros K. unfold lenN.
  assert (H : (length (map N.to_nat (k_reqs k)) <= length (seq 1 254))%nat).
  { apply NoDup_incl_length.
    - apply FinFun.Injective_map_NoDup; [|exact (ok_nodup k K)]. intros a b. apply N2Nat.inj.
    - intros x Hx. apply in_map_iff in Hx as (y & <- & Hy). pose proof (ok_reqs k K) as F. rewrite Forall_forall in F.
      apply F in Hy. apply in_seq. lia. }
  rewrite map_length, seq_length in H. lia.
Qed.

(** ** Options *)
Lemma map_mod l : Forall (fun c => 1 <= c <= 254) l -> map (fun c => c mod 256) l = l.
Proof. induction 1 as [|c l H _ IH]; cbn [map]; [reflexivity|]. rewrite IH. f_equal. lia. Qed.

Lemma not_nil_case {A B} (l : list A) (x y : B) : l <> [] -> match l with [] => x | _ => y end = y.
Proof. now destruct l. Qed.
Lemma add_requests_with h os codes : lenN h = 240 -> inv os -> lenN (encs os) + 2 + lenN codes <= 306 ->
  codes <> [] -> Forall (fun c => 1 <= c <= 254) codes -> lenN codes <= 254 ->
  add_requests codes (packet_with h os) = Ok (Some (packet_with h (os ++ [(55, codes)]))).
Proof.
  intros Hh [H1 H2] Hr Hn Hc Hl. unfold add_requests, andthen. rewrite (packet_opts h os Hh).
  pose proof (encs_count os) as Hcnt. unfold end_option.
  pose proof (end_loop_ok os H1 400%nat [] (repeat 0 (N.to_nat (387 - lenN (encs os))))) as He.
  cbn [app] in He. change (lenN (@nil N)) with 0 in He. rewrite He by lia. clear He. cbn [bind]. rewrite N.add_0_l.
  rewrite (map_mod codes Hc). set (n := lenN codes) in *. set (e := lenN (encs os)) in *.
  assert (E0 : packet_with h os = (h ++ encs os ++ [255; 0]) ++ repeat 0 (N.to_nat n) ++ [0] ++ repeat 0 (N.to_nat (385 - e - n))).
  { unfold packet_with. fold e. rewrite <- !app_assoc. do 2 f_equal. cbn [app]. do 2 f_equal.
    transitivity (repeat 0 (1 + (N.to_nat n + (1 + N.to_nat (385 - e - n))))).
    - f_equal. lia.
    - rewrite !repeat_app. reflexivity. }
  rewrite E0, write_at; [|len; rewrite Hh; unfold HDR; fold e; lia|rewrite lenN_repeat; reflexivity]. cbn [bind].
  rewrite (not_nil_case codes _ _ Hn). clear E0.
  replace ((h ++ encs os ++ [255; 0]) ++ codes ++ [0] ++ repeat 0 (N.to_nat (385 - e - n)))
    with ((h ++ encs os) ++ [255] ++ ([0] ++ codes ++ [0] ++ repeat 0 (N.to_nat (385 - e - n)))) by (now rewrite <- !app_assoc).
  rewrite write_at; [|len; rewrite Hh; unfold HDR; fold e; lia|reflexivity]. cbn [bind].
  replace ((h ++ encs os) ++ [55] ++ [0] ++ codes ++ [0] ++ repeat 0 (N.to_nat (385 - e - n)))
    with ((h ++ encs os ++ [55]) ++ [0] ++ (codes ++ [0] ++ repeat 0 (N.to_nat (385 - e - n)))) by (now rewrite <- !app_assoc).
  rewrite write_at; [|len; rewrite Hh; unfold HDR; fold e; lia|reflexivity]. cbn [bind].
  replace ((h ++ encs os ++ [55]) ++ [n mod 256] ++ codes ++ [0] ++ repeat 0 (N.to_nat (385 - e - n)))
    with ((h ++ encs os ++ [55] ++ [n mod 256] ++ codes) ++ [0] ++ repeat 0 (N.to_nat (385 - e - n))) by (now rewrite <- !app_assoc).
  rewrite write_at; [|len; rewrite Hh; unfold HDR; fold e n; lia|reflexivity]. cbn [bind].
  do 2 f_equal. unfold packet_with. rewrite encs_app. len. fold e. rewrite <- !app_assoc. do 2 f_equal.
  cbn [encs flat_map]. rewrite app_nil_r. unfold enc. cbn [fst snd app]. fold n. rewrite (N.mod_small n 256) by lia.
  rewrite !lenN_cons. fold n. do 3 f_equal. unfold END. cbn [app]. do 2 f_equal. f_equal. lia.
Qed.

Lemma with_room_grow os x : with_room os x = grow os x. Proof. reflexivity. Qed.
Lemma sends_ok l : forall os, fold_left add_opt (map (fun o => AddBinary (fst o) (snd o)) l) os = fold_left with_room l os.
Proof. induction l as [|[c d] l IH]; intros os; cbn [map fold_left]; [reflexivity|]. apply IH. Qed.
Lemma sends_good k : cfg_ok k -> Forall good_add (map (fun o => AddBinary (fst o) (snd o)) (k_sends k)).
Proof.
  intros K. pose proof (ok_sends k K) as S. rewrite Forall_forall in *. intros x Hx. apply in_map_iff in Hx as (o & <- & Ho).
  destruct (S o Ho) as [C L]. cbn [good_add]. lia.
Qed.

(** ** Header *)
Lemma E4 (d : list byte) : lenN d = 4 -> exists a b c e, d = [a; b; c; e].
Proof. intros H. destruct d as [|a [|b [|c [|e [|f d]]]]]; unfold lenN in H; cbn [length] in H; try lia. now exists a, b, c, e. Qed.
Lemma E6 (d : list byte) : lenN d = 6 -> exists a b c e f g, d = [a; b; c; e; f; g].
Proof. intros H. destruct d as [|a [|b [|c [|e [|f [|g [|x d]]]]]]]; unfold lenN in H; cbn [length] in H; try lia. now exists a, b, c, e, f, g. Qed.

Lemma secs_bytes el : attempt_secs (Z.of_N el) = N.min el 65535.
Proof. unfold attempt_secs. rewrite Z.mod_small by lia. lia. Qed.
Lemma secs_be16 el : DhcpRaw_Model.be16 (attempt_secs (Z.of_N el)) = be16 (N.min el 65535).
Proof. rewrite secs_bytes. unfold DhcpRaw_Model.be16, be16. f_equal. lia. Qed.

Lemma client_header_len mac xid secs flags ci : lenN mac = 6 -> lenN xid = 4 -> lenN ci = 4 -> lenN (client_header mac xid secs flags ci) = 240.
Proof.
  intros. unfold client_header. len. change (lenN (be16 secs)) with 2. change (lenN (repeat 0 12)) with 12.
  change (lenN (repeat 0 10)) with 10. change (lenN (repeat 0 192)) with 192. lia.
Qed.
Ltac head_write tl :=
  rewrite write_head by (vm_compute; discriminate); cbn [bind];
  match goal with
  | |- context [mem_write (?h ++ tl) _ _] => let x := eval vm_compute in h in change h with x
  | |- Ok (?h ++ tl) = _ => let x := eval vm_compute in h in change h with x
  end.
Lemma body_head ty mac xid a b tl : lenN mac = 6 -> lenN xid = 4 -> ty = 1 \/ ty = 3 ->
  (do p <- mem_write (header ty ++ tl) 28 mac; do p <- mem_write p 4 xid; mem_write p 8 [a; b])
  = Ok (([1; 1; 6; 0] ++ xid ++ [a; b] ++ [0; 0] ++ [0; 0; 0; 0] ++ repeat 0 12 ++ mac ++ repeat 0 10 ++ repeat 0 192 ++ [0x63; 0x82; 0x53; 0x63]) ++ tl).
Proof.
  intros Hm Hx Ht. apply E6 in Hm as (? & ? & ? & ? & ? & ? & ->). apply E4 in Hx as (? & ? & ? & ? & ->).
  assert (Hh : header ty = [1; 1; 6] ++ repeat 0 233 ++ [0x63; 0x82; 0x53; 0x63]) by (destruct Ht as [->| ->]; reflexivity).
  rewrite Hh. clear. do 3 head_write tl. reflexivity.
Qed.
Lemma release_head mac xid a b c d tl : lenN mac = 6 -> lenN xid = 4 ->
  (do p <- mem_write (header 7 ++ tl) 28 mac; do p <- mem_write p 4 xid; mem_write p 12 [a; b; c; d])
  = Ok (([1; 1; 6; 0] ++ xid ++ [0; 0] ++ [0; 0] ++ [a; b; c; d] ++ repeat 0 12 ++ mac ++ repeat 0 10 ++ repeat 0 192 ++ [0x63; 0x82; 0x53; 0x63]) ++ tl).
Proof.
  intros Hm Hx. apply E6 in Hm as (? & ? & ? & ? & ? & ? & ->). apply E4 in Hx as (? & ? & ? & ? & ->).
  change (header 7) with ([1; 1; 6] ++ repeat 0 233 ++ [0x63; 0x82; 0x53; 0x63]). do 3 head_write tl. reflexivity.
Qed.
Lemma ci_head mac xid s a b c d tl : lenN mac = 6 -> lenN xid = 4 ->
  mem_write (client_header mac xid s 0 [0; 0; 0; 0] ++ tl) 12 [a; b; c; d] = Ok (client_header mac xid s 0 [a; b; c; d] ++ tl).
Proof.
  intros Hm Hx. apply E6 in Hm as (? & ? & ? & ? & ? & ? & ->). apply E4 in Hx as (? & ? & ? & ? & ->).
  unfold client_header, be16. set (s1 := s / 256). set (s2 := s mod 256). clearbody s1 s2.
  rewrite write_head by (vm_compute; discriminate). reflexivity.
Qed.
Lemma flag_head mac xid s a b c d tl : lenN xid = 4 ->
  set_broadcast (client_header mac xid s 0 [a; b; c; d] ++ tl) = client_header mac xid s 128 [a; b; c; d] ++ tl.
Proof.
  intros Hx. apply E4 in Hx as (? & ? & ? & ? & ->). unfold client_header, be16, set_broadcast.
  set (s1 := s / 256). set (s2 := s mod 256). clearbody s1 s2. reflexivity.
Qed.

(** ** Whole packets *)
Lemma body_ok k xid el ty ops os : cfg_ok k -> lenN xid = 4 -> ty = 1 \/ ty = 3 -> Forall good_add ops ->
  fold_left add_opt ops [(53, [ty])] = os -> lenN (encs os) <= 15 ->
  body k xid (Z.of_N el) ty ops
  = Ok (Some (packet_with (client_header (k_mac k) xid (N.min el 65535) 0 [0; 0; 0; 0])
      (fold_left with_room (k_sends k) (os ++ [(57, be16 576)] ++ match k_reqs k with [] => [] | l => [(55, l)] end))))
  /\ inv (fold_left with_room (k_sends k) (os ++ [(57, be16 576)] ++ match k_reqs k with [] => [] | l => [(55, l)] end)).
Proof.
  intros K X T G E L. unfold body, init_packet. destruct (init_header_ok ty) as [-> Hi]. unfold andthen at 1 2. cbn [bind].
  unfold DhcpOpt_Spec.packet, packet_with at 1. rewrite secs_be16.
  set (tl := encs [(53, [ty])] ++ [255] ++ repeat 0 (N.to_nat (387 - lenN (encs [(53, [ty])])))).
  set (h := client_header (k_mac k) xid (N.min el 65535) 0 [0; 0; 0; 0]).
  assert (Hh : lenN h = 240) by (apply client_header_len; [apply K|exact X|reflexivity]).
  pose proof (body_head ty (k_mac k) xid (N.min el 65535 / 256) (N.min el 65535 mod 256) tl (ok_mac k K) X T) as B.
  change ([1; 1; 6; 0] ++ xid ++ [N.min el 65535 / 256; N.min el 65535 mod 256] ++ ?t) with ([1; 1; 6; 0] ++ xid ++ be16 (N.min el 65535) ++ t) in B.
  change ([N.min el 65535 / 256; N.min el 65535 mod 256]) with (be16 (N.min el 65535)) in B.
  destruct (mem_write (header ty ++ tl) 28 (k_mac k)) as [p1|]; cbn [bind] in B |- *; [|discriminate].
  destruct (mem_write p1 4 xid) as [p2|]; cbn [bind] in B |- *; [|discriminate].
  rewrite B. cbn [bind]. change (_ ++ tl) with (packet_with h [(53, [ty])]).
  assert (G' : Forall good_add (ops ++ [AddU16 57 576])) by (apply Forall_app; split; [exact G|constructor; [exact I|constructor]]).
  destruct (add_ops_with h _ Hh _ Hi G') as [A1 A2]. rewrite fold_left_app, E in A1, A2. rewrite A1. unfold andthen at 1. cbn [bind].
  assert (A3 : fold_left add_opt [AddU16 57 576] os = os ++ [(57, be16 576)]).
  { cbn [fold_left]. unfold add_opt. cbn [wanted]. change (57 =? 57) with true. cbv iota.
    change (lenN (enc (57, be16 576))) with 4. replace (lenN (encs os) + 4 + 1 <=? 307) with true by lia. reflexivity. }
  rewrite A3 in *. pose proof (reqs_few k K) as F.
  assert (L' : lenN (encs (os ++ [(57, be16 576)])) = lenN (encs os) + 4) by (rewrite encs_app; len; reflexivity).
  assert (R : add_requests (k_reqs k) (packet_with h (os ++ [(57, be16 576)]))
    = Ok (Some (packet_with h ((os ++ [(57, be16 576)]) ++ match k_reqs k with [] => [] | l => [(55, l)] end)))
    /\ inv ((os ++ [(57, be16 576)]) ++ match k_reqs k with [] => [] | l => [(55, l)] end)).
  { destruct (k_reqs k) as [|c0 l0] eqn:EQ.
    - rewrite app_nil_r. split; [|exact A2]. unfold add_requests, andthen. rewrite (packet_opts h _ Hh).
      destruct A2 as [B1 B2]. pose proof (encs_count (os ++ [(57, be16 576)])) as Hcnt. unfold end_option.
      pose proof (end_loop_ok _ B1 400%nat [] (repeat 0 (N.to_nat (387 - lenN (encs (os ++ [(57, be16 576)])))))) as He.
      cbn [app] in He. change (lenN (@nil N)) with 0 in He. rewrite He by lia. clear He. cbn [bind map].
      unfold mem_write. len. unfold packet_with. len. rewrite lenN_repeat, Hh. rewrite !L'. unfold HDR.
      replace (_ <=? _) with true by lia. cbn [bind]. do 2 f_equal. rewrite N.add_0_r. cbn [app]. apply takeN_dropN.
    - rewrite <- EQ in *. assert (NN : k_reqs k <> []) by (rewrite EQ; discriminate).
      rewrite add_requests_with; [|exact Hh|exact A2|lia|exact NN|apply K|exact F].
      split; [reflexivity|]. apply (grow_inv _ (55, k_reqs k)) in A2; [|unfold good_opt; cbn [fst snd]; lia].
      unfold grow in A2. rewrite enc_len in A2. cbn [snd] in A2. rewrite L' in A2.
      replace (_ <=? 307) with true in A2 by lia. exact A2. }
  destruct R as [R1 R2]. rewrite R1. unfold andthen at 1. cbn [bind].
  destruct (add_ops_with h _ Hh _ R2 (sends_good k K)) as [S1 S2]. rewrite S1. rewrite sends_ok, <- app_assoc in *. split; [reflexivity|exact S2].
Qed.

Lemma net32_be32 v : net32 v = be32 v. Proof. symmetry. apply be32_eq. Qed.

Lemma render_event_ok k xid el e t : cfg_ok k -> lenN xid = 4 -> message_type e = Some t ->
  exists p, render_event k xid (Z.of_N el) e = Ok (Some p) /\ lenN p = 628 /\ inv (all_options k e)
  /\ payload e p = message k xid el e.
Proof.
  intros K X T. destruct e as [| |r|req srv ci u|s a| | | |]; try discriminate T; cbn [render_event].
  - destruct (body_ok k xid el 1 (if r =? 0 then [] else [AddU32 50 r])
      (given 53 (fun t => [t]) (Some 1) ++ given 50 be32 (asked_for (Discover r)))) as [B1 B2]; auto.
    { destruct (r =? 0); repeat constructor. }
    { cbn [asked_for]. destruct (r =? 0); reflexivity. }
    { cbn [asked_for]. destruct (r =? 0); vm_compute; discriminate. }
    rewrite B1.
    assert (EQ : (given 53 (fun t => [t]) (Some 1) ++ given 50 be32 (asked_for (Discover r)))
      ++ [(57, be16 576)] ++ match k_reqs k with [] => [] | l => [(55, l)] end = message_options k (Discover r)).
    { unfold message_options. cbn [message_type meant given]. rewrite <- !app_assoc. reflexivity. }
    rewrite EQ in *. eexists. split; [reflexivity|]. split.
    { unfold packet_with. len. rewrite lenN_repeat, client_header_len by (auto; apply K). destruct B2. lia. }
    split; [exact B2|]. unfold payload, message. cbn [unicast in_use seconds]. unfold packet_with at 1.
    rewrite flag_head by exact X. reflexivity.
  - destruct (body_ok k xid el 3 (opt_u32 50 req ++ opt_u32 54 srv)
      (given 53 (fun t => [t]) (Some 3) ++ given 50 be32 req ++ given 54 be32 srv)) as [B1 B2]; auto.
    { destruct req, srv; repeat constructor. }
    { destruct req, srv; reflexivity. }
    { destruct req, srv; vm_compute; discriminate. }
    rewrite B1. unfold andthen. cbn [bind].
    assert (EQ : (given 53 (fun t => [t]) (Some 3) ++ given 50 be32 req ++ given 54 be32 srv)
      ++ [(57, be16 576)] ++ match k_reqs k with [] => [] | l => [(55, l)] end = message_options k (Request req srv ci u)).
    { unfold message_options. cbn [message_type meant asked_for]. rewrite <- !app_assoc. reflexivity. }
    rewrite EQ in *. change (fold_left with_room (k_sends k) (message_options k (Request req srv ci u))) with (all_options k (Request req srv ci u)) in *.
    assert (EP : exists p, match ci with
        | Some a => do p <- mem_write (packet_with (client_header (k_mac k) xid (N.min el 65535) 0 [0; 0; 0; 0]) (all_options k (Request req srv ci u))) 12 (net32 a); Ok (Some p)
        | None => Ok (Some (packet_with (client_header (k_mac k) xid (N.min el 65535) 0 [0; 0; 0; 0]) (all_options k (Request req srv ci u)))) end
      = Ok (Some p) /\ p = packet_with (client_header (k_mac k) xid (N.min el 65535) 0 (be32 (in_use (Request req srv ci u)))) (all_options k (Request req srv ci u))).
    { destruct ci as [a|].
      - cbn [in_use]. unfold packet_with at 1. unfold net32. rewrite ci_head; [|apply K|exact X]. cbn [bind].
        eexists. split; [reflexivity|]. rewrite be32_eq. reflexivity.
      - eexists. split; reflexivity. }
    destruct EP as (p & EP & ->). exists (packet_with (client_header (k_mac k) xid (N.min el 65535) 0 (be32 (in_use (Request req srv ci u)))) (all_options k (Request req srv ci u))).
    split; [destruct ci; exact EP|]. split.
    { unfold packet_with. len. rewrite lenN_repeat, client_header_len by (auto; apply K). destruct B2. lia. }
    split; [exact B2|]. unfold payload, message. cbn [seconds unicast].
    destruct u; [reflexivity|]. unfold packet_with at 1. rewrite be32_eq, flag_head by exact X. reflexivity.
  - unfold init_packet. destruct (init_header_ok 7) as [-> Hi]. unfold andthen. cbn [bind].
    unfold DhcpOpt_Spec.packet, packet_with at 1. set (tl := encs [(53, [7])] ++ [255] ++ repeat 0 (N.to_nat (387 - lenN (encs [(53, [7])])))).
    set (h := client_header (k_mac k) xid 0 0 (be32 a)).
    assert (Hh : lenN h = 240) by (apply client_header_len; [apply K|exact X|reflexivity]).
    pose proof (release_head (k_mac k) xid (a / 2 ^ 24) (a / 2 ^ 16 mod 256) (a / 2 ^ 8 mod 256) (a mod 256) tl (ok_mac k K) X) as B.
    change (mem_write ?p 12 _) with (mem_write p 12 (net32 a)) in B.
    destruct (mem_write (header 7 ++ tl) 28 (k_mac k)) as [p1|]; cbn [bind] in B |- *; [|discriminate].
    destruct (mem_write p1 4 xid) as [p2|]; cbn [bind] in B |- *; [|discriminate].
    rewrite B. cbn [bind]. 
    replace (_ ++ tl) with (packet_with h [(53, [7])]) by (unfold h, client_header; rewrite be32_eq; reflexivity).
    assert (G : Forall good_add [AddU32 54 s]) by repeat constructor.
    destruct (add_ops_with h _ Hh _ Hi G) as [A1 A2]. rewrite A1. eexists. split; [reflexivity|].
    change (fold_left add_opt [AddU32 54 s] [(53, [7])]) with (all_options k (Release s a)) in *.
    split; [|split; [exact A2|reflexivity]].
    unfold packet_with. len. rewrite lenN_repeat, Hh. destruct A2. lia.
Qed.
