(** Lines of text: what sanitising, splitting and tokenising them gives. *)
From Coq Require Import String.
From Verif Require Import Base Atoi_Model Qstr_Model Qstr_Proofs Text Text_Proofs RtspMsg_Model RtspMsg_Spec RtspMsg_Proofs.

(** Printing bytes without space outside quotation marks. *)
Inductive wtext : list byte -> Prop :=
| WNil : wtext []
| WChar c t : 33 <= c -> c <> 34 -> wtext t -> wtext (c :: t)
| WQuote q t : plain q -> wtext t -> wtext (34 :: encode_body q ++ 34 :: t).
(** Words separated by single spaces. *)
Inductive neat : list byte -> Prop :=
| NWord w : w <> [] -> wtext w -> neat w
| NMore w r : w <> [] -> wtext w -> neat r -> neat (w ++ 32 :: r).

Lemma wtext_app a b : wtext a -> wtext b -> wtext (a ++ b).
Proof.
  intros H Hb. induction H as [|c t H1 H2 H IH|q t Hq H IH]; cbn [app]; [assumption| |].
  - constructor; assumption.
  - rewrite <- app_assoc. cbn [app]. now constructor.
Qed.
Lemma word_wtext s : word s -> wtext s.
Proof. intros (_ & F). induction F as [|c s (H1 & H2) F IH]; constructor; auto. Qed.
Lemma simple_wtext s : simple s -> wtext s.
Proof. intros F. induction F as [|c s (H1 & H2 & _) F IH]; constructor; auto. Qed.
Lemma wtext_last w : wtext w -> w <> [] -> exists x c, w = x ++ [c] /\ c <> 32.
Proof.
  intros H. induction H as [|c t H1 H2 H IH|q t Hq H IH]; intros N; [congruence| |].
  - destruct t as [|d t]; [exists [], c; split; [reflexivity|lia]|].
    destruct IH as (x & e & -> & He); [discriminate|]. exists (c :: x), e. auto.
  - destruct t as [|d t]; [exists (34 :: encode_body q), 34; split; [reflexivity|lia]|].
    destruct IH as (x & e & -> & He); [discriminate|]. exists (34 :: encode_body q ++ 34 :: x), e.
    split; [|assumption]. cbn. rewrite <- app_assoc. reflexivity.
Qed.
Lemma neat_last l : neat l -> exists x c, l = x ++ [c] /\ c <> 32.
Proof.
  induction 1 as [w H1 H2|w r H1 H2 H (x & c & -> & Hc)]; [now apply wtext_last|].
  exists (w ++ 32 :: x), c. rewrite <- app_assoc. auto.
Qed.
Lemma neat_nonnil l : neat l -> l <> [].
Proof. intros H. destruct (neat_last l H) as (x & c & -> & _). now destruct x. Qed.
Lemma neat_app_word a l : wtext a -> neat l -> neat (a ++ l).
Proof.
  intros Ha H. induction H as [w H1 H2|w r H1 H2 H IH].
  - apply NWord; [destruct a; [assumption|discriminate]|now apply wtext_app].
  - rewrite app_assoc. apply NMore; [destruct a; [assumption|discriminate]|now apply wtext_app|assumption].
Qed.
Lemma neat_app_sep a b : neat a -> neat b -> neat (a ++ 32 :: b).
Proof.
  intros Ha Hb. induction Ha as [w H1 H2|w r H1 H2 H IH]; [now apply NMore|].
  rewrite <- app_assoc. cbn [app]. now apply NMore.
Qed.

(** ** Sanitising *)
Lemma sanitize_quoted q : plain q -> forall s out last, exists last',
  sanitize_loop (encode_body q ++ 34 :: s) out last true false = sanitize_loop s (out ++ encode_body q ++ [34]) 34 false false /\ last' = 34.
Proof.
  intros F. induction F as [|c q (H1 & H2) F IH]; intros s out last; cbn [encode_body].
  - exists 34. auto.
  - destruct (N.eqb_spec c 92) as [->|N92].
    + cbn [orb]. cbn [app sanitize_loop].
      change (92 =? 34) with false. change (92 =? 0) with false. change (92 =? 92) with true. cbn iota.
      destruct (IH s ((out ++ [92]) ++ [92]) 92) as (l & E & El). exists l. split; [|assumption].
      rewrite E. rewrite <- !app_assoc. reflexivity.
    + destruct (N.eqb_spec c 34) as [->|_]; [lia|]. cbn [orb app sanitize_loop].
      destruct (N.eqb_spec c 34); [lia|]. destruct (N.eqb_spec c 0); [lia|]. destruct (N.eqb_spec c 92); [lia|].
      destruct (IH s (out ++ [c]) c) as (l & E & El). exists l. split; [|assumption]. rewrite E, <- !app_assoc. reflexivity.
Qed.
Lemma sanitize_wtext w : wtext w -> forall s out last, last <> 32 \/ w <> [] -> exists last', last' <> 32 /\
  sanitize_loop (w ++ s) out last false false = sanitize_loop s (out ++ w) last' false false.
Proof.
  induction 1 as [|c t H1 H2 H IH|q t Hq H IH]; intros s out last Hl; cbn [app].
  - exists last. rewrite app_nil_r. destruct Hl as [Hl|Hl]; [auto|congruence].
  - cbn [sanitize_loop]. destruct (N.eqb_spec c 0); [lia|].
    destruct (N.eqb_spec c 13); [lia|]. destruct (N.eqb_spec c 10); [lia|]. destruct (N.eqb_spec c 9); [lia|]. cbn [orb].
    destruct (N.eqb_spec c 32); [lia|]. cbn [andb]. destruct (N.eqb_spec c 34); [lia|].
    destruct (IH s (out ++ [c]) c) as (l & Hl' & E); [left; lia|]. exists l. split; [assumption|]. rewrite E, <- app_assoc. reflexivity.
  - cbn [sanitize_loop]. change (34 =? 0) with false. change (34 =? 13) with false. change (34 =? 10) with false. change (34 =? 9) with false.
    cbn [orb]. change (34 =? 32) with false. cbn [andb]. change (34 =? 34) with true. cbn iota.
    rewrite <- app_assoc. cbn [app]. destruct (sanitize_quoted q Hq (t ++ s) (out ++ [34]) 34) as (_ & E & _). rewrite E.
    destruct (IH s ((out ++ [34]) ++ encode_body q ++ [34]) 34) as (l & Hl' & E'); [left; lia|]. exists l. split; [assumption|].
    rewrite E'. f_equal. now rewrite <- !app_assoc.
Qed.
Lemma sanitize_neat l : neat l -> forall s out last, exists last', last' <> 32 /\
  sanitize_loop (l ++ s) out last false false = sanitize_loop s (out ++ l) last' false false.
Proof.
  induction 1 as [w H1 H2|w r H1 H2 H IH]; intros s out last.
  - apply sanitize_wtext; auto.
  - rewrite <- app_assoc. cbn [app]. destruct (sanitize_wtext w H2 (32 :: r ++ s) out last (or_intror H1)) as (l & Hl & E). rewrite E.
    cbn [sanitize_loop]. change (32 =? 0) with false. change (32 =? 13) with false. change (32 =? 10) with false. change (32 =? 9) with false.
    cbn [orb]. change (32 =? 32) with true. cbn [andb]. destruct (N.eqb_spec l 32); [congruence|].
    assert (Hn : out ++ w <> []) by (destruct out, w; cbn; congruence).
    destruct (out ++ w) eqn:Eo; [congruence|]. rewrite <- Eo. change (32 =? 34) with false.
    destruct (IH s ((out ++ w) ++ [32]) 32) as (l' & Hl' & E'). exists l'. split; [assumption|]. rewrite E'. f_equal.
    rewrite <- !app_assoc. reflexivity.
Qed.
Lemma drop_spaces_other c r : c <> 32 -> drop_spaces (c :: r) = c :: r.
Proof.
  intros H. unfold drop_spaces. destruct c as [|p]; [reflexivity|]. do 6 (destruct p as [p|p|]; try reflexivity). congruence.
Qed.
Lemma trim_end_other x c : c <> 32 -> trim_end (x ++ [c]) = x ++ [c].
Proof.
  intros H. unfold trim_end. rewrite rev_app_distr. cbn [rev app]. rewrite drop_spaces_other by assumption.
  cbn [rev]. now rewrite rev_involutive.
Qed.
Lemma trim_end_space x : trim_end (x ++ [32]) = trim_end x.
Proof. unfold trim_end. rewrite rev_app_distr. reflexivity. Qed.
Lemma trim_end_neat l : neat l -> trim_end l = l.
Proof. intros H. destruct (neat_last l H) as (x & c & -> & Hc). now apply trim_end_other. Qed.

Lemma sanitize_line l : neat l -> sanitize l = l.
Proof.
  intros H. unfold sanitize. destruct (sanitize_neat l H [] [] 0) as (c & Hc & E). rewrite app_nil_r in E. rewrite E.
  cbn [sanitize_loop app]. now apply trim_end_neat.
Qed.
Lemma sanitize_crlf l : neat l -> sanitize (l ++ [13; 10]) = l.
Proof.
  intros H. unfold sanitize. destruct (sanitize_neat l H [13; 10] [] 0) as (c & Hc & E). rewrite E.
  cbn [app sanitize_loop]. change (13 =? 0) with false. change (13 =? 13) with true. cbn [orb]. change (32 =? 32) with true. cbn [andb].
  destruct (N.eqb_spec c 32); [congruence|]. pose proof (neat_nonnil l H) as Hn. destruct l as [|x l]; [congruence|].
  change (32 =? 34) with false. change (10 =? 0) with false. change (10 =? 13) with false. change (10 =? 10) with true.
  cbn [orb andb]. change (32 =? 32) with true. cbn iota.
  change (trim_end ((x :: l) ++ [32]) = x :: l). rewrite trim_end_space. now apply trim_end_neat.
Qed.

(** ** Tokens *)
Lemma no_space_quote s : plain s -> need_quote s = false -> Forall (fun c => 33 <= c /\ c <> 34) s.
Proof.
  intros F. induction F as [|c s (H1 & H2) F IH]; intros Q; [constructor|].
  unfold need_quote in Q. cbn [existsb] in Q. apply orb_false_iff in Q as (Q1 & Q2).
  constructor; [|auto]. destruct (N.eqb_spec c 32); [discriminate|]. lia.
Qed.
Lemma encode_wtext s : plain s -> wtext (encode s (need_quote s)).
Proof.
  intros F. unfold encode. destruct (need_quote s) eqn:Q.
  - cbn [app]. constructor; [assumption|constructor].
  - apply no_space_quote in F; [|assumption]. clear Q. induction F as [|c s (H1 & H2) F IH]; cbn [encode_body]; [constructor|].
    destruct ((c =? 92) || (c =? 34)); [apply WChar; [lia|lia|]|]; apply WChar; auto.
Qed.
Lemma good_token_clean s : good_token s -> clean s.
Proof.
  intros (H1 & H2 & H3). split; [assumption|]. split.
  - intros H. unfold plain in H2. rewrite Forall_forall in H2. apply H2 in H. lia.
  - intros Q. apply H3. intros H. apply no_space_quote in H2; [|assumption]. rewrite Forall_forall in H2. apply H2 in H. lia.
Qed.
Lemma join_loop_neat toks : forall line, Forall good_token toks -> neat line -> neat (join_loop line toks).
Proof.
  induction toks as [|t toks IH]; intros line F N; [assumption|]. inversion F as [|? ? G F']; subst. cbn [join_loop].
  apply IH; [assumption|]. pose proof (neat_nonnil line N) as Hn. destruct line as [|x line]; [congruence|]. cbn [app].
  change (x :: line ++ 32 :: encode t (need_quote t)) with ((x :: line) ++ 32 :: encode t (need_quote t)).
  apply neat_app_sep; [assumption|]. destruct G as (G1 & G2 & _). apply NWord; [now apply encode_nil|now apply encode_wtext].
Qed.
Lemma join_neat toks : toks <> [] -> Forall good_token toks -> neat (join toks).
Proof.
  intros Hn F. destruct toks as [|t toks]; [congruence|]. inversion F as [|? ? G F']; subst. unfold join. cbn [join_loop app].
  apply join_loop_neat; [assumption|]. destruct G as (G1 & G2 & _). apply NWord; [now apply encode_nil|now apply encode_wtext].
Qed.
Lemma tokenize_join toks : Forall good_token toks -> tokenize (join toks) = toks.
Proof. intros F. apply qstr_roundtrip. eapply Forall_impl; [|exact F]. apply good_token_clean. Qed.

(** ** Header lines *)
Definition line_of (f : field) : list byte := fst f ++ [58; 32] ++ join (snd f).
Lemma field_line_of f : field_line f = line_of f ++ [13; 10].
Proof. unfold field_line, line_of. now rewrite <- !app_assoc. Qed.
Lemma line_of_neat f : good_field f -> neat (line_of f).
Proof.
  intros (W & C & T & G). unfold line_of. cbn [app].
  replace (fst f ++ 58 :: 32 :: join (snd f)) with ((fst f ++ [58]) ++ 32 :: join (snd f)) by (now rewrite <- app_assoc).
  apply NMore; [now destruct (fst f)| |now apply join_neat]. apply wtext_app; [now apply word_wtext|]. constructor; [lia|lia|constructor].
Qed.
Lemma break_at_in c a r : ~ In c a -> break_at c (a ++ c :: r) = (a, Some (c :: r)).
Proof.
  induction a as [|x a IH]; intros H; cbn [app break_at]; [now rewrite N.eqb_refl|].
  destruct (N.eqb_spec x c); [exfalso; apply H; now left|]. rewrite IH; [reflexivity|]. intros H'. apply H. now right.
Qed.
Lemma trim_word s : word s -> trim_end s = s.
Proof.
  intros (N & F). destruct (rev s) as [|c r] eqn:E.
  - apply (f_equal (@rev _)) in E. rewrite rev_involutive in E. cbn in E. congruence.
  - apply (f_equal (@rev _)) in E. rewrite rev_involutive in E. cbn in E. rewrite E. apply trim_end_other.
    rewrite E in F. apply Forall_app in F as (_ & F). inversion F as [|? ? (H & _) _]; subst. lia.
Qed.
Lemma neat_first l : neat l -> exists c t, l = c :: t /\ 33 <= c.
Proof.
  assert (H : forall w, wtext w -> w <> [] -> exists c t, w = c :: t /\ 33 <= c).
  { intros w H N. destruct H; [congruence|eauto|]. eexists. eexists. split; [reflexivity|lia]. }
  destruct 1 as [w H1 H2|w r H1 H2 _]; destruct (H w H2 H1) as (c & t & -> & Hc); eauto.
  exists c, (t ++ 32 :: r). auto.
Qed.
Lemma line_header_field f : good_field f -> line_header (line_of f) = header_of f.
Proof.
  intros (W & C & T & G). unfold line_header, split_line, line_of. cbn [app].
  rewrite break_at_in by assumption. rewrite trim_word by assumption.
  pose proof (join_neat (snd f) T G) as J. destruct (neat_first _ J) as (c & t & Ej & Hc).
  assert (D : drop_spaces (32 :: join (snd f)) = join (snd f)).
  { change (drop_spaces (32 :: join (snd f))) with (drop_spaces (join (snd f))). rewrite Ej. apply drop_spaces_other. lia. }
  assert (Tr : trim_end (32 :: join (snd f)) = 32 :: join (snd f)).
  { destruct (neat_last _ J) as (x & e & Ee & He). rewrite Ee. change (32 :: x ++ [e]) with ((32 :: x) ++ [e]). now apply trim_end_other. }
  rewrite Tr, D. rewrite takeN_all by lia. rewrite tokenize_join by assumption.
  destruct (N.eqb_spec (lenN (join (snd f))) 0) as [Z|_]; [rewrite Ej in Z; len; lia|].
  unfold header_of. f_equal. unfold field_line. rewrite <- !app_assoc. cbn [app]. repeat rewrite <- app_assoc. reflexivity.
Qed.

(** ** Start lines *)
Lemma case_prefix_nil s : case_prefix [] s = true. Proof. reflexivity. Qed.
Lemma case_prefix_cons x p y s : case_prefix (x :: p) (y :: s) = (lower y =? lower x) && case_prefix p s.
Proof.
  unfold case_prefix. rewrite lenN_cons. unfold takeN. replace (N.to_nat (1 + lenN p)) with (S (N.to_nat (lenN p))) by lia. reflexivity.
Qed.
Lemma case_prefix_short x p : case_prefix (x :: p) [] = false.
Proof. unfold case_prefix, takeN. now rewrite firstn_nil. Qed.
Lemma case_prefix_space p : Forall (fun c => lower c <> 32) p -> forall a r, case_prefix p (a ++ 32 :: r) = case_prefix p a.
Proof.
  induction 1 as [|x p Hx F IH]; intros a r; [reflexivity|]. destruct a as [|y a]; cbn [app].
  - rewrite case_prefix_cons, case_prefix_short. change (lower 32) with 32. destruct (N.eqb_spec 32 (lower x)); [congruence|reflexivity].
  - rewrite !case_prefix_cons, IH. reflexivity.
Qed.

Definition line_of_status (f : first_line) : list byte :=
  match f with
  | Req method uri => method ++ [32] ++ uri ++ [32] ++ text "RTSP/1.0"
  | Rep code phrase => text "RTSP/1.0 " ++ dec code ++ [32]
                       ++ match phrase with [] => code_text code | _ => phrase end
  end.
Lemma status_line f : status f = line_of_status f ++ [13; 10]. Proof. reflexivity. Qed.

Definition phraseb (s : list byte) : bool :=
  match s with [] => false | c :: _ => negb (c =? 32) end
  && forallb (fun c => (32 <=? c) && negb (c =? 34)) s
  && (fix go s := match s with [] => false | [c] => negb (c =? 32) | c :: ((d :: _) as t) => (negb (c =? 32) || negb (d =? 32)) && go t end) s.
Lemma phraseb_ok s : phraseb s = true -> good_phrase s.
Proof.
  unfold phraseb. rewrite !andb_true_iff. intros ((H1 & H2) & H3). split; [|split].
  - unfold plain. rewrite forallb_forall in H2. apply Forall_forall. intros c Hc. apply H2 in Hc. lia.
  - clear H1 H2. induction s as [|c [|d s] IH]; [discriminate|cbn in *; lia|].
    apply andb_true_iff in H3 as (H3 & H4). split; [|apply IH; exact H4].
    intros ->. change (32 =? 32) with true in H3. cbn in H3. lia.
  - intros c t ->. destruct (N.eqb_spec c 32); [discriminate|assumption].
Qed.
Lemma code_text_good code : good_phrase (code_text code).
Proof.
  apply phraseb_ok. unfold code_text. destruct code as [|p]; [reflexivity|].
  repeat (destruct p as [p|p|]; try reflexivity).
Qed.
Lemma phrase_neat s : good_phrase s -> neat s.
Proof.
  intros (P & S & F). unfold plain in P.
  assert (H : forall n s, (Datatypes.length s <= n)%nat -> Forall (fun c => 32 <= c /\ c <> 34) s -> spaced s -> (forall c t, s = c :: t -> c <> 32) -> neat s).
  { clear s P S F. induction n as [|n IH]; intros s Hl P S F.
    - destruct s; [destruct S|cbn in Hl; lia].
    - destruct s as [|c s]; [destruct S|]. inversion P as [|? ? (P1 & P2) P']; subst.
      assert (Hc : c <> 32) by (eapply F; reflexivity).
      destruct s as [|d s]. { apply NWord; [discriminate|]. constructor; [lia|assumption|constructor]. }
      destruct S as (_ & S). destruct (N.eq_dec d 32) as [->|Hd].
      + destruct s as [|e s]; [cbn in S; congruence|]. destruct S as (S1 & S).
        apply (NMore [c] (e :: s)); [discriminate|constructor; [lia|assumption|constructor]|].
        inversion P'; subst. apply IH; [cbn in *; lia|assumption|assumption|]. intros x t [= <- <-]. auto.
      + apply (neat_app_word [c] (d :: s)); [constructor; [lia|assumption|constructor]|].
        apply IH; [cbn in *; lia|assumption|assumption|]. intros x t [= <- <-]. exact Hd. }
  apply (H (Datatypes.length s)); auto.
Qed.
Lemma simpleb s : forallb (fun c => (33 <=? c) && negb (c =? 34) && negb (c =? 39) && negb (c =? 92)) s = true -> simple s.
Proof. intros H. rewrite forallb_forall in H. apply Forall_forall. intros c Hc. apply H in Hc. lia. Qed.
Lemma status_neat f : good_first f -> neat (line_of_status f).
Proof.
  destruct f as [method uri|code phrase]; cbn [good_first line_of_status].
  - intros (W1 & W2 & _). cbn [app].
    apply NMore; [apply W1|now apply word_wtext|]. apply NMore; [apply W2|now apply word_wtext|].
    apply NWord; [discriminate|]. apply simple_wtext, simpleb. reflexivity.
  - intros (_ & Hp). change (text "RTSP/1.0 ") with (text "RTSP/1.0" ++ [32]). rewrite <- app_assoc. cbn [app].
    apply NMore; [discriminate| |].
    { apply simple_wtext, simpleb. reflexivity. }
    apply NMore; [apply dec_nonnil|apply simple_wtext, dec_simple|]. apply phrase_neat.
    destruct Hp as [->|Hp]; [apply code_text_good|]. destruct phrase; [|assumption]. destruct Hp as (_ & [] & _).
Qed.

Lemma from_head_status f : good_first f -> from_head (line_of_status f) = inl (msg_new (start_of f)).
Proof.
  destruct f as [method uri|code phrase]; cbn [good_first line_of_status start_of].
  - intros ((N1 & W1) & (N2 & W2) & _ & Hp). unfold from_head. cbn [app].
    assert (Hl : Forall (fun c => lower c <> 32) (text "RTSP/")).
    { repeat (constructor; [vm_compute; discriminate|]). constructor. }
    rewrite (case_prefix_space _ Hl), Hp. f_equal. unfold from_request.
    assert (I1 : ~ In 32 method). { intros H. rewrite Forall_forall in W1. apply W1 in H. lia. }
    assert (I2 : ~ In 32 uri). { intros H. rewrite Forall_forall in W2. apply W2 in H. lia. }
    rewrite break_at_in by assumption. destruct method as [|c method]; [congruence|].
    rewrite break_at_in by assumption. destruct uri as [|d uri]; [congruence|]. reflexivity.
  - intros (Hc & Hp). unfold from_head, from_reply.
    assert (E32 : 2 ^ 32 = 4294967296) by reflexivity.
    set (ph := match phrase with [] => code_text code | _ => phrase end).
    assert (Nph : neat ph).
    { apply phrase_neat. unfold ph. destruct Hp as [->|Hp]; [apply code_text_good|]. destruct phrase; [|assumption]. destruct Hp as (_ & [] & _). }
    set (r := dec code ++ [32] ++ ph).
    assert (P : case_prefix (text "RTSP/") (text "RTSP/1.0 " ++ r) = true).
    { change (text "RTSP/1.0 ") with (text "RTSP/" ++ [49; 46; 48; 32]). rewrite <- app_assoc.
      cbn [text String.list_ascii_of_string map app]. rewrite !case_prefix_cons, case_prefix_nil. reflexivity. }
    rewrite P. replace (dropN 5 (text "RTSP/1.0 " ++ r)) with (dec 1 ++ 46 :: dec 0 ++ 32 :: r) by reflexivity.
    unfold version_of.
    destruct (atoi_un_dec 1 (46 :: dec 0 ++ 32 :: r)) as (_ & V1 & X1); [reflexivity|intros c t [= <- _]; lia|]. rewrite V1, X1.
    change (lenN (dec 1) =? 0) with false.
    replace (dropN (lenN (dec 1)) (dec 1 ++ 46 :: dec 0 ++ 32 :: r)) with (46 :: dec 0 ++ 32 :: r) by reflexivity. cbn iota.
    destruct (atoi_un_dec 0 (32 :: r)) as (_ & V2 & X2); [reflexivity|intros c t [= <- _]; lia|]. rewrite V2, X2.
    change (lenN (dec 0) =? 0) with false.
    replace (dropN (lenN (dec 0)) (dec 0 ++ 32 :: r)) with (32 :: r) by reflexivity. change (32 =? 32) with true. cbn iota.
    unfold r. destruct (atoi_un_dec code ([32] ++ ph)) as (_ & V3 & X3); [lia|intros c t [= <- _]; lia|]. rewrite V3, X3.
    destruct (N.eqb_spec (lenN (dec code)) 0) as [Z|_]; [apply lenN_0_nil in Z; now apply dec_nonnil in Z|].
    rewrite dropN_app, dropN_all, N.sub_diag, dropN_0 by lia. cbn [app].
    unfold new_raw_reply. destruct (N.eqb_spec code (2 ^ 32 - 1)); [lia|].
    destruct ph as [|x ph'] eqn:Eph; [now apply neat_nonnil in Nph|]. reflexivity.
Qed.
