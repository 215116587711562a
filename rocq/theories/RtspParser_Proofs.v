(** The parser's own consistency check never fails. *)
From Coq Require Import String.
From Verif Require Import Base Atoi_Model Qstr_Model Text RtspMsg_Model RtspParser_Model RtspParser_Spec RtspParser_Frame.

Definition mild (e : option err) : Prop := e <> Some EFAULT.
Definition mild_sum {A} (x : A + err) : Prop := match x with inr e => e <> EFAULT | _ => True end.

Ltac mild := solve [exact I | discriminate | assumption | red; discriminate].

Lemma set_value_mild h v n f : mild_sum (set_value h v n f).
Proof.
  unfold set_value. destruct ((n =? 0) || _); [mild|]. destruct (negb f && _); mild.
Qed.
Lemma append_header_mild m k v n m' x : append_header m k v n = Ok (m', x) -> mild_sum x.
Proof.
  unfold append_header. destruct (is_data m); [intros [= <- <-]; mild|].
  destruct (grow (array m (m_iter_body m))) as [a|]; cbn [bind]; [|discriminate].
  destruct (if n =? 0 then inl (mkHeader k None [] None) else set_value (mkHeader k None [] None) v n true);
    intros [= <- <-]; mild.
Qed.
Lemma append_header_line_mild m l m' x : append_header_line m l = Ok (m', x) -> mild_sum x.
Proof.
  unfold append_header_line. destruct (split_line l) as [[k v] n].
  destruct (append_header m k v n) as [[m1 [p|e]]|] eqn:E; cbn [bind]; [| |discriminate].
  - destruct (deref m1 p) as [h|]; cbn [bind]; [|discriminate]. intros [= <- <-]. mild.
  - intros [= <- <-]. exact (append_header_mild _ _ _ _ _ _ E).
Qed.
Lemma guard_mild m k m' e : guard m k = Ok (m', e) -> (forall m' e, k = Ok (m', e) -> mild e) -> mild e.
Proof.
  unfold guard. destruct (is_data m); [intros [= <- <-]; mild|].
  destruct (m_sealed m); [intros [= <- <-]; mild|]. intros E H. exact (H _ _ E).
Qed.
Lemma append_line_mild m l m' e : append_line m l = Ok (m', e) -> mild e.
Proof.
  intros E. apply (guard_mild _ _ _ _ E). clear m' e E. intros m' e.
  destruct (negb (no_ptr (m_iter_header m))); [intros [= <- <-]; mild|].
  destruct (append_header_line m l) as [[m1 x]|] eqn:E; cbn [bind fst snd]; [|discriminate].
  intros [= <- <-]. apply append_header_line_mild in E. destruct x; [mild|]. cbn in E. unfold mild. congruence.
Qed.
Lemma open_header_mild m l m' e : open_header m l = Ok (m', e) -> mild e.
Proof.
  unfold open_header. destruct l as [|c l]; [intros [= <- <-]; mild|].
  intros E. apply (guard_mild _ _ _ _ E). clear m' e E. intros m' e.
  destruct (negb (no_ptr (m_iter_header m))); [intros [= <- <-]; mild|].
  destruct (append_header m (c :: l) [] 0) as [[m1 [p|x]]|] eqn:E; cbn [bind]; [| |discriminate].
  - intros [= <- <-]. mild.
  - intros [= <- <-]. apply append_header_mild in E. cbn in E. unfold mild. congruence.
Qed.
Lemma close_header_mild m m' e : close_header m = Ok (m', e) -> mild e.
Proof.
  intros E. apply (guard_mild _ _ _ _ E). clear m' e E. intros m' e.
  destruct (m_iter_header m) as [p|]; [|intros [= <- <-]; mild].
  destruct (deref m p); cbn [bind]; [|discriminate]. intros [= <- <-]; mild.
Qed.
Lemma open_body_mild m m' e : open_body m = Ok (m', e) -> mild e.
Proof.
  intros E. apply (guard_mild _ _ _ _ E). clear m' e E. intros m' e.
  destruct (negb (no_ptr (m_iter_header m)) || m_iter_body m); intros [= <- <-]; mild.
Qed.
Lemma close_body_mild m m' e : close_body m = Ok (m', e) -> mild e.
Proof.
  intros E. apply (guard_mild _ _ _ _ E). clear m' e E. intros m' e.
  destruct (negb (m_iter_body m)); [intros [= <- <-]; mild|].
  destruct (negb (no_ptr (m_iter_header m))); intros [= <- <-]; mild.
Qed.
Lemma append_basic_mild m o m' e : append_basic m o = Ok (m', e) -> mild e.
Proof.
  intros E. apply (guard_mild _ _ _ _ E). clear m' e E. intros m' e. destruct o as [s|s| | | |s|].
  - destruct (m_iter_header m) as [p|]; [|apply append_line_mild].
    destruct (deref m p) as [h|]; cbn [bind]; [|discriminate].
    pose proof (set_value_mild h s (lenN s) false) as H. destruct (set_value h s (lenN s) false) as [h'|x]; intros [= <- <-]; [mild|].
    cbn in H. unfold mild. congruence.
  - apply open_header_mild.
  - apply close_header_mild.
  - apply open_body_mild.
  - apply close_body_mild.
  - destruct (m_iter_header m) as [p|]; [|intros [= <- <-]; mild].
    destruct (deref m p) as [h|]; cbn [bind]; [|discriminate].
    unfold append_token. destruct (h_line h), (h_value h); intros [= <- <-]; mild.
  - intros [= <- <-]; mild.
Qed.
Lemma append_mild m l m' e : append m l = Ok (m', e) -> mild e.
Proof.
  intros E. apply (guard_mild _ _ _ _ E). clear m' e E. revert m. induction l as [|o l IH]; intros m m' e.
  - intros [= <- <-]; mild.
  - cbn [append_ops]. destruct (append_basic m o) as [[m1 [x|]]|] eqn:E; cbn [bind]; [| |discriminate].
    + intros [= <- <-]. exact (append_basic_mild _ _ _ _ E).
    + apply IH.
Qed.
Lemma set_known_mild m p a n v m' e : set_known_header m p a n v = Ok (m', e) -> mild e.
Proof.
  unfold set_known_header. destruct p as [p|].
  - destruct (deref m p) as [h|]; cbn [bind]; [|discriminate].
    pose proof (set_value_mild h v (lenN v) true) as H. destruct (set_value h v (lenN v) true) as [h'|x]; intros [= <- <-]; [mild|].
    cbn in H. unfold mild. congruence.
  - destruct a; [apply append_mild|intros [= <- <-]; mild].
Qed.
Lemma serialize_common_mild m m' e : serialize_common m = Ok (m', e) -> mild e.
Proof.
  unfold serialize_common.
  destruct (match m_body m with Some b => Ok b | None => lines (a_used (m_body_headers m)) end) as [body|]; cbn [bind]; [|discriminate].
  set (A := match m_clen m with Some _ => set_known_header m (m_clen m) true (text "Content-Length") (dec (lenN body))
            | None => set_known_header m None (negb (lenN body =? 0)) (text "Content-Length") (dec (lenN body mod 2 ^ 32)) end).
  assert (HA : forall m' e, A = Ok (m', e) -> mild e) by (intros m1 x; unfold A; destruct (m_clen m); apply set_known_mild).
  destruct A as [[m1 [x|]]|]; cbn [bind]; [| |discriminate]. { intros [= <- <-]. exact (HA _ _ eq_refl). }
  set (B := match a_used (m_body_headers m1) with [] => Ok (m1, None)
            | _ => set_known_header m1 (m_ctype m1) true (text "Content-Type") (text "text/parameters") end).
  assert (HB : forall m' e, B = Ok (m', e) -> mild e).
  { intros m2 x; unfold B; destruct (a_used (m_body_headers m1)); [intros [= <- <-]; mild|apply set_known_mild]. }
  destruct B as [[m2 [x|]]|]; cbn [bind]; [| |discriminate]. { intros [= <- <-]. exact (HB _ _ eq_refl). }
  destruct (set_known_header m2 (m_cseq m2) true (text "CSeq") (dec (without_flag (m_cookie m2)))) as [[m3 [x|]]|] eqn:EC; cbn [bind]; [| |discriminate].
  { intros [= <- <-]. exact (set_known_mild _ _ _ _ _ _ _ EC). }
  destruct (lines (a_used (m_headers m3))); cbn [bind]; [|discriminate]. intros [= <- <-]; mild.
Qed.
Lemma seal_mild ck m ck' m' e : seal ck m = Ok (ck', m', e) -> mild e.
Proof.
  unfold seal. destruct (m_sealed m); [intros [= <- <- <-]; mild|].
  destruct (m_iter_body m || negb (no_ptr (m_iter_header m))); [intros [= <- <- <-]; mild|].
  destruct (if m_cookie m =? 0 then (next_cookie ck, set_cookie' m (next_cookie ck)) else (ck, m)) as [ck1 m1].
  set (m2 := if is_reply m1 then set_cookie' m1 (with_flag (m_cookie m1)) else m1). clearbody m2.
  set (S := match m_start m2 with Data c p => Ok (serialize_data m2 c p, None) | _ => serialize_common m2 end).
  assert (H : forall m' e, S = Ok (m', e) -> mild e).
  { intros m3 x. unfold S. destruct (m_start m2); try apply serialize_common_mild. intros [= <- <-]; mild. }
  destruct S as [[m3 [x|]]|]; cbn [bind]; [| |discriminate]; intros [= <- <- <-]; [|mild]. exact (H _ _ eq_refl).
Qed.
Lemma body_loop_mild n : forall m d a m' e, body_loop n m d a = Ok (m', e) -> mild e.
Proof.
  induction n as [|n IH]; intros m d a m' e; cbn [body_loop]; [intros [= <- <-]; mild|].
  destruct d as [|c d]; [intros [= <- <-]; mild|]. destruct (cut_line (c :: d)) as [v r].
  destruct (match r with [] => Ok [] | [_] => match a with Some _ => Ok [] | None => UB end | _ :: t => Ok t end) as [rest|]; cbn [bind]; [|discriminate].
  destruct v as [|x v]; [apply IH|].
  destruct (append_header_line m (sanitize (x :: v))) as [[m1 [p|y]]|] eqn:E; cbn [bind]; [apply IH| |discriminate].
  intros [= <- <-]. apply append_header_line_mild in E. cbn in E. unfold mild. congruence.
Qed.
Lemma append_body_mild m b a m' e : append_body m b a = Ok (m', e) -> mild e.
Proof.
  unfold append_body. destruct b as [|c b]; [intros [= <- <-]; mild|].
  destruct (match m_ctype m with None => Ok false | Some p => _ end) as [t|]; cbn [bind]; [|discriminate].
  destruct (negb t); [intros [= <- <-]; mild|].
  destruct (open_body m) as [[m1 [x|]]|] eqn:E1; cbn [bind]; [intros [= <- <-]; exact (open_body_mild _ _ _ E1)| |discriminate].
  destruct (body_loop (Datatypes.length (c :: b)) m1 (c :: b) a) as [[m2 [x|]]|] eqn:E2; cbn [bind]; [|apply close_body_mild|discriminate].
  intros [= <- <-]. exact (body_loop_mild _ _ _ _ _ _ E2).
Qed.

Section P.
Context {W : Type} (inc : W -> N -> message -> W * N * option err).
Hypothesis inc_mild : forall w ck m, snd (inc w ck m) <> Some EFAULT.
Definition gentle (x : @out W) : Prop := match x with Ok (_, e) => mild e | UB => True end.

Lemma append_mild' d m l d' e : parser_append_header d m l = Ok (d', e) -> mild e.
Proof.
  unfold parser_append_header. destruct (append_header_line m l) as [[m1 [p|x]]|] eqn:E; cbn [bind]; [| |discriminate].
  2:{ intros [= <- <-]. apply append_header_line_mild in E. cbn in E. unfold mild. congruence. }
  destruct (deref m1 p) as [h|]; cbn [bind]; [|discriminate].
  assert (Hn : forall t x b, whole_number t = (inr x, b) -> x <> EFAULT).
  { intros t x b. unfold whole_number. destruct (ret (atoi_zn t 10)); intros [= <- <-]; discriminate. }
  destruct (ptr_eqb p (m_clen m1)).
  { destruct (h_tokens h) as [|t ts]; [intros [= <- <-]; mild|].
    destruct (whole_number t) as [[?|?] []] eqn:Et; intros [= <- <-]; mild. }
  destruct (ptr_eqb p (m_cseq m1)); [|intros [= <- <-]; mild].
  destruct (h_tokens h) as [|t ts]; [intros [= <- <-]; mild|].
  destruct (whole_number t) as [[?|x] []] eqn:Et; intros [= <- <-]; try mild.
  - intros [= ->]. now apply Hn in Et.
  - intros [= ->]. now apply Hn in Et.
Qed.
Lemma from_head_mild l : mild_sum (from_head l).
Proof.
  unfold from_head. destruct (case_prefix (text "RTSP/") l) eqn:E; [|exact I]. unfold from_reply. rewrite E.
  destruct (version_of (dropN 5 l) (fun c => c =? 32) false) as [[[a b] [|c r]]|]; try exact I.
  destruct (next (atoi_un r 10) =? 0); [exact I|].
  assert (H : forall p, mild_sum (match new_raw_reply (Atoi_Model.value (atoi_un r 10)) p with inl m => inl (set_version m a b) | inr e => inr e end)).
  { intros p. unfold new_raw_reply. destruct (_ =? 2 ^ 32 - 1); [discriminate|exact I]. }
  destruct (dropN (next (atoi_un r 10)) r) as [|x u]; [apply H|].
  destruct x as [|p]; [exact I|]. do 6 (destruct p as [p|p|]; try exact I). apply H.
Qed.
Lemma finish_gentle (s : st) : gentle (finish_line s).
Proof.
  destruct s as [[d ck] w]. unfold finish_line. destruct (copy d (d_buflen d)) as [l|]; cbn [bind]; [|exact I].
  destruct (d_m d) as [m|].
  - destruct (parser_append_header d m (sanitize l)) as [[d1 e]|] eqn:E; cbn [bind fst snd]; [|exact I]. exact (append_mild' _ _ _ _ _ E).
  - pose proof (from_head_mild (sanitize l)) as H. destruct (from_head (sanitize l)); [cbn; mild|]. cbn in *. unfold mild. congruence.
Qed.
Lemma dispatch_gentle d ck w m : gentle (dispatch inc d ck w m).
Proof.
  unfold dispatch. destruct (seal ck m) as [[[ck1 m1] [e|]]|] eqn:E; cbn [bind]; [|  |exact I].
  - exact (seal_mild _ _ _ _ _ E).
  - pose proof (inc_mild w ck1 (set_used m1)) as H. destruct (inc w ck1 (set_used m1)) as [[w1 ck2] e]. exact H.
Qed.
Lemma submit_gentle s : gentle (submit inc s).
Proof. destruct s as [[d ck] w]. unfold submit. destruct (d_m d); [apply dispatch_gentle|cbn; mild]. Qed.
Lemma submit_data_gentle s p : gentle (submit_data inc s p).
Proof.
  destruct s as [[d ck] w]. unfold submit_data, new_data. destruct (_ =? 2 ^ 32 - 1); [cbn; mild|apply dispatch_gentle].
Qed.
Lemma bind_gentle {A} (x : res A) (k : A -> @out W) : (forall a, x = Ok a -> gentle (k a)) -> gentle (bind x k).
Proof. destruct x; cbn [bind]; auto. intros _. exact I. Qed.

Lemma feed_new_gentle (s : @st W) c : gentle (feed_new s c).
Proof.
  destruct s as [[d ck] w]. unfold feed_new. destruct (_ || _ || _ || _); [cbn; mild|].
  destruct (c =? 36); cbn; mild.
Qed.
Lemma feed_body_gentle s c : gentle (feed_body inc s c).
Proof.
  destruct s as [[d ck] w]. unfold feed_body. destruct (d_remaining d =? 0); [apply feed_new_gentle|].
  set (d1 := p_remaining (count d) (d_remaining d - 1)). clearbody d1. destruct (d_remaining d1 =? 0); [|cbn; mild].
  apply bind_gentle. intros [[[d2 ck2] w2] e] E. cbn. destruct (d_m d1) as [m|]; [|injection E as <- <- <- <-; mild].
  destruct (copy d1 (d_buflen d1)) as [l|]; cbn [bind] in E; [|discriminate].
  destruct (append_body m l (Some 0)) as [[m1 [x|]]|] eqn:E2; cbn [bind] in E; [| |discriminate].
  - injection E as <- <- <- <-. exact (append_body_mild _ _ _ _ _ E2).
  - pose proof (submit_gentle (p_m d1 (Some m1), ck, w)) as H. rewrite E in H. exact H.
Qed.
Lemma feed_char_gentle s c : gentle (feed_char inc s c).
Proof.
  destruct s as [[d ck] w]. unfold feed_char. cbn [fst]. destruct (d_state d).
  - apply feed_new_gentle.
  - unfold feed_header. destruct (c =? 13).
    { destruct (_ || _); [|cbn; mild]. apply bind_gentle. intros [[[d1 ck1] w1] [e|]] E.
      - pose proof (finish_gentle (p_state d SHeaderNl, ck, w)) as H. rewrite E in H. exact H.
      - cbv zeta. destruct (_ =? 0); [apply submit_gentle|cbn; mild]. }
    destruct (c =? 10).
    { destruct (d_last d =? 10); [|cbn; mild]. apply bind_gentle. intros [[[d1 ck1] w1] [e|]] E.
      - pose proof (finish_gentle (d, ck, w)) as H. rewrite E in H. exact H.
      - cbv zeta. destruct (_ =? 0); [apply submit_gentle|cbn; mild]. }
    destruct (_ || _); [cbn; mild|]. apply bind_gentle. intros [[[d1 ck1] w1] [e|]] E; [|cbn; mild].
    destruct (_ || _); [|discriminate]. pose proof (finish_gentle (d, ck, w)) as H.
    destruct (finish_line (d, ck, w)) as [[[[d2 ck2] w2] [x|]]|]; cbn [bind] in E; [|discriminate|discriminate].
    injection E as <- <- <- <-. exact H.
  - unfold feed_quote. destruct (_ && _); cbn; mild.
  - unfold feed_header_nl. destruct (c =? 10); [cbn; mild|apply feed_body_gentle].
  - apply feed_body_gentle.
  - unfold feed_data_head. destruct (3 <=? _); [|cbn; mild]. apply bind_gentle. intros [|a [|b [|e [|]]]] _; try exact I. cbn; mild.
  - unfold feed_data_body. destruct (_ <=? _); [|cbn; mild]. apply bind_gentle. intros l _. apply bind_gentle.
    intros [[[d1 ck1] w1] e] E. pose proof (submit_data_gentle (count d, ck, w) l) as H. rewrite E in H. exact H.
Qed.
Lemma feed_seq_gentle l : forall s, gentle (feed_seq inc s l).
Proof.
  induction l as [|c l IH]; intros [[d ck] w]; [cbn; mild|]. cbn [feed_seq]. apply bind_gentle.
  intros [[[d1 ck1] w1] [e|]] E; [|apply IH]. pose proof (feed_char_gentle (push d c, ck, w) c) as H. rewrite E in H. exact H.
Qed.

Lemma parse_data_gentle s l : gentle (parse_data inc s l).
Proof.
  destruct s as [[d ck] w]. destruct l as [|c l]; [cbn; mild|].
  assert (Hl : c :: l <> []) by discriminate.
  pose proof (parse_data_seq inc d ck w (c :: l) Hl) as S. pose proof (feed_seq_gentle (c :: l) (rest d, ck, w)) as G.
  destruct (parse_data inc (d, ck, w) (c :: l)) as [[[[d1 ck1] w1] [e|]]|]; [|cbn; mild|exact I].
  destruct (feed_seq inc (rest d, ck, w) (c :: l)) as [[[[d2 ck2] w2] [e'|]]|]; cbn in S; try contradiction.
  destruct S as (_ & _ & ->). exact G.
Qed.
Lemma parse_chunks_gentle ls : forall s, gentle (parse_chunks inc s ls).
Proof.
  induction ls as [|l ls IH]; intros s; [cbn; mild|]. cbn [parse_chunks]. apply bind_gentle.
  intros [s1 [e|]] E; [|apply IH]. pose proof (parse_data_gentle s l) as H. rewrite E in H. exact H.
Qed.
Lemma never_inconsistent s ls s' : parse_chunks inc s ls <> Ok (s', Some EFAULT).
Proof. intros E. pose proof (parse_chunks_gentle ls s) as H. rewrite E in H. now apply H. Qed.
End P.

(** While reading [l], the buffer is the inspected bytes and the rest of [l]. *)
Lemma feed_all_frame {W} (inc : W -> N -> message -> W * N * option err) p r : forall d ck w, lenN (d_buf d) = d_buflen d ->
  feed_all inc (more (p ++ r) d, ck, w) p = mored r (feed_all inc (more p d, ck, w) p).
Proof.
  induction p as [|c p IH]; intros d ck w H.
  - cbn. unfold more. cbn. now rewrite app_nil_r.
  - cbn [feed_all app].
    assert (H1 : one_more (push d c)) by (red; cbn; len; cbn; lia).
    destruct (feed_char_frame inc (p ++ r) (push d c) ck w c H1) as (E & L).
    destruct (feed_char_frame inc p (push d c) ck w c H1) as (E' & _).
    replace (more (c :: p ++ r) d) with (more (p ++ r) (push d c)) by (unfold more, push; cbn; now rewrite <- app_assoc).
    replace (more (c :: p) d) with (more p (push d c)) by (unfold more, push; cbn; now rewrite <- app_assoc).
    rewrite E, E'. destruct (feed_char inc (push d c, ck, w) c) as [[[[d' ck'] w'] [e|]]|]; cbn [bind mored]; [| |reflexivity].
    + unfold more; cbn. now rewrite <- app_assoc.
    + change (p_last (more (p ++ r) d') c) with (more (p ++ r) (p_last d' c)).
      change (p_last (more p d') c) with (more p (p_last d' c)). apply IH. exact L.
Qed.
Lemma inspected {W} (inc : W -> N -> message -> W * N * option err) d ck w p r d' ck' w' :
  feed_all inc (p_buf d (d_buf d ++ p ++ r) (lenN (d_buf d)), ck, w) p = Ok (d', ck', w', None) ->
  exists seen, d_buf d' = seen ++ r /\ d_buflen d' = lenN seen.
Proof.
  intros E. change (p_buf d (d_buf d ++ p ++ r) (lenN (d_buf d))) with (more (p ++ r) (rest d)) in E.
  rewrite feed_all_frame in E by reflexivity.
  pose proof (feed_all_level inc p (rest d) ck w eq_refl) as L.
  destruct (feed_all inc (more p (rest d), ck, w) p) as [[[[d1 ck1] w1] e]|]; [|discriminate].
  cbn in E. injection E as <- <- <- ->. cbn in L. exists (d_buf d1). auto.
Qed.
