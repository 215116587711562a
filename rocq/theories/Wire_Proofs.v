From Coq Require Import String.
From Verif Require Import Base Text Text_Proofs RtspText_Proofs Qstr_Model Qstr_Proofs Split_Spec Split_Proofs WpasMsg_Model WpasMsg_Spec WpasMsg_Proofs Wire_Model Wire_Spec.
From Verif Require Prov_Model Comm_Spec.
Local Open Scope list_scope.

(** ** Words *)
Lemma wordy_simple w : wordy w -> simple w. Proof. intros H. exact (proj2 H). Qed.
Definition wordyb (s : list byte) : bool := negb (match s with [] => true | _ => false end) && forallb (fun c => (33 <=? c) && negb (c =? 34) && negb (c =? 39) && negb (c =? 92)) s.
Lemma wordyb_ok s : wordyb s = true -> wordy s.
Proof.
  unfold wordyb. intros H. apply andb_true_iff in H as [H1 H2]. split; [intros ->; discriminate|]. rewrite forallb_forall in H2. apply Forall_forall. intros c I. apply H2 in I. lia.
Qed.
Lemma wordy_app a b : wordy a -> wordy b -> wordy (a ++ b).
Proof. intros [A FA] [B FB]. split; [destruct a; [congruence|discriminate]|apply Forall_app; auto]. Qed.
Lemma wordy_key k v : wordyb (k ++ [61]) = true -> wordy v -> wordy (k ++ 61 :: v).
Proof. intros K V. change (61 :: v) with ([61] ++ v). rewrite app_assoc. apply wordy_app; [now apply wordyb_ok|exact V]. Qed.
Lemma wordy_nul w : wordy w -> ~ In 0 w.
Proof. intros [_ F] I. rewrite Forall_forall in F. apply F in I. lia. Qed.
Lemma cstr_wordy w : wordy w -> cstr w = w. Proof. intros W. apply cstr_id. now apply wordy_nul. Qed.

(** ** Tokens *)
Definition passes (w : list byte) : Prop := w <> [] /\ forall t cur, tok_loop (w ++ t) false 0 cur = tok_loop t false 0 (cur ++ w).
Lemma passes_app a b : passes a -> (forall t cur, tok_loop (b ++ t) false 0 cur = tok_loop t false 0 (cur ++ b)) -> passes (a ++ b).
Proof. intros [N A] B. split; [destruct a; [congruence|discriminate]|]. intros t cur. now rewrite <- app_assoc, A, B, <- app_assoc. Qed.
Lemma passes_wordy w : wordy w -> passes w.
Proof. intros W. split; [exact (proj1 W)|]. intros t cur. apply tok_simple. now apply wordy_simple. Qed.
Definition rest (t : list byte) : list (list byte) := match t with [] => [] | _ :: r => tokenize r end.
Definition dec0 (w : list byte) : list byte := decode false 0 w.
Lemma dec0_wordy w : wordy w -> dec0 w = w.
Proof. intros W. unfold dec0. rewrite <- (app_nil_r w) at 1. rewrite decode_simple by (now apply wordy_simple). apply app_nil_r. Qed.
Lemma tok_pieces ws t : Forall passes ws -> tail t -> forall cur, cur <> [] ->
  tok_loop (Wire_Spec.spaced ws ++ t) false 0 cur = dec0 cur :: map dec0 ws ++ rest t.
Proof.
  intros F T. induction F as [|w ws [Nw P] F IH]; intros cur C.
  - cbn [Wire_Spec.spaced flat_map app map]. destruct T as [->|(r & ->)]; [destruct cur; [congruence|reflexivity]|]. cbn [tok_loop]. change (32 =? 92) with false. change (0 =? 0) with true. change (32 =? 34) with false. change (32 =? 39) with false. change (32 =? 32) with true. cbn [negb]. cbv iota. destruct cur; [congruence|reflexivity].
  - cbn [Wire_Spec.spaced flat_map app map]. cbn [tok_loop]. change (32 =? 92) with false. change (0 =? 0) with true. change (32 =? 34) with false. change (32 =? 39) with false. change (32 =? 32) with true. cbn [negb]. cbv iota. destruct cur as [|c cur]; [congruence|]. fold (dec0 (c :: cur)). f_equal. rewrite <- app_assoc, P. cbn [app]. apply (IH w Nw).
Qed.

(** ** Events *)
Definition told (name : list byte) (ws : list (list byte)) (t : list byte) (i : option (list byte)) (m : wmsg) : Prop :=
  w_type m = WEvent /\ w_name m = Some name /\ w_argv m = name :: map cstr (map dec0 ws ++ rest t) /\ w_iter m = 1 /\ w_ifname m = i.
Lemma event_text name lvl ws t : wordy name -> lvl < 2 ^ 31 -> Forall passes ws -> tail t ->
  exists m, parse false (text "<" ++ dec lvl ++ text ">" ++ name ++ Wire_Spec.spaced ws ++ t) = Ok (inl m) /\ told name ws t None m.
Proof.
  intros Wn L F T. set (raw := text "<" ++ dec lvl ++ text ">" ++ name ++ Wire_Spec.spaced ws ++ t).
  assert (R : raw = (level_text lvl ++ name) ++ Wire_Spec.spaced ws ++ t). { unfold raw, level_text. change (text "<") with [60]. change (text ">") with [62]. cbn [app]. rewrite <- !app_assoc. reflexivity. }
  unfold parse, split_ifname. assert (E : has_ifname raw = false). { unfold has_ifname. rewrite R. unfold level_text. cbn [app cstr]. change (60 =? 0) with false. cbv iota. destruct (cstr _) as [|? ?]; reflexivity. }
  rewrite E. assert (I : match raw with c :: _ => c =? 60 | [] => false end = true) by (rewrite R; reflexivity). rewrite I. cbn [orb].
  assert (K : tokenize raw = (level_text lvl ++ name) :: map dec0 ws ++ rest t).
  { rewrite R. unfold tokenize. assert (S : simple (level_text lvl ++ name)) by (apply Forall_app; split; [apply level_simple|now apply wordy_simple]). rewrite tok_simple by exact S. rewrite tok_pieces; [|exact F|exact T|discriminate]. f_equal. unfold dec0. cbn [app]. change (60 :: (dec lvl ++ [62]) ++ name) with (level_text lvl ++ name). rewrite <- (app_nil_r (level_text lvl ++ name)) at 1. rewrite decode_simple by exact S. apply app_nil_r. }
  rewrite K. assert (B : break_at 62 (level_text lvl ++ name) = (60 :: dec lvl, Some (62 :: name))).
  { unfold level_text. cbn [app]. rewrite <- app_assoc. cbn [app]. apply (break_at_in 62 (60 :: dec lvl) name). pose proof (dec_digits lvl) as D. rewrite Forall_forall in D. intros [J|J]; [discriminate|apply D in J; lia]. }
  rewrite B. destruct name as [|c n]; [now destruct Wn|]. change (dropN 1 (60 :: dec lvl)) with (dec lvl). rewrite atoi_back by exact L. cbn [bind new_event].
  assert (P : forall m l, w_sealed m = false -> parse_args m l = (w_more m (map cstr l), None)).
  { intros m l S. unfold parse_args. apply append_loop_texts; [|exact S]. clear. induction l; constructor; [reflexivity|exact IHl]. }
  rewrite P by reflexivity. cbn [or_err]. eexists. split; [reflexivity|]. unfold finish, w_more, told. cbn [wnew w_type w_name w_level w_argv w_iter w_ifname app]. auto.
Qed.
Lemma wire_text name lvl ws t i : wordy name -> lvl < 2 ^ 31 -> ifname_ok i -> Forall passes ws -> tail t ->
  exists m, parse false (on_wire i lvl (name ++ Wire_Spec.spaced ws ++ t)) = Ok (inl m) /\ told name ws t i m.
Proof.
  intros Wn L O F T. destruct (event_text name lvl ws t Wn L F T) as (m & P & H). unfold on_wire. destruct i as [n|]; cbn [source app]; [|eauto].
  destruct (O n eq_refl) as [Z S]. eexists. split.
  - rewrite <- !app_assoc. change (text " " ++ ?x) with (32 :: x). apply ifname_stripped; [exact Z|exact S| |exact P].
    unfold has_ifname. change (text "<") with [60]. cbn [app cstr]. change (60 =? 0) with false. cbv iota. destruct (cstr _) as [|? ?]; reflexivity.
  - destruct H as (A & B & C & D & _). unfold told, set_source. cbn. auto.
Qed.

(** ** Dictionaries and positions *)
Lemma dict_none e l k : ~ In 61 e -> dict_loop (e :: l) k TString = dict_loop l k TString.
Proof. intros H. cbn [dict_loop]. destruct (break_at 61 e) as [a [r|]] eqn:E; [|reflexivity]. apply break_at_some in E as (v & _ & -> & _). exfalso. apply H. apply in_app_iff. right. now left. Qed.
Lemma dict_other k2 v l k : ~ In 61 k2 -> str_eq k2 k = false -> dict_loop ((k2 ++ 61 :: v) :: l) k TString = dict_loop l k TString.
Proof. intros H K. cbn [dict_loop]. rewrite break_at_in by exact H. now rewrite K. Qed.
Lemma dict_hit v l k : ~ In 61 k -> dict_loop ((k ++ 61 :: v) :: l) k TString = Ok (inl (VString v)).
Proof. intros H. cbn [dict_loop]. rewrite break_at_in by exact H. assert (E : str_eq k k = true) by now apply str_eq_spec. now rewrite E. Qed.
Lemma entry_of name ws t i m k : told name ws t i m -> entry m k = is_text (dict_loop (map cstr (map dec0 ws ++ rest t)) (text k) TString).
Proof. intros (_ & B & C & _). unfold entry, dict_read, first_arg. rewrite B, C. reflexivity. Qed.
Lemma nth_of name ws t i m n : told name ws t i m -> n < 100 -> nth_arg m n = Ok (nth_error (map cstr (map dec0 ws ++ rest t)) (N.to_nat n)).
Proof.
  intros (_ & B & C & _) L. unfold nth_arg, argv_read. rewrite B, C. assert (E : (n + 1) mod 2 ^ 32 = n + 1). { assert (E32 : 2 ^ 32 = 4294967296) by reflexivity. rewrite E32. apply N.mod_small. lia. }
  rewrite E. assert (Z : (n + 1 =? 0) = false) by lia. rewrite Z. set (l := map cstr _). clearbody l. unfold nthN. replace (N.to_nat (n + 1)) with (S (N.to_nat n)) by lia. cbn [nth_error]. destruct (nth_error l (N.to_nat n)); reflexivity.
Qed.
Lemma next_of name ws t i m : told name ws t i m -> next_arg m = Ok (nth_error (map cstr (map dec0 ws ++ rest t)) 0).
Proof.
  intros (_ & B & C & D & _). unfold next_arg, read_basic. rewrite C, D. set (l := map cstr _). clearbody l. unfold nthN. change (N.to_nat 1) with 1%nat. cbn [nth_error]. destruct l; reflexivity.
Qed.
Lemma head_of w ws t : wordy w -> map cstr (map dec0 (w :: ws) ++ rest t) = w :: map cstr (map dec0 ws ++ rest t).
Proof. intros W. cbn [map app]. now rewrite dec0_wordy, cstr_wordy. Qed.

(** ** SSIDs *)
Lemma tok_quoted c t cur : c <> 34 -> c <> 92 -> tok_loop (c :: t) false 34 cur = tok_loop t false 34 (cur ++ [c]).
Proof. intros A B. cbn [tok_loop]. change (34 =? 0) with false. cbn [negb]. assert (E1 : (c =? 92) = false) by lia. assert (E2 : (c =? 34) = false) by lia. rewrite E1, E2. cbn [andb]. change (34 =? 39) with false. rewrite andb_false_r. reflexivity. Qed.
Lemma tok_escaped c t cur : tok_loop (92 :: c :: t) false 34 cur = tok_loop t false 34 (cur ++ [92; c]).
Proof. cbn [tok_loop]. change (92 =? 92) with true. cbv iota. now rewrite <- app_assoc. Qed.
Lemma hexd_plain d : d < 16 -> hexd d <> 34 /\ hexd d <> 92.
Proof. intros H. unfold hexd. destruct (N.ltb_spec d 10); lia. Qed.
Lemma ssid_char_tok c t cur : c < 256 -> tok_loop (ssid_char c ++ t) false 34 cur = tok_loop t false 34 (cur ++ ssid_char c).
Proof.
  intros L. unfold ssid_char. repeat (match goal with |- context [if c =? ?n then _ else _] => destruct (N.eqb_spec c n) as [->|]; [apply tok_escaped|] end).
  destruct ((32 <=? c) && (c <=? 126)); [now apply tok_quoted|]. cbn [app]. rewrite tok_escaped.
  assert (A : c / 16 < 16) by (apply N.div_lt_upper_bound; lia). assert (B : c mod 16 < 16) by (apply N.mod_lt; lia).
  destruct (hexd_plain _ A), (hexd_plain _ B). rewrite !tok_quoted by assumption. now rewrite <- !app_assoc.
Qed.
Lemma ssid_tok s t : Forall (fun c => c < 256) s -> forall cur, tok_loop (ssid_txt s ++ t) false 34 cur = tok_loop t false 34 (cur ++ ssid_txt s).
Proof.
  intros F. unfold ssid_txt. induction F as [|c s L F IH]; intros cur; [now rewrite app_nil_r|]. cbn [flat_map]. rewrite <- app_assoc, ssid_char_tok by exact L. rewrite IH. now rewrite <- app_assoc.
Qed.
Lemma wordy_tok v t : Forall (fun c => 33 <= c /\ c <> 34 /\ c <> 39 /\ c <> 92) v -> forall cur, tok_loop (v ++ t) false 34 cur = tok_loop t false 34 (cur ++ v).
Proof. intros F. induction F as [|c s L F IH]; intros cur; [now rewrite app_nil_r|]. cbn [app]. rewrite tok_quoted by lia. rewrite IH. now rewrite <- app_assoc. Qed.
Lemma tok_open t cur : tok_loop (34 :: t) false 0 cur = tok_loop t false 34 (cur ++ [34]). Proof. reflexivity. Qed.
Lemma tok_close t cur : tok_loop (34 :: t) false 34 cur = tok_loop t false 0 (cur ++ [34]). Proof. reflexivity. Qed.
Lemma passes_quoted k q : wordy k -> (forall t cur, tok_loop (q ++ t) false 34 cur = tok_loop t false 34 (cur ++ q)) -> passes (k ++ 34 :: q ++ [34]).
Proof.
  intros K Q. apply passes_app; [now apply passes_wordy|]. intros t cur. cbn [app]. rewrite tok_open. rewrite <- app_assoc, Q. cbn [app]. rewrite tok_close. now rewrite <- !app_assoc.
Qed.

(** ** Each event *)
Lemma ok_inj {A} (x y : A) : Ok x = Ok y -> x = y. Proof. now intros [= ->]. Qed.
Lemma addr_wordy a : addr a -> wordy a. Proof. intros H. exact (proj1 H). Qed.
Lemma tok61 (k : list byte) : existsb (N.eqb 61) k = false -> ~ In 61 k.
Proof. apply not_In_test. Qed.
(** A keyed word. *)
Definition kw (k : string) (v : list byte) : list byte := text k ++ 61 :: v.
Lemma kw_wordy k v : wordyb (text k ++ [61]) = true -> addr v -> wordy (kw k v).
Proof. intros K [V _]. now apply wordy_key. Qed.
Ltac words := repeat (apply Forall_cons; [apply passes_wordy; first [assumption | apply addr_wordy; assumption | apply kw_wordy; [reflexivity|assumption] | apply wordyb_ok; reflexivity]|]); try apply Forall_nil.
Ltac heads := repeat (rewrite head_of by (first [assumption | apply addr_wordy; assumption | apply kw_wordy; [reflexivity|assumption] | apply wordyb_ok; reflexivity])).
Ltac look := repeat (first [rewrite dict_none by (first [match goal with H : addr ?a |- ~ In 61 ?a => exact (proj2 H) end | apply tok61; reflexivity])
  | unfold kw at 1; first [rewrite dict_hit by (apply tok61; reflexivity) | rewrite dict_other by (first [apply tok61; reflexivity | reflexivity])]]).
Lemma shape name ws t : name ++ Wire_Spec.spaced ws ++ t = name ++ flat_map (fun w => 32 :: w) ws ++ t. Proof. reflexivity. Qed.
Ltac flat := unfold Wire_Spec.spaced; cbn [flat_map]; unfold kw; repeat rewrite <- app_assoc; cbn [app]; rewrite ?app_nil_r; repeat rewrite <- app_assoc; reflexivity.
Ltac as_words n l t := match goal with |- context [on_wire _ _ ?b] => replace b with (text n ++ Wire_Spec.spaced l ++ t) by flat end.
Lemma heard_event name lvl ws t i n : wordy name -> lvl < 2 ^ 31 -> ifname_ok i -> Forall passes ws -> tail t ->
  (forall m, told name ws t i m -> on_event m = Ok n) -> heard (on_wire i lvl (name ++ Wire_Spec.spaced ws ++ t)) = Ok n.
Proof. intros A B C D E H. destruct (wire_text name lvl ws t i A B C D E) as (m & P & T). unfold heard. rewrite P. cbn [bind]. now apply H. Qed.
Ltac read T := let A := fresh in let B := fresh in pose proof T as (A & B & _); unfold on_event; rewrite A, B;
  match goal with |- context [existsb ?f ignored] => change (existsb f ignored) with false end; cbv beta zeta iota.
Ltac case_of := repeat match goal with |- context [str_eq (text ?a) (text ?b)] =>
  let r := eval vm_compute in (str_eq (text a) (text b)) in change (str_eq (text a) (text b)) with r end; cbv iota.
Ltac start := apply heard_event; [apply wordyb_ok; reflexivity|assumption|assumption|words|assumption|]; let m := fresh "m" in let T := fresh "T" in intros m T; read T; case_of;
  rewrite ?(entry_of _ _ _ _ _ _ T), ?(next_of _ _ _ _ _ T), ?(nth_of _ _ _ _ _ _ T) by reflexivity.
Ltac done := heads; look; reflexivity.
(** The words of P2P-GROUP-STARTED. *)
Lemma detail_passes w : detail w -> passes w.
Proof.
  intros (k & v & K & V & [->| ->]).
  - apply passes_wordy. apply wordy_app; [|apply wordy_app; [apply wordyb_ok; reflexivity|exact V]]. destruct K as [<-|[<-|[<-|[]]]]; apply wordyb_ok; reflexivity.
  - change (text "=""" ++ v ++ [34]) with ([61] ++ 34 :: v ++ [34]). rewrite app_assoc. apply passes_quoted.
    + apply wordy_app; [|apply wordyb_ok; reflexivity]. destruct K as [<-|[<-|[<-|[]]]]; apply wordyb_ok; reflexivity.
    + intros t cur. apply wordy_tok, V.
Qed.
Lemma detail_key w : detail w -> exists k v, In k ["freq"; "psk"; "passphrase"]%string /\ cstr (dec0 w) = text k ++ 61 :: v.
Proof.
  intros (k & v & K & V & E). assert (Wk : wordy (text k ++ [61])) by (destruct K as [<-|[<-|[<-|[]]]]; apply wordyb_ok; reflexivity).
  assert (X : exists q, w = (text k ++ [61]) ++ q). { destruct E as [->| ->]; [exists v|exists (34 :: v ++ [34])]; rewrite <- app_assoc; reflexivity. }
  destruct X as (q & ->). exists k, (cstr (dec0 q)). split; [exact K|]. unfold dec0. rewrite decode_simple by (now apply wordy_simple). rewrite cstr_app by (now apply wordy_nul). now rewrite <- app_assoc.
Qed.
Lemma look_details ws l k : Forall detail ws -> (forall x, In x ["freq"; "psk"; "passphrase"]%string -> str_eq (text x) k = false) ->
  dict_loop (map cstr (map dec0 ws ++ l)) k TString = dict_loop (map cstr l) k TString.
Proof.
  intros F K. induction F as [|w ws D F IH]; [reflexivity|]. cbn [map app]. destruct (detail_key w D) as (x & v & X & ->). rewrite dict_other; [exact IH| |now apply K].
  destruct X as [<-|[<-|[<-|[]]]]; apply tok61; reflexivity.
Qed.
Lemma started_heard ifname (go : bool) ssid ws d t i lvl : addr ifname -> Forall (fun c => c < 256) ssid -> Forall detail ws -> addr d -> tail t -> lvl < 2 ^ 31 -> ifname_ok i ->
  heard (on_wire i lvl (text "P2P-GROUP-STARTED " ++ ifname ++ text (if go then " GO" else " client")%string ++ text " ssid=""" ++ ssid_txt ssid ++ [34] ++ Wire_Spec.spaced ws ++ text " go_dev_addr=" ++ d ++ t))
  = Ok (Group d ifname go).
Proof.
  intros Ai S Fw Ad Tt L O. set (role := text (if go then "GO" else "client")%string). set (q := text "ssid=" ++ 34 :: ssid_txt ssid ++ [34]).
  assert (Wr : wordy role) by (destruct go; apply wordyb_ok; reflexivity).
  match goal with |- context [on_wire _ _ ?b] => replace b with (text "P2P-GROUP-STARTED" ++ Wire_Spec.spaced (ifname :: role :: q :: ws ++ [kw "go_dev_addr" d]) ++ t) end.
  2:{ unfold Wire_Spec.spaced. cbn [flat_map]. rewrite flat_map_app. cbn [flat_map]. unfold q, kw, role. destruct go; repeat rewrite <- app_assoc; cbn [app]; repeat rewrite <- app_assoc; cbn [app]; rewrite ?app_nil_r; repeat rewrite <- app_assoc; reflexivity. }
  assert (Pq : passes q). { unfold q. apply passes_quoted; [apply wordyb_ok; reflexivity|]. intros t0 cur. now apply ssid_tok. }
  apply heard_event; [apply wordyb_ok; reflexivity|assumption|assumption| |assumption|].
  { constructor; [apply passes_wordy; exact (proj1 Ai)|]. constructor; [now apply passes_wordy|]. constructor; [exact Pq|]. apply Forall_app. split; [|words]. eapply Forall_impl; [|exact Fw]. exact detail_passes. }
  intros m T. read T. case_of. rewrite (entry_of _ _ _ _ _ _ T), !(nth_of _ _ _ _ _ _ T) by reflexivity. rewrite head_of by exact (proj1 Ai). rewrite head_of by exact Wr.
  change (N.to_nat 0) with 0%nat. change (N.to_nat 1) with 1%nat. cbn [nth_error bind]. rewrite dict_none by exact (proj2 Ai). rewrite dict_none by (unfold role; destruct go; apply tok61; reflexivity).
  assert (Q : exists v, cstr (dec0 q) = text "ssid" ++ 61 :: v).
  { exists (cstr (dec0 (34 :: ssid_txt ssid ++ [34]))). unfold q, dec0. rewrite decode_simple by (apply wordy_simple, wordyb_ok; reflexivity). rewrite cstr_app by (apply wordy_nul, wordyb_ok; reflexivity). reflexivity. }
  destruct Q as (v & Q). cbn [map app]. rewrite Q. rewrite dict_other by (first [apply tok61; reflexivity|reflexivity]).
  rewrite (map_app dec0 ws). rewrite <- app_assoc. rewrite look_details; [|exact Fw|intros x [<-|[<-|[<-|[]]]]; reflexivity].
  rewrite (head_of (kw "go_dev_addr" d) [] t) by (apply kw_wordy; [reflexivity|exact Ad]). unfold kw at 1. rewrite dict_hit by (apply tok61; reflexivity). cbn [is_text bind]. unfold role. destruct go; reflexivity.
Qed.
Lemma reports_heard body i n lvl : reports body i n -> lvl < 2 ^ 31 -> ifname_ok i -> heard (on_wire i lvl body) = Ok n.
Proof.
  intros R L O. destruct R.
  - as_words "P2P-DEVICE-FOUND"%string [a; kw "p2p_dev_addr" d] t. start. done.
  - as_words "P2P-DEVICE-LOST"%string [kw "p2p_dev_addr" d] t. start. done.
  - as_words "P2P-PROV-DISC-PBC-REQ"%string [a; kw "p2p_dev_addr" d] t. start. done.
  - as_words "P2P-PROV-DISC-SHOW-PIN"%string [a; pin; kw "p2p_dev_addr" d] t. start. done.
  - as_words "P2P-PROV-DISC-ENTER-PIN"%string [a; kw "p2p_dev_addr" d] t. start. done.
  - as_words "P2P-GO-NEG-REQUEST"%string [a] t. start. done.
  - as_words "P2P-GO-NEG-SUCCESS"%string [kw "role" role; kw "freq" freq; kw "ht40" ht; kw "peer_dev" d; kw "peer_iface" f] t. start. done.
  - as_words "P2P-GO-NEG-FAILURE"%string (@nil (list byte)) t. start. done.
  - as_words "P2P-GROUP-FORMATION-FAILURE"%string (@nil (list byte)) t. start. done.
  - now apply started_heard.
  - as_words "P2P-GROUP-REMOVED"%string [ifname] t. start. done.
  - as_words "AP-STA-CONNECTED"%string [a; kw "p2p_dev_addr" d] t. start. heads. look. cbn. rewrite <- (proj2 (proj2 (proj2 (proj2 T)))). reflexivity.
  - as_words "AP-STA-DISCONNECTED"%string [a; kw "p2p_dev_addr" d] t. start. done.
  - as_words "P2P-FIND-STOPPED"%string (@nil (list byte)) t. start. done.
Qed.
