(** Proofs about the settings. *)
From Coq Require Import String.
From Verif Require Import Base Text Text_Proofs Settings_Model Settings_Spec.
From Verif Require WpasMsg_Model Cli_Proofs.
Local Open Scope list_scope.

(** ** getopt_long on command lines as they are written *)
Definition good_longs (lt : longs) : Prop := NoDup (map fst lt) /\ forall n x, In (n, x) lt -> n <> [] /\ ~ In 61 n.
Definition good_shorts (st : shorts) : Prop := NoDup (map fst st) /\ forall c x, In (c, x) st -> c <> 45.

Lemma find_exact_in lt n x : NoDup (map fst lt) -> In (n, x) lt -> find_exact lt n = Some x.
Proof.
  induction lt as [|[m y] lt IH]; intros D I; [destruct I|]. inversion D as [|? ? Hn Hd]; subst. cbn [find_exact].
  destruct I as [E|I].
  - inversion E; subst. now rewrite Cli_Proofs.str_eq_refl.
  - destruct (str_eq m n) eqn:E; [|auto]. apply Cli_Proofs.str_eq_spec in E. subst. elim Hn. apply in_map_iff. now exists (n, x).
Qed.
Lemma find_long_in lt n x : NoDup (map fst lt) -> In (n, x) lt -> find_long lt n = Some x.
Proof. intros D I. unfold find_long. now rewrite (find_exact_in lt n x). Qed.
Lemma find_short_in st c x : NoDup (map fst st) -> In (c, x) st -> find_short st c = Some x.
Proof.
  induction st as [|[d y] st IH]; intros D I; [destruct I|]. inversion D as [|? ? Hn Hd]; subst. cbn [find_short].
  destruct I as [E|I].
  - inversion E; subst. now rewrite N.eqb_refl.
  - destruct (N.eqb_spec d c) as [E|E]; [|auto]. subst. elim Hn. apply in_map_iff. now exists (c, x).
Qed.
Lemma break_none c s : ~ In c s -> break_at c s = (s, None).
Proof.
  induction s as [|x s IH]; intros H; [reflexivity|]. cbn [break_at]. destruct (N.eqb_spec x c) as [E|E]; [subst; elim H; now left|].
  rewrite IH; [reflexivity|]. intros I. apply H. now right.
Qed.
Lemma break_some c s r : ~ In c s -> break_at c (s ++ c :: r) = (s, Some (c :: r)).
Proof.
  induction s as [|x s IH]; intros H; cbn [break_at app]; [now rewrite N.eqb_refl|].
  destruct (N.eqb_spec x c) as [E|E]; [subst; elim H; now left|]. rewrite IH; [reflexivity|]. intros I. apply H. now right.
Qed.
Lemma shape_long n : n <> [] -> shape_of (text "--" ++ n) = SLong n.
Proof. intros H. destruct n; [congruence|reflexivity]. Qed.
Lemma shape_short c v : c <> 45 -> shape_of (DASH :: c :: v) = SShort (c :: v).
Proof. intros H. unfold shape_of. rewrite N.eqb_refl. now replace (c =? DASH) with false by (symmetry; now apply N.eqb_neq). Qed.
Lemma shape_word w : (forall r, w <> DASH :: r) -> shape_of w = SWord.
Proof.
  intros H. destruct w as [|c [|d r]]; try reflexivity. cbn [shape_of]. destruct (N.eqb_spec c DASH) as [E|E]; [|reflexivity].
  subst. now elim (H (d :: r)).
Qed.
Lemma before_pair {A B} (l e : list A) (o : B) : before l (e, o) = (l ++ e, o).
Proof. reflexivity. Qed.

Section Line.
  Context (st : shorts) (lt : longs) (GL : good_longs lt) (GS : good_shorts st).
  Lemma getopt_item ws es ops : item st lt ws es ops -> forall r o0 es' ops',
    getopt st lt r (o0 ++ ops) = (es', ops') -> getopt st lt (ws ++ r) o0 = (es ++ es', ops').
  Proof.
    destruct GL as [DL HL], GS as [DS HS]. intros [name o I|name o v I|name o v I|c o I|c o v I|c o v I Nv|w Hw] r o0 es' ops' E; cbn [app] in *;
      try rewrite app_nil_r in E; cbn [getopt].
    - destruct (HL _ _ I) as [Nn Ne]. rewrite (shape_long name) by assumption. rewrite (break_none 61 name Ne).
      rewrite (find_long_in lt name _ DL I), E. reflexivity.
    - destruct (HL _ _ I) as [Nn Ne]. rewrite (shape_long name) by assumption. rewrite (break_none 61 name Ne).
      rewrite (find_long_in lt name _ DL I), E. reflexivity.
    - destruct (HL _ _ I) as [Nn Ne]. change (text "=") with [61]. cbn [app].
      rewrite (shape_long (name ++ 61 :: v)) by (destruct name; [congruence|discriminate]).
      rewrite (break_some 61 name v Ne). rewrite (find_long_in lt name _ DL I), E. reflexivity.
    - rewrite shape_short by exact (HS _ _ I). cbn [cluster]. rewrite (find_short_in st c _ DS I), E. reflexivity.
    - rewrite shape_short by exact (HS _ _ I). cbn [cluster]. rewrite (find_short_in st c _ DS I), E. reflexivity.
    - rewrite shape_short by exact (HS _ _ I). cbn [cluster]. rewrite (find_short_in st c _ DS I). destruct v; [congruence|]. rewrite E. reflexivity.
    - rewrite (shape_word w Hw). exact E.
  Qed.
  Lemma getopt_line ws es ops : line st lt ws es ops -> forall o0, getopt st lt ws o0 = (es, o0 ++ ops).
  Proof.
    induction 1 as [|ws es ops ws' es' ops' I _ IH]; intros o0; [cbn [getopt]; now rewrite app_nil_r|].
    apply (getopt_item _ _ _ I). rewrite IH, <- app_assoc. reflexivity.
  Qed.
  Lemma line_app ws es ops ws' es' ops' : line st lt ws es ops -> line st lt ws' es' ops' -> line st lt (ws ++ ws') (es ++ es') (ops ++ ops').
  Proof. intros H H'. induction H; [exact H'|]. rewrite <- !app_assoc. now apply L_item. Qed.
End Line.
Lemma no61 l : forallb (fun e : list byte * (bool * oid) => negb (str_eq (fst e) []) && forallb (fun c => negb (c =? 61)) (fst e)) l = true ->
  forall n x, In (n, x) l -> n <> [] /\ ~ In 61 n.
Proof.
  intros H n x I. rewrite forallb_forall in H. specialize (H _ I). cbn [fst] in H. apply andb_true_iff in H as [H1 H2]. split.
  - intros ->. discriminate.
  - intros J. rewrite forallb_forall in H2. specialize (H2 _ J). discriminate.
Qed.
Fixpoint distinct {A} (eqb : A -> A -> bool) (l : list A) : bool :=
  match l with [] => true | x :: l => negb (existsb (eqb x) l) && distinct eqb l end.
Lemma distinct_ok {A} (eqb : A -> A -> bool) l : (forall x, eqb x x = true) -> distinct eqb l = true -> NoDup l.
Proof.
  intros R. induction l as [|x l IH]; intros H; [constructor|]. cbn [distinct] in H. apply andb_true_iff in H as [H1 H2].
  constructor; [|auto]. intros I. assert (E : existsb (eqb x) l = true) by (apply existsb_exists; eauto). rewrite E in H1. discriminate.
Qed.
Ltac good_l := split; [apply (distinct_ok str_eq); [apply Cli_Proofs.str_eq_refl|reflexivity]|apply no61; reflexivity].
Ltac good_s := split; [apply (distinct_ok N.eqb); [apply N.eqb_refl|reflexivity]|intros c x H E; subst c; vm_compute in H; intuition discriminate].
Lemma sink_longs_good : good_longs sink_longs. Proof. good_l. Qed.
Lemma sink_shorts_good : good_shorts sink_shorts. Proof. good_s. Qed.
Lemma ctl_longs_good : good_longs ctl_longs. Proof. good_l. Qed.
Lemma ctl_shorts_good : good_shorts ctl_shorts. Proof. good_s. Qed.
Lemma wifid_longs_good : good_longs wifid_longs. Proof. good_l. Qed.
Lemma wifid_shorts_good : good_shorts wifid_shorts. Proof. good_s. Qed.

(** ** The words of autocmd *)
Lemma parts_word w s : ~ In 32 w -> forall cur, parts (w ++ 32 :: s) cur = (cur ++ w) :: parts s [].
Proof.
  induction w as [|c w IH]; intros H cur; cbn [parts app]; [now rewrite app_nil_r|].
  destruct (N.eqb_spec c 32) as [E|E]; [subst; elim H; now left|]. rewrite IH, <- app_assoc; [reflexivity|]. intros I. apply H. now right.
Qed.
Lemma parts_last w : ~ In 32 w -> forall cur, parts w cur = [cur ++ w].
Proof.
  induction w as [|c w IH]; intros H cur; cbn [parts app]; [now rewrite app_nil_r|].
  destruct (N.eqb_spec c 32) as [E|E]; [subst; elim H; now left|]. rewrite IH, <- app_assoc; [reflexivity|]. intros I. apply H. now right.
Qed.
Lemma nonempty_word (w : list byte) : w <> [] -> negb (str_eq w []) = true.
Proof. destruct w; [congruence|reflexivity]. Qed.
Lemma parts_spaced s ws : spaced s ws -> filter (fun w => negb (str_eq w [])) (parts s []) = ws.
Proof.
  induction 1 as [|s ws _ IH|w Nw Bw|w s ws Nw Bw _ IH]; [reflexivity|exact IH| |].
  - rewrite (parts_last w Bw []). cbn [filter app]. now rewrite (nonempty_word w Nw).
  - rewrite (parts_word w s Bw []). cbn [filter app]. rewrite (nonempty_word w Nw). now rewrite IH.
Qed.
Lemma auto_spaced s ws : spaced s ws -> auto_words s = ws.
Proof.
  intros H. pose proof (parts_spaced s ws H) as E. unfold auto_words. destruct s; [|exact E]. cbn [parts filter] in *. exact E.
Qed.
(** Every text has such words. *)
Lemma spaced_total s : exists ws, spaced s ws.
Proof.
  enough (H : forall n s, (List.length s <= n)%nat -> exists ws, spaced s ws) by eauto.
  clear s. induction n as [|n IH]; intros s L.
  - destruct s; [eexists; constructor|cbn [List.length] in L; lia].
  - destruct (in_dec N.eq_dec 32 s) as [I|I].
    + apply in_split in I as (w & r & ->).
      assert (exists w' r', w ++ 32 :: r = w' ++ 32 :: r' /\ ~ In 32 w') as (w' & r' & E & Nw).
      { clear. induction w as [|c w (w' & r' & E & Nw)]; [exists [], r; auto|]. cbn [app]. destruct (N.eq_dec c 32) as [->|Nc].
        - exists [], (w ++ 32 :: r). auto.
        - exists (c :: w'), r'. rewrite E. split; [reflexivity|]. intros [?|?]; auto. }
      rewrite E in L |- *. destruct (IH r') as (ws & S). { rewrite app_length in L. cbn [List.length] in L. lia. }
      destruct w' as [|c w']; [exists ws; now constructor|]. exists ((c :: w') :: ws). apply Sp_word; [discriminate|assumption|assumption].
    + destruct s as [|c s]; [eexists; constructor|]. exists [c :: s]. now apply Sp_last.
Qed.

(** ** Options in order *)
Lemma absent_nil o : absent o [].
Proof. intros v []. Qed.
Lemma last_snoc o es v v' : last_arg o (es ++ [GOpt o v]) v' -> v' = v.
Proof.
  intros (pre & post & E & A). destruct (exists_last (l := GOpt o v' :: post)) as (l & x & El); [discriminate|].
  assert (X : x = GOpt o v). { rewrite El, app_assoc in E. apply app_inj_tail in E as [_ E]. now symmetry. }
  subst x. destruct l as [|y l]; cbn [app] in El; inversion El as [[Ey El']]; [reflexivity|].
  elim (A v). rewrite El'. apply in_or_app. right. now left.
Qed.
Lemma last_other o es e v : (forall w, e <> GOpt o w) -> last_arg o (es ++ [e]) v -> last_arg o es v.
Proof.
  intros N (pre & post & E & A). destruct (exists_last (l := GOpt o v :: post)) as (l & x & El); [discriminate|].
  rewrite El, app_assoc in E. apply app_inj_tail in E as [E Ex]. subst x. destruct l as [|y l]; cbn [app] in El; inversion El as [[Ey El']].
  - elim (N v). congruence.
  - subst y. exists pre, l. split; [exact E|]. intros w I. apply (A w). rewrite El'. apply in_or_app. now left.
Qed.
Lemma absent_snoc o es e : absent o (es ++ [e]) -> absent o es /\ forall w, e <> GOpt o w.
Proof.
  intros A. split; [intros v I; apply (A v); apply in_or_app; now left|]. intros w ->. apply (A w). apply in_or_app. right. now left.
Qed.
Section Decide.
  Context {A : Type} (o : oid) (read : list byte -> A) (d : A).
  Lemma decides_nil : decides o [] read d d.
  Proof. split; [intros v (pre & post & E & _); destruct pre; discriminate|auto]. Qed.
  Lemma decides_hit es x v y : decides o es read d x -> y = read v -> decides o (es ++ [GOpt o v]) read d y.
  Proof.
    intros _ ->. split; [intros v' L; now rewrite (last_snoc _ _ _ _ L)|]. intros N. apply absent_snoc in N as [_ N]. now elim (N v).
  Qed.
  Lemma decides_miss es x e : decides o es read d x -> (forall w, e <> GOpt o w) -> decides o (es ++ [e]) read d x.
  Proof.
    intros [H1 H2] N. split; [intros v L; apply H1; eapply last_other; eauto|]. intros B. apply H2. now apply absent_snoc in B as [B _].
  Qed.
End Decide.
Lemma switch_nil o d : switch o [] d d.
Proof. unfold switch. firstorder. Qed.
Lemma switch_hit o es d x v : switch o es d x -> switch o (es ++ [GOpt o v]) d true.
Proof. intros _. split; [|reflexivity]. intros _. right. exists v. apply in_or_app. right. now left. Qed.
Lemma switch_miss o es d x e : switch o es d x -> (forall w, e <> GOpt o w) -> switch o (es ++ [e]) d x.
Proof.
  unfold switch. intros -> N. split; intros [H|(v & H)]; auto; right.
  - exists v. apply in_or_app. now left.
  - apply in_app_or in H as [H|[H|[]]]; [eauto|]. now elim (N v).
Qed.

Section Rounds.
  Context {A : Type} (f : gev -> A -> res (flow A)) (finish nums : list oid) (inv : list gev -> A -> Prop) (s0 : A) (H0 : inv [] s0).
  Context (Hstep : forall es e s, inv es s -> ~ ending finish e -> ints nums [e] -> exists s', f e s = Ok (Go s') /\ inv (es ++ [e]) s').
  Lemma rounds_app es es' s : rounds f (es ++ es') s = (do x <- rounds f es s; match x with Go s => rounds f es' s | Finish => Ok Finish | Refuse => Ok Refuse end).
  Proof.
    revert s. induction es as [|e es IH]; intros s; [reflexivity|]. cbn [rounds app]. destruct (f e s) as [[s'| |]|]; cbn [bind]; auto.
  Qed.
  Lemma rounds_inv es : (forall e, In e es -> ~ ending finish e) -> ints nums es -> exists s, rounds f es s0 = Ok (Go s) /\ inv es s.
  Proof.
    induction es as [|e es IH] using rev_ind; intros N I; [exists s0; auto|].
    destruct IH as (s & R & V).
    { intros e' I'. apply N. apply in_or_app. now left. }
    { intros o v I1 I2. apply (I o v I1). apply in_or_app. now left. }
    destruct (Hstep es e s V) as (s' & F & V').
    { apply N. apply in_or_app. right. now left. }
    { intros o v I1 [E|[]]. apply (I o v I1). apply in_or_app. right. now left. }
    exists s'. split; [|exact V']. rewrite rounds_app, R. cbn [bind rounds]. now rewrite F.
  Qed.
  Context (Hend : forall e s, ending finish e -> f e s = Ok (match e with GBad => Refuse | _ => Finish end)).
  Lemma rounds_end es e es' : (forall x, In x es -> ~ ending finish x) -> ints nums es -> ending finish e ->
    rounds f (es ++ e :: es') s0 = Ok (match e with GBad => Refuse | _ => Finish end).
  Proof.
    intros N I E. destruct (rounds_inv es N I) as (s & R & _). rewrite rounds_app, R. cbn [bind rounds]. rewrite (Hend e s E). now destruct e.
  Qed.
End Rounds.

Ltac hits := first
  [ apply decides_nil | apply switch_nil
  | eapply decides_hit; [eassumption|reflexivity]
  | eapply switch_hit; eassumption
  | apply decides_miss; [assumption|intros ? ?; discriminate]
  | apply switch_miss; [assumption|intros ? ?; discriminate] ].
Lemma num_ok nums o v : ints nums [GOpt o v] -> In o nums -> exists z, WpasMsg_Model.atoi v = Ok z.
Proof. intros I J. destruct (I o v J) as (z & E); [now left|]. now exists z. Qed.

Lemma sink_step k es e s : sink_rules k es s -> ~ ending sink_finish e -> ints [OPort; OAudio] [e] ->
  exists s', sink_opt e s = Ok (Go s') /\ sink_rules k (es ++ [e]) s'.
Proof.
  intros R Ne I. destruct s as [l j d t g a sc r p u x pl].
  destruct R as (R1 & R2 & R3 & R4 & R5 & R6 & R7 & R8 & R9 & R10 & R11).
  cbn [c_level c_journal c_date c_time c_debug c_audio c_scale c_port c_uibc c_external c_player] in *.
  destruct e as [o v|]; [|elim Ne; exact Logic.I].
  destruct o; cbn [sink_opt];
    try (elim Ne; cbn; tauto);
    try (destruct (num_ok _ _ _ I) as (z & E); [cbn; tauto|]; rewrite E; cbn [bind]; assert (E' : z = num_of v) by (unfold num_of; now rewrite E));
    eexists; (split; [reflexivity|]); unfold sink_rules;
    cbn [c_level c_journal c_date c_time c_debug c_audio c_scale c_port c_uibc c_external c_player];
    refine (conj _ (conj _ (conj _ (conj _ (conj _ (conj _ (conj _ (conj _ (conj _ (conj _ _))))))))));
    try hits; try (eapply decides_hit; [eassumption|exact E']); try (exact R11); try (intros _; discriminate).
Qed.
Lemma sink_ends e s : ending sink_finish e -> sink_opt e s = Ok (match e with GBad => Refuse | _ => Finish end).
Proof.
  destruct s. destruct e as [o v|]; [|reflexivity]. cbn [ending sink_finish In]. intros H. destruct o; cbn [sink_opt]; try reflexivity; exfalso; intuition discriminate.
Qed.
Lemma start_rules k s : sink_conf k start = Ok s -> sink_rules k [] (sink_reset s).
Proof.
  unfold sink_conf, start. intros H.
  destruct (k (text "external-player")) as [x|];
    (destruct (match k (text "rstp-port") with Some v => WpasMsg_Model.atoi v | None => Ok 0%Z end) as [p|]; cbn [bind] in H; [|discriminate]);
    inversion H; subst; unfold sink_rules, sink_reset, given;
    cbn [c_level c_journal c_date c_time c_debug c_audio c_scale c_port c_uibc c_external c_player];
    (repeat split; try (intros ? (? & ? & E & _); destruct x0; discriminate)); try discriminate; try (intros [?|(? & [])]; assumption); auto;
    try (intros v (pre & post & E & _); destruct pre; discriminate); try (intros [D|(? & [])]; discriminate D).
Qed.
Definition auto_line (k : conf) (es : list gev) (ops : list (list byte)) : Prop :=
  match k (text "autocmd") with
  | None => es = [] /\ ops = []
  | Some v => exists ws, spaced v ws /\ line sink_shorts sink_longs ws es ops
  end.
Lemma auto_line_ok k es ops : auto_line k es ops -> line sink_shorts sink_longs (auto k) es ops.
Proof.
  unfold auto_line, auto. destruct (k (text "autocmd")) as [v|]; [|intros [-> ->]; constructor].
  intros (ws & S & L). now rewrite (auto_spaced v ws S).
Qed.
Definition conf_int (k : conf) : Prop := forall v, k (text "rstp-port") = Some v -> exists z, number_of v z.
Lemma sink_conf_ok k : conf_int k -> exists s, sink_conf k start = Ok s.
Proof.
  intros H. unfold sink_conf, start. destruct (k (text "external-player")); destruct (k (text "rstp-port")) as [v|] eqn:E; cbn [bind];
    try (destruct (H v E) as (z & Z); unfold number_of in Z; rewrite Z; cbn [bind]); eauto.
Qed.
Lemma sinkctl_started k argv es ops aes aops :
  line sink_shorts sink_longs argv es ops -> auto_line k aes aops -> conf_int k ->
  (forall e, In e (es ++ aes) -> ~ ending sink_finish e) -> ints [OPort; OAudio] (es ++ aes) ->
  exists s, sinkctl k argv = Ok (Go (s, ops ++ aops)) /\ sink_rules k (es ++ aes) s.
Proof.
  intros L A C N I. destruct (sink_conf_ok k C) as (s0 & E0).
  pose proof (line_app _ _ _ _ _ _ _ _ L (auto_line_ok k aes aops A)) as LL.
  destruct (rounds_inv sink_opt sink_finish [OPort; OAudio] (sink_rules k) (sink_reset s0) (start_rules k s0 E0) (sink_step k) (es ++ aes) N I) as (s & R & V).
  exists s. split; [|exact V]. unfold sinkctl. rewrite E0. cbn [bind].
  rewrite (getopt_line _ _ sink_longs_good sink_shorts_good _ _ _ LL []). rewrite R. reflexivity.
Qed.
Lemma sinkctl_ended k argv es ops aes aops pre e post :
  line sink_shorts sink_longs argv es ops -> auto_line k aes aops -> conf_int k -> es ++ aes = pre ++ e :: post ->
  (forall x, In x pre -> ~ ending sink_finish x) -> ints [OPort; OAudio] pre -> ending sink_finish e ->
  sinkctl k argv = Ok (match e with GBad => Refuse | _ => Finish end).
Proof.
  intros L A C S N I E. destruct (sink_conf_ok k C) as (s0 & E0).
  pose proof (line_app _ _ _ _ _ _ _ _ L (auto_line_ok k aes aops A)) as LL. rewrite S in LL.
  pose proof (rounds_end sink_opt sink_finish [OPort; OAudio] (sink_rules k) (sink_reset s0) (start_rules k s0 E0) (sink_step k) sink_ends pre e post N I E) as R.
  unfold sinkctl. rewrite E0. cbn [bind]. rewrite (getopt_line _ _ sink_longs_good sink_shorts_good _ _ _ LL []). rewrite R. now destruct e.
Qed.

(** ** miracle-wifictl, miracle-wifid *)
Lemma ctl_step k es e s : ctl_rules k es s -> ~ ending ctl_finish e -> ints [] [e] ->
  exists s', ctl_opt e s = Ok (Go s') /\ ctl_rules k (es ++ [e]) s'.
Proof.
  intros R Ne _. destruct s as [l j d t]. destruct R as (R1 & R2 & R3 & R4). cbn [k_level k_journal k_date k_time] in *.
  destruct e as [o v|]; [|elim Ne; exact Logic.I].
  destruct o; cbn [ctl_opt]; try (elim Ne; cbn; tauto); eexists; (split; [reflexivity|]); unfold ctl_rules; cbn [k_level k_journal k_date k_time];
    refine (conj _ (conj _ (conj _ _))); hits.
Qed.
Lemma ctl_started k argv es ops : line ctl_shorts ctl_longs argv es ops -> (forall e, In e es -> ~ ending ctl_finish e) ->
  exists s, wifictl k argv = Ok (Go (s, ops)) /\ ctl_rules k es s.
Proof.
  intros L N.
  destruct (rounds_inv ctl_opt ctl_finish [] (ctl_rules k) (mkC (given k "log-level" level NOTICE) (given k "log-journal-level" level NOTICE) false false)) with (es := es) as (s & R & V).
  - refine (conj _ (conj _ (conj _ _))); hits.
  - apply ctl_step.
  - exact N.
  - intros o v [].
  - exists s. split; [|exact V]. unfold wifictl. rewrite (getopt_line _ _ ctl_longs_good ctl_shorts_good _ _ _ L []).
    unfold given in R. rewrite R. reflexivity.
Qed.
Lemma wifid_step k es e s : wifid_rules k es s -> ~ ending wifid_finish e -> ints [OIntent] [e] ->
  exists s', wifid_opt e s = Ok (Go s') /\ wifid_rules k (es ++ [e]) s'.
Proof.
  intros R Ne I. destruct s as [l d t i m w g dp sy dev lz ip].
  destruct R as (R1 & R2 & R3 & R4 & R5 & R6 & R7 & R8 & R9 & R10 & R11 & R12).
  cbn [w_level w_date w_time w_interface w_methods w_wpa w_intent w_driver w_syslog w_dev w_lazy w_ip] in *.
  destruct e as [o v|]; [|elim Ne; exact Logic.I].
  destruct o; cbn [wifid_opt];
    try (elim Ne; cbn; tauto);
    try (destruct (num_ok _ _ _ I) as (z & E); [cbn; tauto|]; rewrite E; cbn [bind]; assert (E' : u32_of z = u32_of (num_of v)) by (unfold num_of; now rewrite E));
    eexists; (split; [reflexivity|]); unfold wifid_rules;
    cbn [w_level w_date w_time w_interface w_methods w_wpa w_intent w_driver w_syslog w_dev w_lazy w_ip];
    refine (conj _ (conj _ (conj _ (conj _ (conj _ (conj _ (conj _ (conj _ (conj _ (conj _ (conj _ _)))))))))));
    try hits; try (eapply decides_hit; [eassumption|exact E']).
Qed.
Lemma wifid_start_rules file k : (file = false -> forall key, k key = None) -> wifid_rules k [] (wifid_conf file k wifid_start).
Proof.
  intros H. unfold wifid_conf, wifid_start. destruct file; cbn [negb].
  - refine (conj _ (conj _ (conj _ (conj _ (conj _ (conj _ (conj _ (conj _ (conj _ (conj _ (conj _ _))))))))))); hits.
  - specialize (H eq_refl). unfold wifid_rules, given, conf_bool, conf_u64. rewrite !H.
    refine (conj _ (conj _ (conj _ (conj _ (conj _ (conj _ (conj _ (conj _ (conj _ (conj _ (conj _ _))))))))))); hits.
Qed.
Lemma wifid_ends e s : ending wifid_finish e -> wifid_opt e s = Ok (match e with GBad => Refuse | _ => Finish end).
Proof.
  destruct s. destruct e as [o v|]; [|reflexivity]. cbn [ending wifid_finish In]. intros H. destruct o; cbn [wifid_opt]; try reflexivity; exfalso; intuition discriminate.
Qed.
Lemma wifid_started file k argv es ops : (file = false -> forall key, k key = None) -> line wifid_shorts wifid_longs argv es ops ->
  (forall e, In e es -> ~ ending wifid_finish e) -> ints [OIntent] es ->
  (ops = [] -> exists s, wifid file k argv = Ok (Go s) /\ wifid_rules k es s) /\ (ops <> [] -> wifid file k argv = Ok Refuse).
Proof.
  intros H L N I.
  destruct (rounds_inv wifid_opt wifid_finish [OIntent] (wifid_rules k) _ (wifid_start_rules file k H) (wifid_step k) es N I) as (s & R & V).
  unfold wifid. rewrite (getopt_line _ _ wifid_longs_good wifid_shorts_good _ _ _ L []). rewrite R. cbn [bind app].
  split; [intros ->; eauto|]. intros Ho. now destruct ops.
Qed.
Lemma wifid_ended file k argv es ops pre e post : (file = false -> forall key, k key = None) -> line wifid_shorts wifid_longs argv es ops ->
  es = pre ++ e :: post -> (forall x, In x pre -> ~ ending wifid_finish x) -> ints [OIntent] pre -> ending wifid_finish e ->
  wifid file k argv = Ok (match e with GBad => Refuse | _ => Finish end).
Proof.
  intros H L S N I E. subst es. unfold wifid. rewrite (getopt_line _ _ wifid_longs_good wifid_shorts_good _ _ _ L []).
  rewrite (rounds_end wifid_opt wifid_finish [OIntent] (wifid_rules k) _ (wifid_start_rules file k H) (wifid_step k) wifid_ends pre e post N I E). now destruct e.
Qed.

(** ** Log levels *)
Lemma case_lowered w n : case_eq w n = true <-> map lower w = map lower n.
Proof.
  revert n. induction w as [|c w IH]; intros [|d n]; cbn [case_eq map]; split; intros H; try discriminate; try reflexivity.
  - apply andb_true_iff in H as [H1 H2]. apply N.eqb_eq in H1. apply IH in H2. congruence.
  - inversion H as [[H1 H2]]. apply andb_true_iff. split; [now apply N.eqb_eq|now apply IH].
Qed.
Lemma level_name n name w : nth_error level_names (N.to_nat n) = Some name -> map lower w = name -> log_parse_arg w = (n, false).
Proof.
  intros H E. unfold log_parse_arg.
  assert (L : level_of levels w = Some n); [|now rewrite L].
  assert (F : forall m, case_eq w m = case_eq name m).
  { intros m. destruct (case_eq name m) eqn:C.
    - apply case_lowered in C. apply case_lowered. rewrite E, <- C. clear -H. unfold level_names in H. cbn [map] in H.
      destruct (N.to_nat n) as [|[|[|[|[|[|[|[|[|?]]]]]]]]]; cbn [nth_error] in H; inversion H; reflexivity || idtac.
      now destruct n0.
    - destruct (case_eq w m) eqn:C'; [|reflexivity]. apply case_lowered in C'. rewrite <- C. symmetry. apply case_lowered. rewrite <- C', E.
      clear -H. unfold level_names in H. cbn [map] in H.
      destruct (N.to_nat n) as [|[|[|[|[|[|[|[|[|?]]]]]]]]]; cbn [nth_error] in H; inversion H; reflexivity || idtac.
      now destruct n0. }
  unfold level_of, levels. rewrite !F. clear F E w. unfold level_names in H. cbn [map] in H.
  destruct (N.to_nat n) as [|[|[|[|[|[|[|[|[|?]]]]]]]]] eqn:En; cbn [nth_error] in H; inversion H; subst; clear H;
    try (assert (n = N.of_nat (N.to_nat n)) as -> by lia; rewrite En; reflexivity).
  now destruct n0.
Qed.
Lemma digit_dec c : 48 <= c <= 57 -> digit_of 10 c = Some (c - 48).
Proof.
  intros H. unfold digit_of, hex_of, is_dec. replace ((48 <=? c) && (c <=? 57)) with true by (symmetry; lia).
  replace (c - 48 <? 10) with true by (symmetry; lia). reflexivity.
Qed.
