(** Commands that do not do what they say. *)
From Coq Require Import String ZArith.
From Verif Require Import Base Text Mirror_Model Mirror_Spec Mirror_Client Mirror_Proofs Mirror_More Cli_Model Cli_Spec Cli_Search Cli_Proofs Cli_Means Cli_More Cli_Comp.
Local Open Scope list_scope.

(** ** The start *)
Lemma fetch_good os : forall c c', good c -> Forall (fun x => event_ok (Heard (Added (fst x) (snd x)))) os -> fetch c os = Some c' -> good c'.
Proof.
  induction os as [|[p ps] os IH]; intros c c' G H E; cbn [fetch] in E; [injection E as <-; exact G|]. inversion H as [|? ? Ha Hb]; subst. cbn [fst snd] in Ha.
  assert (G1 : good (fst (hear c (Added p ps)))). { pose proof (hear_heard c (Added p ps) G Ha) as K. revert K. cbn [hear]. destruct (add_object c p ps) as [[c1 ns] b] eqn:E1.
    intros K. inversion K; subst; cbn [fst]; auto. destruct G as [G1 G2]. split; [apply Forall_forall; intros x Hx; apply filter_In in Hx; rewrite Forall_forall in G1; apply G1; tauto|apply nodup_filter; exact G2]. }
  cbn [hear] in G1. destruct (add_object c p ps) as [[c1 ns] b]. cbn [fst] in G1. destruct b; [|discriminate]. eapply IH; eauto.
Qed.
Lemma objects_ok d : Forall (fun x => event_ok (Heard (Added (fst x) (snd x)))) (objects d).
Proof.
  unfold objects. apply Forall_app. split; [|repeat constructor]. induction d as [|l d IH]; cbn [flat_map]; [constructor|]. apply Forall_app. split; [|exact IH]. constructor.
  - cbn [fst snd event_ok link_props]. split; [apply Text_Proofs.dec_nonnil|]. split; eexists; cbn [In]; [right; right; left; reflexivity|do 5 right; left; reflexivity].
  - induction (dl_peers l) as [|p ps IHp]; cbn [flat_map]; [constructor|]. apply Forall_app. split; [|exact IHp]. destruct (dp_public p); repeat constructor.
Qed.
Theorem starts_ok ops : Forall good_op ops -> exists c, fetch [] (objects (daemon_after ops)) = Some c /\ ok (mkSt c None None []).
Proof.
  intros H. destruct (always ops [] H (Forall_nil _)) as [c [E _]]. exists c. split; [exact E|].
  assert (G : good c). { eapply fetch_good; [|apply objects_ok|exact E]. split; constructor. }
  destruct G as [A B]. split; [exact A|split; [exact B|intros t X; discriminate X]].
Qed.

(** ** A state *)
Definition yes (_ : call) : Z := 0%Z.
Definition p1 : cpeer := mkCPeer (text "02:00:00:00:01:0a@3") (Some (text "02:00:00:00:01:0a")) (Some (text "phone")) true (Some (text "p2p0")) (Some []) (Some []) (Some []).
Definition p2 : cpeer := mkCPeer (text "02:00:00:00:01:0b@3") (Some (text "02:00:00:00:01:0b")) (Some (text "desk")) false (Some []) (Some []) (Some []) (Some []).
Definition l3 (managed : bool) : clink := mkCLink (text "3") 3 (Some (text "wlan0")) (Some (text "my desk")) managed false (Some []) [p1].
Definition l4 : clink := mkCLink (text "4") 4 (Some (text "wlan1")) (Some []) true false (Some []) [].
Definition s1 (managed : bool) : st := mkSt [l3 managed; l4] None None [].
Lemma s1_ok m : ok (s1 m).
Proof.
  split; [|split].
  - cbn [s1 links]. repeat constructor; cbn; discriminate.
  - cbn. repeat constructor; cbn; intros H; repeat destruct H as [H|H]; try discriminate H; destruct H.
  - cbn. discriminate.
Qed.
Lemma s1_few m : few (links (s1 m)). Proof. unfold few. destruct m; vm_compute; discriminate. Qed.
Definition meaningless (s : st) (pr : program) (words : list (list byte)) : Prop := forall cs c', ~ means s pr words cs c'.
Ltac other := first [discriminate | match goal with H : _ = _ \/ _ = _ |- _ => destruct H as [H|H]; rewrite H in *; discriminate end].
Lemma off_means m pr a : meaningless (s1 m) pr [text "set-managed"; a; text "off"].
Proof.
  intros cs c' M. remember [text "set-managed"; a; text "off"] as ws eqn:E. destruct M; try discriminate E; try (injection E; intros; subst; cbn in *; discriminate).
  injection E; intros; subst. match goal with T : truth _ _ |- _ => destruct T as [[T _]|[T _]]; discriminate T end.
Qed.
Theorem managed_odd : exists ans pr prompt words s r o s', ok s /\ few (links s) /\ cli_do ans pr prompt words s = Ok (r, o, s')
  /\ words = [text "set-managed"; text "wlan0"; text "off"] /\ calls o = [AskManaged (text "3") true] /\ meaningless s pr words.
Proof.
  exists yes, Wifi, true, [text "set-managed"; text "wlan0"; text "off"], (s1 false). eexists _, _, _. split; [apply s1_ok|]. split; [apply s1_few|]. split; [vm_compute; reflexivity|]. split; [reflexivity|]. split; [reflexivity|]. apply off_means.
Qed.
Theorem connect_odd : exists ans pr prompt words s r o s', ok s /\ few (links s) /\ cli_do ans pr prompt words s = Ok (r, o, s')
  /\ words = [text "connect"; text "phone"; text "psb"; text "123"] /\ calls o = [AskConnect (text "02:00:00:00:01:0a@3") (text "psb") (text "123")] /\ meaningless s pr words.
Proof.
  exists yes, Wifi, true, [text "connect"; text "phone"; text "psb"; text "123"], (s1 true). eexists _, _, _. split; [apply s1_ok|]. split; [apply s1_few|]. split; [vm_compute; reflexivity|]. split; [reflexivity|]. split; [reflexivity|].
  intros cs c' M. remember [text "connect"; text "phone"; text "psb"; text "123"] as ws eqn:E. destruct M; try discriminate E; try (injection E; intros; subst; cbn in *; discriminate).
  injection E; intros; subst. match goal with T : method _ |- _ => repeat destruct T as [T|T]; try discriminate T; destruct T end.
Qed.
Theorem scan_odd : exists ans pr prompt words s r o s', ok s /\ few (links s) /\ cli_do ans pr prompt words s = Ok (r, o, s')
  /\ words = [text "p2p-scan"; text "wlan0"; text "wlan1"] /\ calls o = [AskScan (text "4") true] /\ meaningless s pr words.
Proof.
  exists yes, Wifi, true, [text "p2p-scan"; text "wlan0"; text "wlan1"], (s1 true). eexists _, _, _. split; [apply s1_ok|]. split; [apply s1_few|]. split; [vm_compute; reflexivity|]. split; [reflexivity|]. split; [reflexivity|].
  intros cs c' M. remember [text "p2p-scan"; text "wlan0"; text "wlan1"] as ws eqn:E. destruct M; try discriminate E; try (injection E; intros; subst; cbn in *; discriminate).
  injection E; intros; subst. match goal with T : scan_usage _ _ _ _ |- _ => remember [text "wlan0"; text "wlan1"] as args eqn:Ea; destruct T; discriminate Ea end.
Qed.
(** Nothing before the @: the first peer of the link. *)
Lemma nobody i x k : In (l3 true, x) [(l3 true, p1)] -> ~ peer_fit [] (i, (l3 true, x)) k.
Proof.
  intros [E|[]] F. injection E as <-. inversion F; subst.
  - discriminate.
  - match goal with H : cp_name _ = Some _ |- _ => injection H as <- end. match goal with H : alike _ _ |- _ => discriminate H end.
  - match goal with H : cp_iface _ = Some _ |- _ => injection H as <- end. match goal with H : alike _ _ |- _ => discriminate H end.
  - match goal with H : number _ _ |- _ => destruct H as [vs [H _]]; apply H; reflexivity end.
Qed.
Theorem bare_at : exists c t x, few c /\ search_peer c t = Some x /\ t = text "@wlan0" /\ (forall y, ~ peer_named c t y)
  /\ exists ans s r o s', ok s /\ links s = c /\ cli_do ans Wifi true [text "disconnect"; t] s = Ok (r, o, s') /\ calls o = [AskDisconnect (cp_label (snd x))].
Proof.
  exists (links (s1 true)), (text "@wlan0"), (l3 true, p1). split; [apply s1_few|]. split; [vm_compute; reflexivity|]. split; [reflexivity|]. split.
  - intros [l p] [_ [H|[_ [H|[_ H]]]]].
    + destruct H as [name [rest [[E Hn] [_ [[b [a [E1 [A1 _]]]] [b2 [a2 [E2 [A2 _]]]]]]]]]. cbn [fst snd] in *.
      assert (Hl : In l (links (s1 true))) by (rewrite E1; apply in_elt). destruct Hl as [<-|[<-|[]]]; cbn [cl_peers l3 l4] in E2; [|destruct b2; discriminate].
      assert (Hp : In p [p1]) by (rewrite E2; apply in_elt). destruct Hp as [<-|[]]. discriminate A2.
    + destruct H as [name [rest [l' [[E Hn] [[_ L] [i P]]]]]]. destruct name as [|x name]; [|injection E as <- E; destruct Hn; left; reflexivity].
      destruct P as [b [a [k [E1 [F _]]]]]. assert (Hp : In (i, (l, p)) (places 0 (map (pair l') (cl_peers l')))) by (rewrite E1; apply in_elt).
      destruct L as [bl [al [kl [El _]]]]. assert (Hl : In l' (links (s1 true))) by (rewrite El; apply in_elt). destruct Hl as [<-|[<-|[]]]; [|destruct Hp]. destruct Hp as [Hp|[]]. injection Hp as <- <- <-.
      apply (nobody 0 p1 k); [left; reflexivity|exact F].
    + destruct H as [i [b [a [k [E1 [F _]]]]]]. assert (Hp : In (i, (l, p)) (places 0 (all_peers (links (s1 true))))) by (rewrite E1; apply in_elt). destruct Hp as [Hp|[]]. injection Hp as <- <- <-.
      inversion F; subst.
      * discriminate.
      * match goal with H : cp_name _ = Some _ |- _ => injection H as <- end. match goal with H : alike _ _ |- _ => discriminate H end.
      * match goal with H : cp_iface _ = Some _ |- _ => injection H as <- end. match goal with H : alike _ _ |- _ => discriminate H end.
      * match goal with H : number _ _ |- _ => destruct H as [vs [_ [H _]]]; change (text "@wlan0") with (64 :: text "wlan0") in H; inversion H as [|? v ? ? D] end. inversion D; lia.
  - exists yes, (s1 true). eexists _, _, _. split; [apply s1_ok|]. split; [reflexivity|]. split; [vm_compute; reflexivity|reflexivity].
Qed.
(** A link that is bound and appears: it is not managed yet. *)
Theorem bound_unmanaged : exists ans s t g o s' l, ok s /\ bound s = Some t /\ cur s = None /\ event_ok (Heard g) /\ react ans Sink (Heard g) s = Ok (o, s')
  /\ In l (links s') /\ cl_managed l = false /\ calls o = [AskWfd (cl_label l) sink_wfd; AskScan (cl_label l) true] /\ cur s' = Some (cl_label l)
  /\ (forall a o2 s2, cli_do ans Sink true [text "run"; a] s' = Ok (0%Z, o2, s2) -> calls o2 = []).
Proof.
  exists (fun c => match c with AskWfd _ _ | AskScan _ _ => (-22)%Z | _ => 0%Z end), (mkSt [] None (Some (text "wlan0")) []), (text "wlan0"),
    (Added (LinkPath (text "3")) [Index 3; IfName (text "wlan0"); Name []; Managed false; Scanning false; Wfd []]).
  eexists _, _, (mkCLink (text "3") 3 (Some (text "wlan0")) (Some []) false false (Some []) []).
  split; [split; [constructor|split; [constructor|discriminate]]|]. split; [reflexivity|]. split; [reflexivity|].
  split; [cbn; split; [discriminate|]; split; eexists; [right; right; left; reflexivity|do 5 right; left; reflexivity]|].
  split; [vm_compute; reflexivity|]. split; [left; reflexivity|]. split; [reflexivity|]. split; [vm_compute; reflexivity|]. split; [reflexivity|].
  intros a o2 s2 E. cbv in E. injection E as <- <-. reflexivity.
Qed.
(** A scan that was asked for and is not yet known to run is not stopped. *)
Theorem scan_left : exists ans es s o s', ok s /\ Forall event_ok es /\ session ans Wifi es s = Ok (o, s') /\ (forall c, ans c = 0%Z)
  /\ In (AskScan (text "3") true) (calls o) /\ ~ In (AskScan (text "3") false) (calls o) /\ In (text "3") (scans s') /\ In Leave o.
Proof.
  exists yes, [Typed (text "p2p-scan wlan0"); Typed (text "quit")], (s1 true). eexists _, _. split; [apply s1_ok|]. split; [repeat constructor|]. split; [vm_compute; reflexivity|]. split; [reflexivity|].
  vm_compute. repeat split; auto 10. intros [H|[]]. discriminate H.
Qed.
(** Commands of the sink. *)
Theorem runs_managed ans prompt words s r o s' t : ok s -> few (links s) -> ~ odd words -> cli_do ans Sink prompt words s = Ok (r, o, s') ->
  In (AskScan t true) (calls o) \/ cur s' = Some t /\ cur s <> Some t -> exists l, In l (links s) /\ cl_label l = t /\ cl_managed l = true.
Proof.
  intros Hok Hf Ho E H. assert (A : calls o <> [] \/ cur s' <> cur s) by (destruct H as [H|[H K]]; [left; intros X; rewrite X in H; destruct H|right; congruence]).
  pose proof (nothing_else ans Sink prompt words s r o s' Hok Hf Ho E A) as M. revert H. clear A. revert M. generalize (calls o) (cur s'). intros cs c' M H.
  assert (C : forall a c cs, change a c cs -> In (AskScan t true) cs -> c = AskScan t true) by (intros a c cs0 [[_ ->]|[_ ->]] K; [destruct K|destruct K as [K|[]]; assumption]).
  remember Sink as pr eqn:Epr. destruct M; try discriminate Epr; try (destruct H as [H|[H K]]; [|exfalso; congruence]; first [destruct H; fail|match goal with X : change _ _ _ |- _ => specialize (C _ _ _ X H); discriminate C end]).
  exists l. pose proof H2 as L. apply search_link_spec in L. apply search_link_in in L. split; [exact L|]. split; [|assumption]. destruct H as [H|[H _]]; [|congruence].
  apply in_app_or in H. destruct H as [H|H]; match goal with X : change _ (AskWfd _ _) _, Y : change _ (AskScan _ _) _ |- _ => first [specialize (C _ _ _ X H); discriminate C|specialize (C _ _ _ Y H); congruence] end.
Qed.
(** Four words. *)
Theorem past_end : exists pr start line, typed 4 line /\ completion pr start line = UB.
Proof.
  exists Wifi, 23, (text "connect phone auto 123 "). split; [|vm_compute; reflexivity].
  apply (Typed_word 3 (text "connect") (text "phone auto 123 ")); [discriminate|vm_compute; intuition discriminate|]. apply Typed_blank.
  apply (Typed_word 2 (text "phone") (text "auto 123 ")); [discriminate|vm_compute; intuition discriminate|]. apply Typed_blank.
  apply (Typed_word 1 (text "auto") (text "123 ")); [discriminate|vm_compute; intuition discriminate|]. apply Typed_blank.
  apply (Typed_word 0 (text "123") (text "")); [discriminate|vm_compute; intuition discriminate|]. apply Typed_blank. apply Typed_last. intros [].
Qed.
