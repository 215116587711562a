(** What a DHCPv6 client sends: counterexamples and examples. *)
From Coq Require Import ZArith Permutation.
From Verif Require Import Base Dhcp6_Spec Dhcp6Send_Model Dhcp6Send_Spec Dhcp6Send_Proofs Dhcp6Send_Opts Dhcp6Send_Msg Dhcp6Send_Run.
Local Open Scope N_scope.

Definition mac1 : list byte := [2; 0; 10; 20; 30; 40].
Definition iaid1 : N := 169090600.
Definition a1 : list byte := [32; 1; 13; 184; 0; 0; 0; 0; 0; 0; 0; 0; 0; 0; 0; 1].
Definition a2 : list byte := [32; 1; 13; 184; 0; 0; 0; 0; 0; 0; 0; 0; 0; 0; 0; 2].
Definition duid1 : list byte := [0; 3; 0; 1; 2; 0; 10; 20; 30; 40].
Lemma mac1_ok : is_mac mac1.
Proof. split; [reflexivity|]. repeat (apply Forall_cons || apply Forall_nil); unfold is_byte; lia. Qed.
Lemma a1_ok : address a1.
Proof. split; [reflexivity|]. repeat (apply Forall_cons || apply Forall_nil); unfold is_byte; lia. Qed.
Lemma a2_ok : address a2.
Proof. split; [reflexivity|]. repeat (apply Forall_cons || apply Forall_nil); unfold is_byte; lia. Qed.
Lemma fresh_inv : inv fresh.
Proof.
  split; [|exists []; repeat split; constructor]. unfold sane, uint32, address. cbn [fresh c_iaid c_na c_requests c_duid c_server c_xid]. repeat split; try lia; try constructor.
  - unfold is_byte. lia. - apply Forall_forall. intros x Hx. repeat destruct Hx as [<- | Hx]; unfold is_byte; try lia. destruct Hx.
Qed.
Lemma id_order : forall l : list (list byte), Permutation ((fun x => x) l) l.
Proof. intros. apply Permutation_refl. Qed.
(** Options are lost or zero. *)
Lemma times_lost : exists t1 t2 c', t1 <> 0 /\ t2 <> 0 /\ set_ia (Some mac1) 3 (Some t1) (Some t2) false None fresh = Ret (c', 0) /\ exists i, c_sends c' = [stored (mkOpt 3 (ia_data 3 i 0 0 []))].
Proof. exists 100, 200. eexists. split; [discriminate|]. split; [discriminate|]. split; [vm_compute; reflexivity|]. exists 169090600. vm_compute. reflexivity. Qed.
Lemma list_cut : exists c', set_ias (Some mac1) 3 None None [Some a1; None; Some a2] fresh = Ret (c', 0)
  /\ c_sends c' = [stored (mkOpt 3 (ia_data 3 iaid1 0 0 (SAddr a1 0 0 [] :: repeat (SOther 0 []) 14)))].
Proof. eexists. split; vm_compute; reflexivity. Qed.
Lemma len_rep A (x : A) n : lenN (repeat x (N.to_nat n)) = n.
Proof. unfold lenN. rewrite repeat_length. apply N2Nat.id. Qed.
Lemma fresh_tidy : tidy fresh [].
Proof. split; [reflexivity|]. split; constructor. Qed.
Lemma all_some l : Forall address l -> all_addresses (map Some l).
Proof. unfold all_addresses. intros H. induction H; cbn [map]; constructor; auto. Qed.
Lemma many_cut : exists l c', lenN l = 2341 /\ Forall address l /\ set_ias (Some mac1) 3 None None (map Some l) fresh = Ret (c', 0) /\ exists d, c_sends c' = [stored (mkOpt 3 d)] /\ lenN d = 24.
Proof.
  pose proof (len_rep _ a1 2341) as L. set (l := repeat a1 (N.to_nat 2341)) in *.
  assert (HA : Forall address l) by (apply Forall_forall; intros x Hx; apply repeat_spec in Hx; subst; apply a1_ok). clearbody l.
  assert (LM : lenN (map Some l) = 2341) by (rewrite <- L; unfold lenN; now rewrite map_length).
  destruct (set_ias_spec mac1 3 None None (map Some l) fresh [] mac1_ok) as (c' & i & E & _ & _ & EC & _).
  - cbn. unfold uint32. lia. - auto. - now apply all_some. - intros X. rewrite X in LM. discriminate. - rewrite LM. lia. - apply fresh_tidy.
  - exists l, c'. split; [exact L|]. split; [exact HA|]. split; [exact E|]. rewrite EC. eexists. split; [reflexivity|].
    pose proof (ias_len 3 i None None (map Some l) (all_some l HA) (or_introl eq_refl)) as IL. change (if 3 =? 4 then 4 else 12) with 12 in IL. rewrite LM in IL. rewrite lenN_takeN, IL. reflexivity.
Qed.
Definition iaid_at (code : N) (c : client) : option (list byte) := match find (fun x => fst x =? code) (c_sends c) with Some (_, o) => Some (takeN 4 (dropN 4 o)) | None => None end.
Lemma pd_first : exists c1 c2, set_pd None None [(64, a1)] fresh = Ret (c1, 0) /\ set_ia (Some mac1) 3 None None false None c1 = Ret (c2, 0) /\ iaid_at 25 c2 = Some (be32 0) /\ iaid_at 3 c2 = Some (be32 iaid1).
Proof. do 2 eexists. repeat split; vm_compute; reflexivity. Qed.
Lemma oro_none : forall c, set_oro [] c = Ret (c, ENOMEM).
Proof. reflexivity. Qed.
Lemma oro_wraps : exists l c', lenN l = 32768 /\ Forall (fun x => x < 65536) l /\ set_oro l fresh = Ret (c', 0) /\ c_sends c' = [stored (mkOpt 6 [])].
Proof.
  pose proof (len_rep _ 23 32768) as L. set (l := repeat 23 (N.to_nat 32768)) in *.
  assert (HA : Forall (fun x => x < 65536) l) by (apply Forall_forall; intros x Hx; apply repeat_spec in Hx; subst; lia). clearbody l. destruct (concat_put16 l) as [LC B].
  assert (HN : exists x r, l = x :: r) by (destruct l as [|x r]; [discriminate|eauto]). destruct HN as (x & r & EL).
  destruct (set_send_cut 6 (concat (map put16 l)) fresh [] (2 * lenN l) fresh_tidy) as (c' & E & EC & _); [lia|exact B|symmetry; exact LC|].
  exists l, c'. split; [exact L|]. split; [exact HA|]. split.
  - unfold set_oro. rewrite EL at 1. rewrite L in *. change (2147483648 <=? 2 * 32768) with false. cbv iota. rewrite E. reflexivity.
  - rewrite EC, LC, L. change (2 * 32768 mod 65536) with 0. reflexivity.
Qed.
(** Messages without what was asked for. *)
Definition one_send : list call := [Send 1 66051 (5%Z, 0%Z); SetRequest 1; Send 1 66052 (6%Z, 0%Z)].
Lemma no_duid : Forall call_ok one_send /\ exists c', calls (fun l => l) one_send fresh = Ret (c', [message 1 [1; 2; 3] [mkOpt 8 [0; 0]]; message 1 [1; 2; 4] []]) /\ In 8 (c_requests c').
Proof. split; [repeat (apply Forall_cons || apply Forall_nil); cbn; lia|]. eexists. split; [vm_compute; reflexivity|]. vm_compute. auto. Qed.
Definition long_opt : option6 := mkOpt 6 (repeat 0 (N.to_nat 1484)).
Definition long_client : client := with_sends [stored long_opt] fresh.
Lemma left_out : exists c', send_msg 1 66051 (0%Z, 0%Z) (fun l => l) long_client = Ret (c', message 1 [1; 2; 3] [mkOpt 8 [0; 0]]) /\ lenN (message 1 [1; 2; 3] [mkOpt 8 [0; 0]; long_opt]) = 1498.
Proof. eexists. split; vm_compute; reflexivity. Qed.
(** Times. *)
Definition late : client := mkClient 0 (repeat 0 16) [8] [] None None true 66051 (0%Z, 0%Z).
Lemma time_wraps : exists c', send_msg 1 7 (42949673%Z, 0%Z) (fun l => l) late = Ret (c', message 1 [1; 2; 3] [mkOpt 8 (be16 4)]).
Proof. eexists. vm_compute. reflexivity. Qed.
Lemma time_told_ex : exists c', send_msg 1 7 (12%Z, 345678%Z) (fun l => l) late = Ret (c', message 1 [1; 2; 3] [mkOpt 8 (be16 1234)]).
Proof. eexists. vm_compute. reflexivity. Qed.
(** Messages that are whole. *)
Definition busy : list call := [SetRequest 1; SetOro [23; 24]; SetIa mac1 3 (Some 10) (Some 20) true (Some (Some a1)); SetPd None None [(56, a2)]; Send 3 66051 (7%Z, 0%Z); Again true; Send 3 99 (8%Z, 500000%Z)].
Definition duid_client : client := mkClient 0 (repeat 0 16) [] [] (Some duid1) None false 0 (0%Z, 0%Z).
Lemma busy_ok : Forall call_ok busy.
Proof.
  pose proof mac1_ok. pose proof a1_ok. pose proof a2_ok. repeat (apply Forall_cons || apply Forall_nil); cbn [call_ok uint32_if]; unfold uint32; try lia; auto.
  all: repeat split; auto; try lia; try apply H; try apply H0. all: constructor; [exact H1|constructor].
Qed.
Lemma busy_sends : exists c', calls (fun l => l) busy duid_client = Ret (c', [message 3 [1; 2; 3] [mkOpt 8 [0; 0]; mkOpt 1 duid1; mkOpt 25 (ia_data 25 iaid1 0 0 [SPrefix 0 0 56 a2 []]); mkOpt 3 (ia_data 3 iaid1 10 20 [SAddr a1 0 0 []]); mkOpt 6 [0; 23; 0; 24]];
  message 3 [1; 2; 3] [mkOpt 8 (be16 150); mkOpt 1 duid1; mkOpt 25 (ia_data 25 iaid1 0 0 [SPrefix 0 0 56 a2 []]); mkOpt 3 (ia_data 3 iaid1 10 20 [SAddr a1 0 0 []]); mkOpt 6 [0; 23; 0; 24]]]).
Proof. eexists. vm_compute. reflexivity. Qed.
(** Identifiers. *)
Lemma duid_cut : create_duid 3 801 0 (Some mac1) = Ret (0, Some (be16 3 ++ be16 33 ++ mac1)).
Proof. reflexivity. Qed.
Lemma duid_type_unknown : create_duid 4 1 0 (Some mac1) = Ret (0, None).
Proof. reflexivity. Qed.
Lemma duid_no_mac : create_duid 3 1 0 None = Undef /\ set_ia None 3 None None false None fresh = Undef.
Proof. split; reflexivity. Qed.
Lemma two_callbacks : let set := (fun k => match k with Confirm | Renew => true | _ => false end) in start set = Some Confirm /\ tells set = Some Renew.
Proof. split; reflexivity. Qed.
