(** Counterexamples and examples for miracle-dhcp. *)
From Coq Require Import String.
From Verif Require Import Base Text Settings_Model Settings_Spec DhcpMain_Model DhcpMain_Spec.
From Verif Require Comm_Model DhcpClient_Model DhcpClient_Spec DhcpClient_Proofs DhcpServer_Model DhcpServer_Spec Groups_Model.
Local Open Scope list_scope.

Definition fine : env := mkEnv true 0 0 0 0 true true.
Definition any (_ : option (list byte)) : bool := true.
(** One link after the other starts a group of its own. *)
Definition first_group : list Groups_Model.event := [Groups_Model.GroupStarted 99 true 7 true 1000 true].
Lemma same_net : exists s g argv argv' f f',
  Groups_Model.run Groups_Model.init first_group = Ret s /\ Groups_Model.s_groups s = [g] /\ Groups_Model.g_go g = true
  /\ server_argv (text "p2p-wlan0-0") (Groups_Model.g_subnet g) 5 9 None = Ok argv /\ server_argv (text "p2p-wlan1-0") (Groups_Model.g_subnet g) 5 10 None = Ok argv'
  /\ parse_argv any argv = Ok (Go f) /\ parse_argv any argv' = Ok (Go f')
  /\ f_netdev f <> f_netdev f' /\ f_serve f = f_serve f' /\ f_serve f <> None.
Proof.
  eexists. eexists. eexists. eexists. eexists. eexists. split; [reflexivity|]. split; [reflexivity|]. split; [reflexivity|].
  split; [vm_compute; reflexivity|]. split; [vm_compute; reflexivity|]. split; [vm_compute; reflexivity|]. split; [vm_compute; reflexivity|].
  split; [discriminate|]. split; [reflexivity|discriminate].
Qed.
(** A lease of 40 seconds runs out; 25 seconds later the address is still set. *)
Definition client_cfg : config := mkCfg (text "p2p0") None 9 5 None.
Definition given_lease (_ : N) : Comm_Model.lease := Comm_Model.mkLease (Some (text "192.168.50.100")) [text "255.255.255.0"] [] [text "192.168.50.1"].
Definition runs_out : list DhcpClient_Model.op := DhcpClient_Proofs.lease_for 40 ++ [DhcpClient_Model.OWait 40000; DhcpClient_Model.OFire 5 0; DhcpClient_Model.OWait 25000].
Lemma stays : exists c o, DhcpClient_Model.run 9 (DhcpClient_Proofs.plain runs_out) DhcpClient_Model.fresh_client = Ret c
  /\ DhcpClient_Spec.deadline (DhcpClient_Model.log c) = None /\ DhcpClient_Model.now c = 65000
  /\ In (40000, DhcpClient_Model.Lost) (DhcpClient_Model.log c)
  /\ run fine client_cfg (heard given_lease (DhcpClient_Model.log c)) = (o, None) /\ holds [] o = [text "192.168.50.100/255.255.255.0"].
Proof.
  eexists. eexists. split; [vm_compute; reflexivity|]. split; [vm_compute; reflexivity|]. split; [reflexivity|]. split; [vm_compute; tauto|].
  split; [vm_compute; reflexivity|vm_compute; reflexivity].
Qed.
(** No lease; the address cannot be set. *)
Lemma no_lease : exists o, run fine client_cfg [NoLease] = (o, Some 0) /\ o = [Seek; Halt].
Proof. eexists. split; reflexivity. Qed.
Lemma not_set : exists o, run fine client_cfg [Lease (given_lease 0) true false] = (o, Some 0) /\ forall m, ~ In (Tell m) o.
Proof. eexists. split; [vm_compute; reflexivity|]. intros m H. cbn [In] in H. intuition discriminate. Qed.
(** The own address in the range. *)
Definition own_words : list (list byte) := map text ["--server"; "--netdev"; "p2p0"; "--local"; "100"]%string.
Definition someone : list byte := [2; 0; 0; 0; 0; 1].
Lemma own_leased : exists f o a b opts x h s lg y,
  parse_argv any own_words = Ok (Go f) /\ run fine f [] = (o, None) /\ In (Serve a b opts) o /\ f_serve f = Some x /\ dotted (a_local x) 192 168 77 100
  /\ DhcpServer_Spec.history 400 (DhcpServer_Model.server_new a b 0x644DA8C0 3600 []) h = Ret (s, lg) /\ given_out y lg /\ y = value 192 168 77 100.
Proof.
  eexists. eexists. exists (value 192 168 77 100), (value 192 168 77 199). eexists. eexists.
  exists [DhcpServer_Spec.mkEvent true 1700000000 (DhcpServer_Spec.client_packet 1 someone [0; 0; 0; 0] [])]. eexists. eexists. eexists.
  split; [vm_compute; reflexivity|]. split; [vm_compute; reflexivity|]. split; [right; right; left; vm_compute; reflexivity|]. split; [reflexivity|].
  split; [repeat split|]. split; [vm_compute; reflexivity|]. split; [|reflexivity].
  eexists. eexists. eexists. split; [left; reflexivity|]. left. left. vm_compute. reflexivity.
Qed.
