(** Connecting to peers: runs. *)
From Coq Require Import String.
From Verif Require Import Base Text Comm_Model Comm_Spec Comm_Proofs Prov_Model Prov_Spec Prov_Proofs Prov_Run Prov_Sound.
Local Open Scope list_scope.

Definition A : list byte := text "02:00:00:00:00:0a".
Definition A' : list byte := text "02:00:00:00:80:0a".
Definition B : list byte := text "02:00:00:00:00:0b".
Lemma address_A : address A. Proof. exists [2; 0; 0; 0; 0; 10]. split; [split; [reflexivity|repeat constructor]|reflexivity]. Qed.
Lemma address_A' : address A'. Proof. exists [2; 0; 0; 0; 128; 10]. split; [split; [reflexivity|repeat constructor]|reflexivity]. Qed.
Lemma address_B : address B. Proof. exists [2; 0; 0; 0; 0; 11]. split; [split; [reflexivity|repeat constructor]|reflexivity]. Qed.
Ltac props := repeat (first [apply Forall_nil | apply Forall_cons]); cbn [proper address_if]; auto using address_A, address_A', address_B.

(** A device whose interface address differs from its device address stays for ever. *)
Definition ghost : list event := [Ready true; Found (Some A) (Some A'); Reply (Some A); Lost (Some A)].
Lemma ghost_run : exists s o, run init ghost = Ret (s, o) /\ Forall proper ghost /\ object s A' <> None /\ ~ there ghost A'.
Proof.
  do 2 eexists. split; [vm_compute; reflexivity|]. split; [props|]. split; [vm_compute; discriminate|]. intros (h1 & e & h2 & E & [[a ->]| ->] & _).
  all: vm_compute in E; repeat (destruct h1 as [|? h1]; cbn [app] in E; [discriminate E|injection E as _ E]); destruct h1; discriminate E.
Qed.
(** The user is done with one device and cannot connect to another. *)
Definition left : list event := [Ready true; Reply (Some A); Reply (Some B); Connect A [] [] 0; GroupStarted A; Up A; Disconnect A].
Lemma left_run : exists s o, run init left = Ret (s, o) /\ (forall mac, ~ going left mac) /\ Forall (fun p => p_in p = false) (s_peers s) /\ step s (Connect B [] [] 0) = Ret (s, [Returns EALREADY]).
Proof.
  do 2 eexists. split; [vm_compute; reflexivity|]. split; [|split; [repeat constructor|vm_compute; reflexivity]]. intros mac (h1 & prov & pin & h2 & s1 & o1 & s2 & o2 & E & _ & _ & _ & HF).
  unfold left in E. do 3 (destruct h1 as [|? h1]; cbn [app] in E; [discriminate E|injection E as _ E]).
  destruct h1 as [|? h1]; cbn [app] in E.
  - injection E as <- <- <- <-. rewrite Forall_forall in HF. apply (HF (Disconnect A)); [cbn; auto|reflexivity].
  - injection E as _ E. do 3 (destruct h1 as [|? h1]; cbn [app] in E; [discriminate E|injection E as _ E]). destruct h1; discriminate E.
Qed.
(** A scan: the attempt is forgotten. *)
Definition scanned : list event := [Ready true; Reply (Some A); Reply (Some B); Connect A [] [] 0; StartScan 0].
Lemma scanned_going : going scanned A.
Proof.
  exists [Ready true; Reply (Some A); Reply (Some B)], [], [], [StartScan 0]. do 4 eexists. split; [reflexivity|]. split; [vm_compute; reflexivity|]. split; [vm_compute; reflexivity|].
  split; [eexists; left; reflexivity|]. repeat constructor. intros H. exact H.
Qed.
Lemma scanned_run : exists s o, run init scanned = Ret (s, o) /\ (exists s', step s (Connect B [] [] 0) = Ret (s', [Send [text "P2P_CONNECT"; B; text "pbc"]; Returns 0])) /\ step s FormFailure = Ret (s, []).
Proof. do 2 eexists. split; [vm_compute; reflexivity|]. split; [eexists; vm_compute; reflexivity|vm_compute; reflexivity]. Qed.
(** Failures told of a peer that is connected. *)
Definition connected : list event := [Ready true; Reply (Some A); Connect A [] [] 0; GroupStarted A; Up A].
Lemma connected_run : exists s o p s', run init connected = Ret (s, o) /\ object s A = Some p /\ p_conn p = true /\ step s NegFailure = Ret (s', [Failed A (text "group owner negotiation failed")]).
Proof. do 4 eexists. split; [vm_compute; reflexivity|]. split; [vm_compute; reflexivity|]. split; [reflexivity|vm_compute; reflexivity]. Qed.
(** A push-button request is told as one with a PIN. *)
Definition shown : list event := [Ready true; Reply (Some A); ShowPin (Some A) (Some (text "12345670"))].
Lemma shown_run : exists s o s', run init shown = Ret (s, o) /\ Forall proper shown /\ step s (NegRequest (Some A) 4) = Ret (s', [Wanted A (text "display") (text "12345670")]).
Proof. do 3 eexists. split; [vm_compute; reflexivity|]. split; [props|vm_compute; reflexivity]. Qed.

Lemma safe_c167 h : exists s o, run init h = Ret (s, o).
Proof. destruct (run_safe h) as (s & o & E & _). eauto. Qed.
Lemma ghost_c168 : exists h s o mac, run init h = Ret (s, o) /\ Forall proper h /\ object s mac <> None /\ ~ there h mac.
Proof. destruct ghost_run as (s & o & H). exists ghost, s, o, A'. exact H. Qed.
Lemma total_c169 w prov pin mac : exists m n r, method_is w prov m /\ pin_is w pin n /\ request mac m n r.
Proof. destruct (method_total w prov) as [m Hm], (pin_total w pin) as [n Hn], (request_total mac m n) as [r Hr]. eauto 10. Qed.
Lemma left_c170 : exists h s o mac, run init h = Ret (s, o) /\ (forall m, ~ going h m) /\ Forall (fun p => p_in p = false) (s_peers s) /\ step s (Connect mac [] [] 0) = Ret (s, [Returns EALREADY]).
Proof. destruct left_run as (s & o & H). exists left, s, o, B. exact H. Qed.
Lemma scan_c170 : exists h s o a b s' w, run init h = Ret (s, o) /\ going h a /\ a <> b /\ step s (Connect b [] [] 0) = Ret (s', [Send w; Returns 0]).
Proof. destruct scanned_run as (s & o & H & (s' & H') & _). exists scanned, s, o, A, B, s', [text "P2P_CONNECT"; B; text "pbc"]. split; [exact H|]. split; [exact scanned_going|]. split; [discriminate|exact H']. Qed.
Lemma scan_c171 : exists h s o a, run init h = Ret (s, o) /\ going h a /\ step s FormFailure = Ret (s, []).
Proof. destruct scanned_run as (s & o & H & _ & H'). exists scanned, s, o, A. split; [exact H|]. split; [exact scanned_going|exact H']. Qed.
Lemma connected_c171 : exists h s o mac p s' r, run init h = Ret (s, o) /\ object s mac = Some p /\ p_conn p = true /\ step s NegFailure = Ret (s', [Failed mac r]).
Proof. destruct connected_run as (s & o & p & s' & H1 & H2 & H3 & H4). exists connected, s, o, A, p, s', (text "group owner negotiation failed"). auto. Qed.
Lemma method_c172 : exists h s o mac s' pin, run init h = Ret (s, o) /\ Forall proper h /\ step s (NegRequest (Some mac) 4) = Ret (s', [Wanted mac (text "display") pin]).
Proof. destruct shown_run as (s & o & s' & H). exists shown, s, o, A, s', (text "12345670"). exact H. Qed.
