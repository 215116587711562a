(** Counterexamples and examples for the messages between wifid and wpa_supplicant. *)
From Coq Require Import String.
From Verif Require Import Base Text WpasMsg_Model Wire_Model Wire_Spec Wire_Proofs.
From Verif Require Qstr_Proofs Prov_Model Comm_Spec Wire_Text.
Local Open Scope list_scope.

Definition mac_a : list byte := text "02:11:22:33:44:55".
Definition six_a : list byte := [2; 17; 34; 51; 68; 85].
Definition tv : list byte := text "7-0050F204-1".
Definition wfd_on : list byte := text "wfd_dev_info=0x01111c440032".
Definition blank : label := mkLabel None None.
Definition bobs : list byte := text "Bob's TV".
Definition liar : list byte := text "x' wfd_dev_info=0x01111c440032 y='".
Lemma mac_a_addr : addr mac_a.
Proof. split; [apply wordyb_ok; reflexivity|apply tok61; reflexivity]. Qed.
Lemma tv_addr : addr tv.
Proof. split; [apply wordyb_ok; reflexivity|apply tok61; reflexivity]. Qed.

(** An apostrophe changes the name and hides that the device knows WFD. *)
Lemma name_changed : exists a d ty name ws l, addr a /\ addr d /\ addr ty /\ ~ In 0 name /\ Forall wordy ws /\ In wfd_on ws
  /\ labelled blank (on_wire None 3 (found_text a d ty name ws)) = Ok l /\ l_name l <> Some name /\ l_wfd l = None.
Proof.
  exists mac_a, mac_a, tv, bobs, [wfd_on], (mkLabel (Some (text "Bobs")) None).
  split; [exact mac_a_addr|]. split; [exact mac_a_addr|]. split; [exact tv_addr|]. split; [apply Qstr_Proofs.not_In_test; reflexivity|].
  split; [constructor; [apply wordyb_ok; reflexivity|constructor]|]. split; [now left|]. split; [vm_compute; reflexivity|]. split; [discriminate|reflexivity].
Qed.
(** A name makes a device without WFD look like one with it, also after the reply. *)
Lemma wfd_invented : exists a d ty name l l', addr a /\ addr d /\ addr ty /\ ~ In 0 name
  /\ labelled blank (on_wire None 3 (found_text a d ty name [])) = Ok l
  /\ labelled l (lines [mac_a; text "device_name=" ++ name]) = Ok l' /\ l_name l' = Some name /\ l_wfd l' = Some (text "0x01111c440032").
Proof.
  exists mac_a, mac_a, tv, liar. eexists. eexists.
  split; [exact mac_a_addr|]. split; [exact mac_a_addr|]. split; [exact tv_addr|]. split; [apply Qstr_Proofs.not_In_test; reflexivity|].
  split; [vm_compute; reflexivity|]. split; [vm_compute; reflexivity|]. split; reflexivity.
Qed.
(** An answer that names no device makes one. *)
Lemma nobody_added : exists raw e s, answered raw = Ok (Peer e) /\ (forall a r, Comm_Spec.is_mac a -> raw <> Comm_Spec.canon a ++ r)
  /\ Prov_Model.run Prov_Model.init [Prov_Model.Ready true; e] = Ret (s, [Prov_Model.Added (text "00:00:00:00:00:00")]) /\ List.length (Prov_Model.s_peers s) = 1%nat.
Proof.
  exists (text "UNKNOWN COMMAND" ++ [10]). eexists. eexists. split; [vm_compute; reflexivity|]. split.
  - intros a r M E. pose proof (Wire_Text.canon_chars a M) as C. destruct (Wire_Text.canon_head a M) as (c & t & H). rewrite H in *. injection E as E _. inversion C as [|? ? C1 _]. lia.
  - split; [vm_compute; reflexivity|reflexivity].
Qed.
Definition my_tv : list byte := text "My TV".
Lemma name_quoted : exists name s, name <> [] /\ Forall (fun c => 32 <= c <= 126) name /\ set_name true (Some name) = Some s /\ ~ sets s (text "device_name") name
  /\ sets s (text "device_name") (34 :: name ++ [34]).
Proof.
  exists my_tv. eexists. split; [discriminate|]. split.
  - assert (B : forallb (fun c => (32 <=? c) && (c <=? 126)) my_tv = true) by reflexivity. rewrite forallb_forall in B. apply Forall_forall. intros c I. apply B in I. lia.
  - split; [vm_compute; reflexivity|]. split; [intros [_ E]; discriminate E|]. split; [apply Qstr_Proofs.not_In_test; reflexivity|reflexivity].
Qed.
(** A PIN from D-Bus becomes words of the command. *)
Lemma pin_words : exists h s o ws t ws', Prov_Model.run Prov_Model.init h = Ret (s, o) /\ In (Prov_Model.Send ws) o /\ command ws = Some t /\ words t ws' /\ ~ In (text "persistent=0") ws /\ In (text "persistent=0") ws'.
Proof.
  exists [Prov_Model.Ready true; Prov_Model.Reply (Some mac_a); Prov_Model.Connect mac_a (text "pin") (text "1 persistent=0 2") 0]. eexists. eexists.
  exists [text "P2P_CONNECT"; mac_a; text "1 persistent=0 2"; text "pin"]. eexists. exists [text "P2P_CONNECT"; mac_a; text """1"; text "persistent=0"; text "2"""; text "pin"].
  split; [vm_compute; reflexivity|]. split; [right; now left|]. split; [vm_compute; reflexivity|]. split.
  - split; [repeat constructor; apply Qstr_Proofs.not_In_test; reflexivity|]. eexists. eexists. split; [reflexivity|vm_compute; reflexivity].
  - split; [|cbn; auto]. cbn [In]. intros [E|[E|[E|[E|[]]]]]; discriminate E.
Qed.
