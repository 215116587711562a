From Coq Require Import String.
From Verif Require Import Base Text Comm_Model Comm_Spec Paths_Model Paths_Spec.
Local Open Scope list_scope.

Definition mac1 : list byte := text "02:00:00:00:00:0a".
Definition mac2 : list byte := text "02:00:00:00:00:0b".
(** Link 3 knows the first peer but does not show it yet; link 14 shows both. *)
Definition wifi : manager :=
  mkManager 2 [mkWLink 3 true 1 [mkWPeer mac1 false]; mkWLink 14 true 2 [mkWPeer mac1 true; mkWPeer mac2 true]].
Lemma mac1_ok : is_address mac1.
Proof. exists [2; 0; 0; 0; 0; 10]. split; [split; [reflexivity|repeat constructor]|reflexivity]. Qed.
Lemma mac2_ok : is_address mac2.
Proof. exists [2; 0; 0; 0; 0; 11]. split; [split; [reflexivity|repeat constructor]|reflexivity]. Qed.
Lemma wifi_good : good wifi.
Proof.
  constructor; [|cbn [map m_links wifi wl_index]; repeat constructor; cbn [In]; intuition discriminate|reflexivity].
  cbn [m_links wifi]. repeat apply Forall_cons; [| |apply Forall_nil].
  - constructor; [split; reflexivity| | |reflexivity]; cbn [wl_peers map wp_mac].
    + constructor; [intros []|constructor].
    + repeat apply Forall_cons; [apply mac1_ok|apply Forall_nil].
  - constructor; [split; reflexivity| | |reflexivity]; cbn [wl_peers map wp_mac].
    + constructor; [|constructor; [intros []|constructor]]. intros [H|[]]. vm_compute in H. discriminate H.
    + repeat apply Forall_cons; [apply mac1_ok|apply mac2_ok|apply Forall_nil].
Qed.
Lemma wifi_shows : shown_peer wifi (mkWLink 14 true 2 [mkWPeer mac1 true; mkWPeer mac2 true]) (mkWPeer mac1 true).
Proof. split; [split; [right; now left|reflexivity]|]. split; [now left|reflexivity]. Qed.
Lemma short_missed : exists m l p, good m /\ shown_peer m l p /\ peer_dbus_find m (wp_mac p) = Ok None.
Proof. exists wifi, (mkWLink 14 true 2 [mkWPeer mac1 true; mkWPeer mac2 true]), (mkWPeer mac1 true). split; [exact wifi_good|]. split; [exact wifi_shows|vm_compute; reflexivity]. Qed.
Lemma no_path : exists k m, good m /\ enumerate k m = UB.
Proof. exists (mkLuck true (fun _ => false) true), wifi. split; [exact wifi_good|vm_compute; reflexivity]. Qed.
