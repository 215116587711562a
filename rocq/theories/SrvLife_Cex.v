From Verif Require Import Base SrvLife_Model SrvLife_Spec SrvLife_Proofs.

(** The program with one source, for signals (dhcp.c). *)
Definition empty : world := World None [Src 1 None] 2 [] [] 7 [].
Definition good : found := Found true true true 0xc0a84d01.
Definition new_one : world := fst (server_new good 3 empty).
Lemma empty_before : before empty.
Proof.
  repeat split; try reflexivity.
  - constructor; [intros []|constructor].
  - constructor; [split; [reflexivity|split; reflexivity]|constructor].
Qed.
Lemma new_made : made empty new_one.
Proof. exists good, 3%Z. reflexivity. Qed.
Lemma deaf : exists w w1 os w2, before w /\ made w w1 /\ room w os /\ refs 1 os = Some 1 /\ run os w1 = Ok w2 /\
  server_start true w2 = Ok (w2, 0%Z) /\ watched w2 = [].
Proof.
  exists empty, new_one, [OStart true; OError 2]. eexists.
  split; [exact empty_before|]. split; [exact new_made|]. split; [vm_compute; discriminate|]. split; [reflexivity|].
  split; [vm_compute; reflexivity|]. split; vm_compute; reflexivity.
Qed.
Lemma warns : exists w w1 w2, before w /\ made w w1 /\ manager_free w1 = Ok w2 /\ srv w2 = None /\ warned w2 = [4294967295].
Proof.
  exists empty, new_one. eexists. split; [exact empty_before|]. split; [exact new_made|].
  split; [vm_compute; reflexivity|]. split; vm_compute; reflexivity.
Qed.
