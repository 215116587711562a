(** miracle-uibcctl: counterexamples. *)
From Coq Require Import String.
From Verif Require Import Base Text Uibc_Model Uibc_Spec Uibc_Proofs UibcMain_Model UibcMain_Spec UibcMain_Proofs UibcMain_Player.
Local Open Scope list_scope.
Local Open Scope N_scope.

Definition all : nat -> option N := fun _ => Some 65536.
Lemma all_takes : takes_all all.
Proof. intros k. exists 65536. split; [reflexivity|]. change (2 ^ 16) with 65536. lia. Qed.
Definition move : list byte := text "2,1,0,5,6" ++ [10].
Lemma move_lost : exists l m, stands l m /\ is_line l /\ lenN l <= 254 /\ m <> [] /\ uibcctl all l = Ret ([], true).
Proof.
  exists move, (touch_message 2 [(0, 5, 6)]). split; [|split; [|split; [|split]]].
  - apply (STouch 50 (text ",1,0,5,6" ++ [10])); [auto| |reflexivity|].
    + exists [[50]; [49]; [48]; [53]; [54; 10]]. split; [reflexivity|]. split; [repeat constructor; unfold COMMA; intros X; repeat (destruct X as [X|X]; [discriminate|]); destruct X|].
      change (numbers 2 [(0, 5, 6)]) with [2; 1; 0; 5; 6].
      repeat constructor; [apply (denotes_digit 2)|apply (denotes_digit 1)|apply (denotes_digit 0)|apply (denotes_digit 5)|apply (denotes_dec 6 [10])]; try lia. unfold digit. lia.
    + change (numbers 2 [(0, 5, 6)]) with [2; 1; 0; 5; 6]. change (2 ^ 31) with 2147483648. repeat (apply Forall_cons; [lia|]). constructor.
  - exists (text "2,1,0,5,6"). split; [reflexivity|]. split; apply text_in; reflexivity.
  - vm_compute. discriminate. - discriminate. - vm_compute. reflexivity.
Qed.
(** 63 pointers in one line: the line is read in two parts. *)
Definition many : list pointer := repeat (0, 0, 0) 63.
Definition many_toks : list (list byte) := [48] :: text "63" :: repeat [48] 188 ++ [[48; 10]].
Definition long_line : list byte := join many_toks.
Lemma long_cut : exists l m, stands l m /\ is_line l /\ uibcctl all l <> Ret (map Some m, true).
Proof.
  exists long_line, (touch_message 0 many). split; [|split].
  - apply (STouch 48 (tl long_line)); [auto| |vm_compute; discriminate|].
    + exists many_toks. split; [reflexivity|]. split.
      * apply Forall_forall. intros t Ht. apply text_in. revert t Ht. apply Forall_forall. repeat constructor.
      * change (numbers 0 many) with (0 :: 63 :: repeat 0 188 ++ [0]). constructor; [apply (denotes_digit 0); lia|]. constructor; [apply (denotes_dec 63 []); exact I|].
        apply Forall2_app; [|repeat constructor; apply (denotes_dec 0 [10]); unfold digit; lia]. generalize 188%nat. intros n. induction n; cbn [repeat]; constructor; auto. apply (denotes_digit 0). lia.
    + change (numbers 0 many) with (0 :: 63 :: repeat 0 189). change (2 ^ 31) with 2147483648. constructor; [lia|]. constructor; [lia|]. apply Forall_forall. intros x Hx. apply repeat_spec in Hx. lia.
  - exists (removelast long_line). split; [reflexivity|]. split; apply text_in; reflexivity.
  - vm_compute. discriminate.
Qed.
(** The key of the euro sign, and what it becomes. *)
Lemma key_cut : small_event (Key 16785580) /\ uibcctl all (print (Key 16785580)) = Ret (map Some (means (Key 4098)), true) /\ means (Key 16785580) <> means (Key 4098).
Proof. split; [reflexivity|]. split; [vm_compute; reflexivity|vm_compute; discriminate]. Qed.
(** A write that takes a part. *)
Lemma part_lost : exists w e, (forall k, w k <> None) /\ small_event e /\ uibcctl w (print e) = Ret (map Some (takeN 5 (means e)), true).
Proof. exists (fun _ => Some 5), (Key 65). split; [discriminate|]. split; [reflexivity|]. vm_compute. reflexivity. Qed.
