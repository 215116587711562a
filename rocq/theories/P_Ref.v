(** Properties C75 and C76: references to buses and messages. *)
From Verif Require Import Base Ref_Model Ref_Spec Ref_Proofs.

(** C75 *)
Theorem C75_defined : forall os, exists s, run init os = Ret s.
Proof. exact always_defined. Qed.
Print Assumptions C75_defined.
Theorem C75_held_alive : forall os s, run init os = Ret s -> held s -> s_alive s = true.
Proof. exact held_alive. Qed.
Print Assumptions C75_held_alive.
Theorem C75_references_stay : forall os s o s', run init os = Ret s -> step s o = Ret s' ->
  (o <> BusUnref -> s_ext s <= s_ext s') /\ forall m, In m (s_msgs s) -> 0 < g_user m -> o <> MsgUnref (g_id m) ->
    exists m', In m' (s_msgs s') /\ g_id m' = g_id m /\ g_user m <= g_user m'.
Proof. exact user_keeps. Qed.
Print Assumptions C75_references_stay.
Theorem C75_counts : forall os s, run init os = Ret s -> s_alive s = true ->
  s_ref s = s_ext s + lenN (s_msgs s) /\ forall m, In m (s_msgs s) -> g_ref m = g_user m + links_of s (g_id m).
Proof. exact counts. Qed.
Print Assumptions C75_counts.
(** A call is answered after the user has released everything: the event loop frees
    the bus when it leaves. *)
Example C75_nontrivial :
  let os := [New; LinkWait 0; LinkOut 0; MsgUnref 0; New; BusUnref; Enter; UnlinkOut 0; ParserNew; ParserDone; EnterMsg 0; UnlinkWait 0; MsgUnref 0; MsgUnref 2; BusUnref] in
  (exists s, run init os = Ret s /\ s_alive s = true /\ map g_id (s_msgs s) = [1] /\ s_ref s = 1)
  /\ exists s, run init (os ++ [MsgUnref 1]) = Ret s /\ s_alive s = false /\ s_msgs s = [].
Proof. split; eexists; (split; [vm_compute; reflexivity|]); vm_compute; auto. Qed.
Print Assumptions C75_nontrivial.

(** C76 is refuted: a call that was not written yet (rtsp_call_async puts it on both
    lists), and a user who releases a queued message after the bus. *)
Theorem C76_call_leaks_refuted : exists os s, os = [New; LinkWait 0; LinkOut 0; MsgUnref 0; BusUnref] /\ run init os = Ret s /\ ~ held s /\ s_alive s = true.
Proof.
  eexists. eexists. split; [reflexivity|]. split; [vm_compute; reflexivity|]. split; [|reflexivity]. intros [H|(m & [<-|[]] & H)]; discriminate H.
Qed.
Print Assumptions C76_call_leaks_refuted.
Theorem C76_late_message_refuted : exists os s, os = [New; LinkOut 0; BusUnref; MsgUnref 0] /\ run init os = Ret s /\ ~ held s /\ s_alive s = true.
Proof.
  eexists. eexists. split; [reflexivity|]. split; [vm_compute; reflexivity|]. split; [|reflexivity]. intros [H|(m & [<-|[]] & H)]; discriminate H.
Qed.
Print Assumptions C76_late_message_refuted.
(** In all other cases everything is freed with the last reference. *)
Theorem C76_last_release_partial : forall os s o s', run init os = Ret s -> step s o = Ret s' -> held s -> ~ held s' ->
  (freed s' <-> ~ twice s /\ ~ (exists id, o = MsgUnref id /\ (In id (s_out s) \/ In id (s_wait s)))).
Proof. exact last_release. Qed.
Print Assumptions C76_last_release_partial.
Theorem C76_not_before : forall os s, run init os = Ret s -> freed s -> ~ held s.
Proof. exact freed_not_held. Qed.
Print Assumptions C76_not_before.
Example C76_nontrivial : exists s s', run init [New; LinkOut 0; MsgUnref 0; New; LinkWait 1; MsgUnref 1; ParserNew] = Ret s /\ s_ref s = 4
  /\ held s /\ ~ twice s /\ step s BusUnref = Ret s' /\ freed s'.
Proof.
  eexists. eexists. split; [vm_compute; reflexivity|]. split; [reflexivity|]. split; [left; reflexivity|]. split.
  - intros (id & [<-|[]] & [H|[]]). discriminate.
  - split; [vm_compute; reflexivity|split; reflexivity].
Qed.
Print Assumptions C76_nontrivial.
