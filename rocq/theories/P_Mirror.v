(** Properties C128 to C132: the picture the control programs have of wifid. *)
From Coq Require Import String Permutation.
From Verif Require Import Base Text Comm_Spec Mirror_Model Mirror_Spec Mirror_Client Mirror_Proofs Mirror_More.
Local Open Scope list_scope.

(** ** Examples *)
Definition mac1 : list byte := text "02:00:00:00:01:0a".
Definition mac2 : list byte := text "02:00:00:00:01:0b".
Example canon1 : is_canon mac1.
Proof. exists [2; 0; 0; 0; 1; 10]. split; [split; [reflexivity|repeat (apply Forall_cons; [reflexivity|]); apply Forall_nil]|reflexivity]. Qed.
Example canon2 : is_canon mac2.
Proof. exists [2; 0; 0; 0; 1; 11]. split; [split; [reflexivity|repeat (apply Forall_cons; [reflexivity|]); apply Forall_nil]|reflexivity]. Qed.
Definition up : list op := [LinkNew 3 (text "wlan0"); SetManaged 3 true true true; Started 3; Ready 3 true; Scan 3 true; Found 3 mac1 (Some (text "phone")) None].
Definition more : list op := [Found 3 mac2 None (Some (text "000600101c440032")); Group 3 mac1 (text "p2p0"); Addr 3 mac1 (Some (text "192.168.77.1")) (Some (text "192.168.77.2")); Conn 3 mac1; Rename 3 (text "wifi0"); Scan 3 false].
Definition last : list op := [Disc 3 mac1; Lost 3 mac2; SetName 3 (text "desk") true].
Ltac good := repeat (apply Forall_cons; [first [exact canon1|exact canon2|exact Logic.I]|]); apply Forall_nil.
Example up_good : Forall good_op up. Proof. unfold up. good. Qed.
Example more_good : Forall good_op more. Proof. unfold more. good. Qed.
Example last_good : Forall good_op last. Proof. unfold last. good. Qed.
Example up_calm : calm_all true true true [] up.
Proof. apply calm_all_b_spec; [exact up_good|vm_compute; reflexivity]. Qed.
Example more_calm : calm_all true true true (daemon_after up) more.
Proof. apply calm_all_b_spec; [exact more_good|vm_compute; reflexivity]. Qed.
Example up_objects : map fst (objects (daemon_after up)) = [LinkPath (text "3"); PeerPath (text "02:00:00:00:01:0a@3"); OtherPath].
Proof. vm_compute. reflexivity. Qed.
Example more_signals : List.length (snd (run (daemon_after up) more)) = 4%nat.
Proof. vm_compute. reflexivity. Qed.
Example seen : match fetch [] (objects (daemon_after up)) with
  | Some c => c_peer (fst (hear_all c (snd (run (daemon_after up) more)))) 3 mac1
              = Some (mkPView mac1 (text "phone") true (text "p2p0") (text "192.168.77.1") (text "192.168.77.2") [])
  | None => False
  end.
Proof. vm_compute. reflexivity. Qed.

(** ** C128: what a program was told is what is there *)
(** It asks for all objects when it starts, at any time, and hears every signal from then on. *)
Theorem C128_right_picture : forall m s a os1 os2 os, calm_all false s false [] os1 -> Permutation os (objects (daemon_after os1)) -> links_first os ->
  calm_all m s a (daemon_after os1) os2 ->
  exists c, fetch [] os = Some c /\ right m s a (fst (hear_all c (snd (run (daemon_after os1) os2)))) (fst (run (daemon_after os1) os2))
            /\ leaves c (snd (run (daemon_after os1) os2)).
Proof. exact starts. Qed.
Print Assumptions C128_right_picture.
(** Whatever happens: everything but Managed, P2PScanning, the interface and the addresses. *)
Theorem C128_always : forall os1 os2, Forall good_op os1 -> Forall good_op os2 ->
  exists c, fetch [] (objects (daemon_after os1)) = Some c
            /\ right false false false (fst (hear_all c (snd (run (daemon_after os1) os2)))) (fst (run (daemon_after os1) os2)).
Proof. exact always. Qed.
Print Assumptions C128_always.
Theorem C128_since_the_start : forall m s a os, calm_all m s a [] os -> right m s a (fst (hear_all [] (snd (run [] os)))) (daemon_after os).
Proof. exact since_start. Qed.
Print Assumptions C128_since_the_start.

(** ** C129: signals from before the answer *)
(** The program listens first and asks then; what it hears of the time in between comes after
    the answer that already counts it in. *)
Theorem C129_late_signals : forall m s a os1 os2 os3 os, calm_all false s false [] os1 -> calm_all m s a (daemon_after os1) os2 ->
  Permutation os (objects (daemon_after (os1 ++ os2))) -> links_first os -> calm_all m s a (daemon_after (os1 ++ os2)) os3 ->
  exists c, fetch [] os = Some c
    /\ right m s a (fst (hear_all c (snd (run (daemon_after os1) os2) ++ snd (run (daemon_after (os1 ++ os2)) os3)))) (daemon_after (os1 ++ os2 ++ os3)).
Proof. exact late. Qed.
Print Assumptions C129_late_signals.
Example C129_example : match fetch [] (objects (daemon_after (up ++ more ++ last))) with
  | Some c => let c' := fst (hear_all c (snd (run [] (up ++ more ++ last)))) in
              c_peer c' 3 mac1 = Some (mkPView mac1 (text "phone") false [] [] [] []) /\ c_peer c' 3 mac2 = None
              /\ c_link c' 3 = Some (mkLView 3 (text "wifi0") (text "desk") true false [])
  | None => False
  end.
Proof. vm_compute. repeat split; reflexivity. Qed.

(** ** C130: all of what can be seen *)
Theorem C130_managed_refuted : exists os, Forall good_op os /\ ~ right true false false (fst (hear_all [] (snd (run [] os)))) (daemon_after os).
Proof. exact managed_stale. Qed.
Print Assumptions C130_managed_refuted.
(** wpa_supplicant ends while it scans, and starts again: the program believes it still scans. *)
Theorem C130_scanning_refuted : exists os, Forall good_op os /\ right true false true (fst (hear_all [] (snd (run [] os)))) (daemon_after os)
  /\ exists v w, c_link (fst (hear_all [] (snd (run [] os)))) 3 = Some v /\ d_link (daemon_after os) 3 = Some w /\ v_managed w = true /\ v_scan v = true /\ v_scan w = false.
Proof. exact scanning_stale. Qed.
Print Assumptions C130_scanning_refuted.
Theorem C130_addresses_refuted : exists os, Forall good_op os /\ right true true false (fst (hear_all [] (snd (run [] os)))) (daemon_after os)
  /\ exists v w, c_peer (fst (hear_all [] (snd (run [] os)))) 3 mac1 = Some v /\ d_peer (daemon_after os) 3 mac1 = Some w /\ w_conn v = true /\ w_remote v <> w_remote w.
Proof. exact addresses_stale. Qed.
Print Assumptions C130_addresses_refuted.
(** Right as long as nothing happens that nobody is told of. *)
Theorem C130_picture_partial : forall os, calm_all true true true [] os -> right true true true (fst (hear_all [] (snd (run [] os)))) (daemon_after os).
Proof. exact (since_start true true true). Qed.
Print Assumptions C130_picture_partial.

(** ** C131: the answer with all objects *)
Theorem C131_any_order_refuted : exists ops os, Forall good_op ops /\ Permutation os (objects (daemon_after ops)) /\ fetch [] os = None.
Proof. exact order_matters. Qed.
Print Assumptions C131_any_order_refuted.
Theorem C131_links_first_partial : forall ops os, Forall good_op ops -> Permutation os (objects (daemon_after ops)) -> links_first os ->
  exists c, fetch [] os = Some c /\ right true true true c (daemon_after ops).
Proof. exact fetched. Qed.
Print Assumptions C131_links_first_partial.
(** The order in which wifid names them is such an order. *)
Theorem C131_named_in_order : forall ops, Forall good_op ops -> links_first (objects (daemon_after ops)).
Proof. exact named_in_order. Qed.
Print Assumptions C131_named_in_order.

(** ** C132: nothing goes while in use *)
Theorem C132_leaves : forall ops, Forall good_op ops -> leaves [] (snd (run [] ops)).
Proof. exact leaves_start. Qed.
Print Assumptions C132_leaves.
(** The peers of a link go before it, the newest first. *)
Theorem C132_order : forall before l after, cl_label l <> [] -> (forall x, In x before -> case_eq (cl_label x) (cl_label l) = false) ->
  exists c, hear (before ++ l :: after) (Removed (LinkPath (cl_label l))) = (c, map (fun p => PeerFree (cp_label p)) (rev (cl_peers l)) ++ [LinkOff (cl_label l)]).
Proof. exact link_removed. Qed.
Print Assumptions C132_order.
Example C132_example : In (Removed (PeerPath (peer_label 3 mac1))) (snd (run [] (up ++ more ++ [LinkFree 3])))
  /\ In (Removed (LinkPath (link_label 3))) (snd (run [] (up ++ more ++ [LinkFree 3]))).
Proof. vm_compute. tauto. Qed.
