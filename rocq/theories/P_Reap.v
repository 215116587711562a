(** Property C121, continued: processes without a child source. *)
From Verif Require Import Base Reap_Model Reap_Spec Reap_Proofs.
Local Open Scope list_scope.

(** Two processes are signalled and end before SIGCHLD is read: one is never waited for. *)
Theorem C121_merged_refuted : exists es p, NoDup (starts es) /\ k_sig (run none es) = None /\ zombie p (run none es)
  /\ forall es', ~ In p (starts es') -> zombie p (run none (es ++ es')).
Proof.
  exists [Start 1; Start 2; Unwatch 1; Unwatch 2; End 1; End 2; Handle true], 2. split; [change (NoDup [1; 2]); repeat constructor; cbn [In]; intuition discriminate|].
  split; [reflexivity|]. split; [vm_compute; auto|]. intros es' H. rewrite run_app. apply left_forever; [vm_compute; auto|vm_compute; discriminate|vm_compute; intros []|exact H].
Qed.
Print Assumptions C121_merged_refuted.
Theorem C121_apart_partial : forall es b, apart true es -> k_dead (run none (es ++ [Handle b])) = [].
Proof. exact reaped_apart. Qed.
Print Assumptions C121_apart_partial.
Theorem C121_watched_partial : forall es b p, ~ In (mkChild p true) (k_dead (run none (es ++ [Handle b]))).
Proof. exact watched_reaped. Qed.
Print Assumptions C121_watched_partial.
Theorem C121_forever_partial : forall es k p, In (mkChild p false) (k_dead k) -> k_sig k <> Some p -> ~ runs p k -> ~ In p (starts es) -> zombie p (run k es).
Proof. exact left_forever. Qed.
Print Assumptions C121_forever_partial.
(** A process that runs is not taken away. *)
Theorem C121_early : forall es e p, runs p (run none es) -> e <> End p -> runs p (run none (es ++ [e])).
Proof. exact runs_until. Qed.
Print Assumptions C121_early.
Example C121_signal_ex :
  apart true [Start 1; Start 2; Unwatch 1; End 1; Handle false; Unwatch 2; End 2]
  /\ run none [Start 1; Start 2; Unwatch 1; End 1; Handle false; Unwatch 2; End 2] = mkKids [] [mkChild 2 false] (Some 2)
  /\ run none [Start 1; Start 2; Unwatch 1; End 1; Handle false; Unwatch 2; End 2; Handle false] = none
  /\ run none [Start 1; Start 2; Start 3; Unwatch 3; End 1; End 2; Handle false] = mkKids [mkChild 3 false] [] None
  /\ run none [Start 1; Start 2; Unwatch 1; End 1; End 2; Handle false] = mkKids [] [mkChild 1 false] None
  /\ run none [Start 1; Start 2; Unwatch 1; End 1; End 2; Handle true] = none.
Proof. vm_compute. repeat split; reflexivity. Qed.
