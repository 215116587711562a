(** Properties C71 to C73: match callbacks. *)
From Verif Require Import Base Match_Model Match_Spec Match_Proofs.

(** C71 *)
Theorem C71_call_order : forall safe b script b' called, call safe b script = Some (b', called) ->
  exists new, Forall (fun n => b_next b <= n) new /\ called = firstn (length called) (nums b ++ new)
    /\ (forall j, (S j < length called)%nat -> nth_error (map snd script) j = Some false)
    /\ ((length called < length (nums b))%nat -> exists j, S j = length called /\ nth_error (map snd script) j = Some true).
Proof. exact call_order. Qed.
Print Assumptions C71_call_order.
Example C71_nontrivial : exists b tr, run true init [User (Add 5); User (Add 6); User (Add 7); User (Remove 6); User (Add 6)] = Some (b, tr)
  /\ nums b = [0; 2; 3] /\ (exists b', call true b [([Add 9], false); ([Remove 5], false); ([], false); ([], false)] = Some (b', [0; 2; 3; 4]) /\ keys b' = [7; 6; 9])
  /\ exists b', call true b [([], false); ([Add 8], true)] = Some (b', [0; 2]) /\ keys b' = [5; 7; 6; 8].
Proof. eexists. eexists. split; [reflexivity|]. split; [reflexivity|]. split; eexists; split; reflexivity. Qed.
Print Assumptions C71_nontrivial.

(** C72 is refuted during a delivery: the first callback removes the second one, which
    is called nevertheless. *)
Theorem C72_removed_called_refuted : exists b tr b', run true init [User (Add 5); User (Add 6)] = Some (b, tr) /\ keys b = [5; 6]
  /\ call true b [([Remove 6], false); ([], false)] = Some (b', [0; 1]) /\ keys b' = [5].
Proof. eexists. eexists. eexists. split; [reflexivity|]. split; [reflexivity|]. split; reflexivity. Qed.
Print Assumptions C72_removed_called_refuted.
(** A registration that is no longer in force is never called again and no later
    registration is mistaken for it. *)
Theorem C72_never_again_partial : forall safe n es b b' tr, ~ In n (nums b) -> n < b_next b -> run safe b es = Some (b', tr) -> ~ In n tr.
Proof. exact never_again. Qed.
Print Assumptions C72_never_again_partial.
Example C72_nontrivial : exists b tr b', run false init [User (Add 5); User (Add 6); User (Remove 5)] = Some (b, tr) /\ nums b = [1] /\ b_next b = 2
  /\ run false b [Message [([Add 5], false); ([], false)]; User (Add 5); Message [([], false); ([], true)]] = Some (b', [1; 2; 1; 2]).
Proof. eexists. eexists. eexists. split; [reflexivity|]. split; [reflexivity|]. split; reflexivity. Qed.
Print Assumptions C72_nontrivial.

(** C73 is refuted during a delivery: a callback registered twice removes itself twice
    and stays registered. *)
Theorem C73_remove_twice_refuted : exists b tr b', run true init [User (Add 5); User (Add 5)] = Some (b, tr)
  /\ call true b [([Remove 5; Remove 5], true)] = Some (b', [0]) /\ keys b' = [5] /\ ~ after [Remove 5; Remove 5] (keys b) (keys b').
Proof.
  eexists. eexists. eexists. split; [reflexivity|]. split; [reflexivity|]. split; [reflexivity|].
  intros H. apply twice_count in H. discriminate H.
Qed.
Print Assumptions C73_remove_twice_refuted.
Theorem C73_idle_exact : forall b o, after [o] (keys b) (keys (apply false b o)).
Proof. exact user_keys. Qed.
Print Assumptions C73_idle_exact.
(** Missing: a key removed more than once during one delivery. *)
Theorem C73_delivery_partial : forall safe es b tr script b' called, run safe init es = Some (b, tr) -> call safe b script = Some (b', called) ->
  NoDup (removals (done script (length called))) -> after (done script (length called)) (keys b) (keys b').
Proof. exact call_keys. Qed.
Print Assumptions C73_delivery_partial.
Example C73_nontrivial : exists b tr b', run true init [User (Add 5); User (Add 6); User (Add 5); User (Add 7)] = Some (b, tr)
  /\ call true b [([Remove 5; Add 5], false); ([Remove 7], true)] = Some (b', [0; 1]) /\ keys b' = [5; 6; 5].
Proof. eexists. eexists. eexists. split; [reflexivity|]. split; reflexivity. Qed.
Print Assumptions C73_nontrivial.
