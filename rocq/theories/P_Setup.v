(** Properties C45, C69 and C74: setup of a supplicant process. *)
From Verif Require Import Base Setup_Model Setup_Spec Setup_Proofs.

(** C45 is refuted: the process fails before it answers STATUS; the next one answers
    everything, but the link is not ready. *)
Theorem C45_restart_refuted : exists es u, run fresh es = u /\ es = [Started; Failed; Started; Reply (mkAnswer false false true PEnd)]
  /\ u_wait u = [] /\ u_run u = false.
Proof. exists [Started; Failed; Started; Reply (mkAnswer false false true PEnd)]. eexists. split; [reflexivity|]. vm_compute. auto. Qed.
Print Assumptions C45_restart_refuted.
(** When all requests to a process are answered, the link is ready if and only if no
    request to an earlier process was left unanswered; never before. *)
Theorem C45_ready_partial : forall es rs, at_start es -> Forall is_reply rs -> lost fresh es + 4 < two64 ->
  u_wait (run fresh (es ++ Started :: rs)) = [] -> (u_run (run fresh (es ++ Started :: rs)) = true <-> lost fresh es = 0).
Proof. exact ready_iff. Qed.
Print Assumptions C45_ready_partial.
Theorem C45_not_before_partial : forall es rs, at_start es -> Forall is_reply rs -> lost fresh es + 4 < two64 ->
  u_wait (run fresh (es ++ Started :: rs)) <> [] -> u_run (run fresh (es ++ Started :: rs)) = false.
Proof. exact not_ready_before. Qed.
Print Assumptions C45_not_before_partial.
(** Four replies and one for each listed peer answer everything. *)
Theorem C45_finishes_partial : forall es rs, at_start es -> Forall is_reply rs -> (4 + length (filter is_more rs) <= length rs)%nat ->
  u_wait (run fresh (es ++ Started :: rs)) = [].
Proof. exact setup_finishes. Qed.
Print Assumptions C45_finishes_partial.

(** C69 is refuted: a process without P2P after one with it. *)
Theorem C69_stale_p2p_refuted : exists es a, u_p2p (run fresh (es ++ [Started; Reply a])) = true /\ a_p2p a = false
  /\ u_run (run fresh (es ++ [Started; Reply a])) = true.
Proof.
  exists [Started; Reply (mkAnswer true false true PEnd); Reply (mkAnswer true false true PEnd); Reply (mkAnswer true false true PEnd); Failed],
    (mkAnswer false false true PEnd). vm_compute. auto.
Qed.
Print Assumptions C69_stale_p2p_refuted.
Theorem C69_first_p2p_partial : forall es a rs, at_start es -> Forall is_reply rs -> u_p2p (run fresh es) = false ->
  u_p2p (run fresh (es ++ Started :: Reply a :: rs)) = a_p2p a.
Proof. exact first_p2p. Qed.
Print Assumptions C69_first_p2p_partial.

Definition yes (p : peer_reply) : event := Reply (mkAnswer true true true p).
Example C45_nontrivial :
  let es := [Started; yes PEnd; yes PEnd; yes PMore; yes PEnd; yes PMore; yes PEnd; Failed] in
  let rs := [yes PEnd; yes PEnd; yes PMore; yes PEnd; yes PEnd] in
  lost fresh es = 0 /\ u_wait (run fresh (es ++ Started :: rs)) = [] /\ u_run (run fresh (es ++ Started :: rs)) = true
  /\ u_run (run fresh (es ++ Started :: firstn 4 rs)) = false.
Proof. vm_compute. auto. Qed.
Example C69_nontrivial : u_p2p (run fresh [Started; yes PEnd; yes PMore]) = true /\ u_p2p (run fresh [Started; Reply (mkAnswer false true true PEnd)]) = false.
Proof. vm_compute. auto. Qed.

(** C74 is refuted: a process whose STATUS does not mention Wi-Fi display after one that
    supports it. *)
Theorem C74_stale_wfd_refuted : exists es rs a, at_start es /\ u_wait (run fresh (es ++ Started :: Reply a :: rs)) = []
  /\ u_run (run fresh (es ++ Started :: Reply a :: rs)) = true /\ a_wfd a = false /\ u_wfd (run fresh (es ++ Started :: Reply a :: rs)) = true.
Proof.
  exists [Started; yes PEnd; yes PEnd; yes PEnd; yes PEnd; Failed], [yes PEnd; yes PEnd], (mkAnswer true false true PEnd).
  split; [right; exists [Started; yes PEnd; yes PEnd; yes PEnd; yes PEnd]; reflexivity|]. vm_compute. auto.
Qed.
Print Assumptions C74_stale_wfd_refuted.
(** While no earlier process had P2P: the third request after STATUS is SET wifi_display. *)
Theorem C74_first_wfd_partial : forall es a rs, at_start es -> u_p2p (run fresh es) = false ->
  u_wait (run fresh (es ++ Started :: Reply a :: map Reply rs)) = [] ->
  u_wfd (run fresh (es ++ Started :: Reply a :: map Reply rs)) = a_p2p a && a_wfd a && match nth_error rs 2 with Some d => a_ok d | None => false end.
Proof. exact first_wfd. Qed.
Print Assumptions C74_first_wfd_partial.
Example C74_nontrivial :
  let r ok p := Reply (mkAnswer true true ok p) in
  u_wfd (run fresh [Started; r true PEnd; r true PEnd; r true PMore; r true PEnd; r true PEnd]) = true
  /\ u_wfd (run fresh [Started; r true PEnd; r true PEnd; r true PMore; r false PEnd; r true PEnd]) = false
  /\ u_wait (run fresh [Started; r true PEnd; r true PEnd; r true PMore; r false PEnd; r true PEnd]) = [].
Proof. vm_compute. auto. Qed.
Print Assumptions C74_nontrivial.
