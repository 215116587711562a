(** Properties C43, C44 and C70: P2P groups. *)
From Verif Require Import Base Groups_Model Groups_Spec Groups_Proofs.

(** C43 *)
Theorem C43_subnets_distinct : forall es s g, run init es = Ret s -> In g (s_groups s) -> g_go g = true ->
  50 <= g_subnet g < 256 /\ forall h, In h (s_groups s) -> g_id h <> g_id g -> g_subnet h <> g_subnet g.
Proof. exact subnets. Qed.
Print Assumptions C43_subnets_distinct.
Theorem C43_start_iff : forall es s mac own ifn go id, run init es = Ret s -> (forall g, In g (s_groups s) -> g_id g <> id /\ g_if g <> ifn) ->
  (own = true \/ exists p, In p (s_peers s) /\ p_mac p = mac) ->
  exists s', step s (GroupStarted mac own ifn go id true) = Ret s' /\
    ((exists g, In g (s_groups s') /\ g_if g = ifn) <-> go = false \/ exists n, free_subnet s n).
Proof. exact start_iff. Qed.
Print Assumptions C43_start_iff.

(** C44 is refuted in three ways. A local group with one station is torn down: it is
    freed twice. *)
Definition own_group : event := GroupStarted 99 true 7 true 1000 true.
Theorem C44_double_free_refuted : exists es s, run init es = Ret s /\ s_groups s <> [] /\ step s (DhcpExit 1000) = Undef.
Proof. exists [PeerNew 1 11; own_group; StaJoined 11 7]. eexists. split; [reflexivity|]. split; [discriminate|vm_compute; reflexivity]. Qed.
Print Assumptions C44_double_free_refuted.
(** The owner of a group is lost; the group refers to it when its DHCP client reports
    an address. *)
Theorem C44_use_after_free_refuted : exists es s, run init es = Ret s /\ s_peers s = [] /\ step s (DhcpLine 1000 G) = Undef.
Proof. exists [PeerNew 1 11; GroupStarted 11 false 7 false 1000 true; PeerLost 11]. eexists. split; [reflexivity|]. split; [reflexivity|vm_compute; reflexivity]. Qed.
Print Assumptions C44_use_after_free_refuted.
(** The only member of a group leaves and the group stays. *)
Theorem C44_never_freed_refuted : exists es s, run init es = Ret s /\ (exists g, In g (s_groups s)) /\ s_peers s = []
  /\ exists s1 p, run init (removelast es) = Ret s1 /\ s_peers s1 = [p] /\ p_g p <> None.
Proof.
  exists [PeerNew 1 11; GroupStarted 11 false 7 false 1000 true; PeerLost 11]. eexists. split; [reflexivity|].
  split; [eexists; left; reflexivity|]. split; [reflexivity|]. eexists. eexists. split; [reflexivity|]. split; [reflexivity|discriminate].
Qed.
Print Assumptions C44_never_freed_refuted.
(** These are the only undefined steps: groups are freed at most once otherwise. *)
Theorem C44_undefined_iff_partial : forall es s e, run init es = Ret s -> (step s e = Undef <-> bad s e) /\ step s e <> Endless.
Proof. exact undef_iff. Qed.
Print Assumptions C44_undefined_iff_partial.
Theorem C44_no_dangling_partial : forall es s, run init es = Ret s -> no_dangling s.
Proof. exact dangling_free. Qed.
Print Assumptions C44_no_dangling_partial.
(** When tearing down frees twice: for a local group without owner, if it has a
    station; never while the owner is a member. *)
Theorem C44_torn_twice_partial : forall es s g, run init es = Ret s -> In g (s_groups s) ->
  (torn_twice s g <-> 0 < g_users g /\ g_users g = others g (s_peers s)) /\
  (g_sp g = None -> (torn_twice s g <-> exists p, In p (s_peers s) /\ p_g p = Some (g_id g))) /\
  ((exists p, In p (s_peers s) /\ p_g p = Some (g_id g) /\ g_sp g = Some (p_id p)) -> ~ torn_twice s g).
Proof. exact torn_iff. Qed.
Print Assumptions C44_torn_twice_partial.
Theorem C44_teardown_partial : forall es s g e s', run init es = Ret s -> In g (s_groups s) ->
  e = Removed (g_if g) \/ e = DhcpExit (g_id g) -> step s e = Ret s' -> torn_down s s' g.
Proof. exact teardown. Qed.
Print Assumptions C44_teardown_partial.
Theorem C44_last_station_partial : forall es s g p e s', run init es = Ret s -> In g (s_groups s) -> g_sp g = None -> In p (s_peers s) ->
  p_g p = Some (g_id g) -> (forall q, In q (s_peers s) -> p_g q = Some (g_id g) -> q = p) ->
  e = StaLeft (p_mac p) \/ e = Disconnect (p_mac p) -> step s e = Ret s' -> torn_down s s' g.
Proof. exact last_leaves. Qed.
Print Assumptions C44_last_station_partial.
Theorem C44_stopped_partial : forall es s, run init es = Ret s -> step s Stopped = Ret init.
Proof. exact stop_all. Qed.
Print Assumptions C44_stopped_partial.

(** C70 is refuted: a peer leaves the group it owns and is reported connected again. *)
Theorem C70_connected_refuted : exists es s p, run init es = Ret s /\ s_peers s = [p] /\ p_conn p = true /\ p_g p = None.
Proof.
  exists [PeerNew 1 11; GroupStarted 11 false 7 false 1000 true; DhcpLine 1000 L; DhcpLine 1000 G; Disconnect 11; DhcpLine 1000 G].
  eexists. eexists. split; [reflexivity|]. split; [reflexivity|]. split; reflexivity.
Qed.
Print Assumptions C70_connected_refuted.
Theorem C70_connected_partial : forall es s, owners_in es -> run init es = Ret s -> forall p, In p (s_peers s) -> p_conn p = true -> p_g p <> None.
Proof. exact connected_in. Qed.
Print Assumptions C70_connected_partial.

(** Two local groups, one with two stations of which one leaves. *)
Definition history : list event := [PeerNew 1 11; PeerNew 2 12; own_group; GroupStarted 99 true 8 true 1001 true; StaJoined 11 7; StaJoined 12 7;
  DhcpLine 1000 L; DhcpLine 1000 (R (Some 1)); StaLeft 12].
Example C43_nontrivial : exists s, run init history = Ret s /\ map g_subnet (s_groups s) = [51; 50]
  /\ map p_conn (s_peers s) = [false; true] /\ map g_users (s_groups s) = [0; 1].
Proof. eexists. split; [vm_compute; reflexivity|]. vm_compute. auto. Qed.
Example C44_nontrivial : exists s s', run init history = Ret s /\ step s (StaLeft 11) = Ret s' /\ map g_if (s_groups s') = [8]
  /\ exists s2, step s (Removed 8) = Ret s2 /\ map g_if (s_groups s2) = [7].
Proof. eexists. eexists. split; [vm_compute; reflexivity|]. split; [vm_compute; reflexivity|]. split; [reflexivity|]. eexists. split; vm_compute; reflexivity. Qed.
(** All subnets taken. *)
Definition many (n : nat) : list event := map (fun i => GroupStarted 99 true (N.of_nat i) true (N.of_nat i) true) (seq 0 n).
Example C43_taken : exists s s', run init (many 206) = Ret s /\ lenN (s_groups s) = 206 /\ step s (GroupStarted 99 true 300 true 300 true) = Ret s' /\ lenN (s_groups s') = 206.
Proof. eexists. eexists. split; [vm_compute; reflexivity|]. split; [vm_compute; reflexivity|]. split; [vm_compute; reflexivity|]. vm_compute. reflexivity. Qed.
Example C70_nontrivial : let es := [PeerNew 1 11; own_group; StaJoined 11 7; DhcpLine 1000 L; DhcpLine 1000 (R (Some 1))] in
  owners_in es /\ exists s, run init es = Ret s /\ map p_conn (s_peers s) = [true].
Proof.
  cbv zeta. split; [|eexists; split; [vm_compute; reflexivity|reflexivity]].
  intros es1 id l es2 s g o E R Hg _ Eo. exfalso.
  assert (H : Forall (fun g => g_sp g = None) (s_groups s)).
  { destruct es1 as [|? [|? [|? [|? [|? es1]]]]]; try discriminate; simpl in E; injection E as <- E || injection E as E;
    try (injection E as E1 E2; subst); try discriminate.
    all: try (inversion E; subst; vm_compute in R; injection R as <-; repeat constructor).
    all: destruct es1; discriminate. }
  rewrite Forall_forall in H. rewrite (H g Hg) in Eo. discriminate.
Qed.
