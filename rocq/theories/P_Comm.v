(** Properties C124 to C127: MAC addresses in text, and what wifid learns from miracle-dhcp. *)
From Coq Require Import String.
From Verif Require Import Base Text Comm_Model Comm_Spec Comm_Proofs.
Local Open Scope list_scope.

(** ** C124: the canonical text of a MAC address *)
Theorem C124_form : forall s, exists m, is_mac m /\ reformat_mac s = Ok (canon m).
Proof. exact reformat_form. Qed.
Print Assumptions C124_form.
Theorem C124_reads : forall m t rest, is_mac m -> spelling m t -> no_more rest -> reformat_mac (t ++ rest) = Ok (canon m).
Proof. exact reformat_reads. Qed.
Print Assumptions C124_reads.
Theorem C124_idem : forall s, exists r, reformat_mac s = Ok r /\ reformat_mac r = Ok r /\ lenN r = 17.
Proof. exact reformat_idem. Qed.
Print Assumptions C124_idem.
Theorem C124_canon_inj : forall m m', is_mac m -> is_mac m' -> canon m = canon m' -> m = m'.
Proof. exact canon_inj. Qed.
Print Assumptions C124_canon_inj.
Theorem C124_ntoa : forall m, is_mac m -> spelling m (ether_ntoa m) /\ spelling m (canon m).
Proof. exact (fun m H => conj (ntoa_spelling m H) (canon_spelling m H)). Qed.
Print Assumptions C124_ntoa.
Theorem C124_blanks : forall w s, Forall blank w -> reformat_mac (w ++ s)%list = reformat_mac s.
Proof. exact reformat_blanks. Qed.
Print Assumptions C124_blanks.
Theorem C124_sign : forall c a s, hexc c a -> reformat_mac (45 :: c :: s) = reformat_mac (two ((256 - a) mod 256) ++ s)%list /\ reformat_mac (43 :: c :: s) = reformat_mac (two a ++ s)%list.
Proof. exact reformat_sign. Qed.
Print Assumptions C124_sign.
(** Texts that are no addresses all become the same one. *)
Example C124_ex_none : exists s s', s <> s' /\ reformat_mac s = reformat_mac s' /\ reformat_mac s = Ok (text "00:00:00:00:00:00").
Proof. exists (text "p2p"), (text "none"). vm_compute. split; [discriminate|auto]. Qed.
Example C124_ex : reformat_mac (text "2:A:ff:0C:00:1e persistent") = Ok (text "02:0a:ff:0c:00:1e")
  /\ ether_ntoa [2; 10; 255; 12; 0; 30] = text "2:a:ff:c:0:1e" /\ canon [2; 10; 255; 12; 0; 30] = text "02:0a:ff:0c:00:1e".
Proof. vm_compute. auto. Qed.

(** ** C125: messages of miracle-dhcp *)
Theorem C125_safe : forall g msg, exists o, comm_fn g msg = Ok o /\ (o = None <-> msg = []).
Proof. exact comm_safe. Qed.
Print Assumptions C125_safe.
Theorem C125_remote : forall g m ip, is_mac m -> is_addr ip -> exists g', comm_fn g (server_event m ip) = Ok (Some g') /\ g_local g' = g_local g
  /\ same_peers (g_peers g) (g_peers g') /\ told (canon m) ip (g_peers g) (g_peers g').
Proof. exact said_event. Qed.
Print Assumptions C125_remote.
Theorem C125_local : forall g a, is_addr a -> exists g', comm_fn g (text "L:" ++ a) = Ok (Some g') /\ g_local g' = Some a
  /\ same_peers (g_peers g) (g_peers g') /\ map q_remote (g_peers g') = map q_remote (g_peers g).
Proof. exact said_local. Qed.
Print Assumptions C125_local.
Theorem C125_router : forall g a ps p qs, is_addr a -> g_peers g = ps ++ p :: qs -> Forall (fun p => q_owner p = false) ps -> q_owner p = true ->
  exists g', comm_fn g (text "G:" ++ a) = Ok (Some g') /\ g_local g' = g_local g
  /\ same_peers (g_peers g) (g_peers g') /\ map q_remote (g_peers g') = map q_remote ps ++ Some a :: map q_remote qs.
Proof. exact said_router. Qed.
Print Assumptions C125_router.
Theorem C125_other : forall g k a, is_addr a -> k <> 76 -> k <> 71 -> k <> 82 -> exists g', comm_fn g (k :: 58 :: a) = Ok (Some g') /\ g_local g' = g_local g
  /\ same_peers (g_peers g) (g_peers g') /\ map q_remote (g_peers g') = map q_remote (g_peers g).
Proof. exact said_other. Qed.
Print Assumptions C125_other.
(** The station address of a peer is kept as it was written, and not found if that was with
    capitals. *)
Theorem C125_station_refuted : exists g m ip s p', is_mac m /\ is_addr ip /\ spelling m s
  /\ g_peers g = [mkPeer (text "02:0a:ff:0c:00:1e") (Some s) true false None false]
  /\ comm_fn g (server_event m ip) = Ok (Some (mkGrp (g_local g) [p'])) /\ q_remote p' = None.
Proof.
  exists (mkGrp (Some (text "192.168.7.1")) [mkPeer (text "02:0a:ff:0c:00:1e") (Some (text "02:0A:ff:0c:80:1e")) true false None false]), [2; 10; 255; 12; 128; 30], (text "192.168.7.5"),
    (text "02:0A:ff:0c:80:1e"), (mkPeer (text "02:0a:ff:0c:00:1e") (Some (text "02:0A:ff:0c:80:1e")) true false None false).
  split; [split; [reflexivity|repeat constructor; reflexivity]|].
  split; [apply addr_b; reflexivity|].
  split.
  - exists (text "02"), (text "0A:ff:0c:80:1e"). split; [reflexivity|]. split; [apply (STwo 48 50 0 2); apply hex_val_some; reflexivity|].
    exists (text "0A"), (text "ff:0c:80:1e"). split; [reflexivity|]. split; [apply (STwo 48 65 0 10); apply hex_val_some; reflexivity|].
    exists (text "ff"), (text "0c:80:1e"). split; [reflexivity|]. split; [apply (STwo 102 102 15 15); apply hex_val_some; reflexivity|].
    exists (text "0c"), (text "80:1e"). split; [reflexivity|]. split; [apply (STwo 48 99 0 12); apply hex_val_some; reflexivity|].
    exists (text "80"), (text "1e"). split; [reflexivity|]. split; [apply (STwo 56 48 8 0); apply hex_val_some; reflexivity|]. apply (STwo 49 101 1 14); apply hex_val_some; reflexivity.
  - vm_compute. auto.
Qed.
Print Assumptions C125_station_refuted.
Example C125_ex : exists g, comm_fn (mkGrp None [mkPeer (text "02:0a:ff:0c:00:1e") None true false None false; mkPeer (text "12:0a:ff:0c:00:1e") (Some (text "12:0a:ff:0c:80:1e")) true false None false])
    (server_event [18; 10; 255; 12; 128; 30] (text "192.168.7.5")) = Ok (Some g)
  /\ map q_remote (g_peers g) = [None; Some (text "192.168.7.5")] /\ server_event [18; 10; 255; 12; 128; 30] (text "192.168.7.5") = text "R:12:a:ff:c:80:1e 192.168.7.5".
Proof. eexists. vm_compute. auto. Qed.

(** ** C126: wifid knows the lease *)
Theorem C126_local : forall mac ls c ms a, Forall (fun x => good_lease (fst x)) ls -> leases new_client ls = (c, ms) -> c_runs c = true -> last_addr ls a ->
  exists g, run (owned mac) (map Msg ms) = Ok (Some g) /\ g_local g = Some a.
Proof. exact client_local. Qed.
Print Assumptions C126_local.
(** A client that cannot set its address ends, and says nothing. *)
Theorem C126_fails : forall c l f a, c_runs (fst (lease_fn c l f a)) = true <-> c_runs c = true /\ exists x, l_addr l = Some x /\ (c_addr c = Some (x ++ text "/" ++ mask l)%list \/ f && a = true).
Proof. exact lease_runs. Qed.
Print Assumptions C126_fails.
Theorem C126_silent : forall c l f a, f && a = false -> snd (lease_fn c l f a) = [].
Proof. exact lease_silent. Qed.
Print Assumptions C126_silent.
Theorem C126_remote_partial : forall mac ls c ms r, Forall (fun x => good_lease (fst x)) ls -> leases new_client ls = (c, ms) -> c_runs c = true -> steady ls -> last_router ls r ->
  exists g, run (owned mac) (map Msg ms) = Ok (Some g) /\ map q_remote (g_peers g) = [Some r] /\ map q_conn (g_peers g) = [true].
Proof. exact client_remote. Qed.
Print Assumptions C126_remote_partial.
Definition old : lease := mkLease (Some (text "10.0.0.5")) [text "255.255.255.0"] [] [text "10.0.0.1"].
(** The same address from another router. *)
Theorem C126_stale_refuted : exists mac ls c ms r g, Forall (fun x => good_lease (fst x)) ls /\ leases new_client ls = (c, ms) /\ c_runs c = true /\ last_router ls r
  /\ run (owned mac) (map Msg ms) = Ok (Some g) /\ map q_remote (g_peers g) <> [Some r].
Proof.
  exists (text "02:0a:ff:0c:00:1e"), [(old, (true, true)); (mkLease (l_addr old) (l_subnet old) [] [text "10.0.0.2"], (true, true))]. do 2 eexists. exists (text "10.0.0.2"). eexists.
  split; [|split; [reflexivity|]; split; [reflexivity|]; split; [eexists; eexists; exists []; split; [left; reflexivity|reflexivity]|]; split; [vm_compute; reflexivity|vm_compute; discriminate]].
  repeat (apply Forall_cons; [split; [eexists; split; [reflexivity|apply addr_b; reflexivity]|]; split; [apply Forall_cons; [apply addr_b; reflexivity|apply Forall_nil]|]; split; [constructor|]; apply Forall_cons; [apply addr_b; reflexivity|apply Forall_nil]|]). constructor.
Qed.
Print Assumptions C126_stale_refuted.
(** A lease without a router: the peer is never reported. *)
Theorem C126_router_refuted : exists mac ls c ms a g, Forall (fun x => good_lease (fst x)) ls /\ leases new_client ls = (c, ms) /\ c_runs c = true /\ last_addr ls a
  /\ run (owned mac) (map Msg ms) = Ok (Some g) /\ g_local g = Some a /\ map q_conn (g_peers g) = [false].
Proof.
  exists (text "02:0a:ff:0c:00:1e"), [(mkLease (l_addr old) (l_subnet old) [] [], (true, true))]. do 2 eexists. exists (text "10.0.0.5"). eexists.
  split; [|split; [reflexivity|]; split; [reflexivity|]; split; [eexists; eexists; split; [left; reflexivity|reflexivity]|]; split; [vm_compute; reflexivity|vm_compute; auto]].
  apply Forall_cons; [|constructor]. split; [eexists; split; [reflexivity|apply addr_b; reflexivity]|]. split; [apply Forall_cons; [apply addr_b; reflexivity|apply Forall_nil]|]. split; constructor.
Qed.
Print Assumptions C126_router_refuted.
Example C126_ex :
  let ls := [(old, (true, true)); (old, (true, true)); (mkLease (Some (text "10.0.1.9")) [] [text "10.0.1.2"] [text "10.0.1.1"], (true, true))] in
  steady ls /\ c_runs (fst (leases new_client ls)) = true
  /\ snd (leases new_client ls) = [text "L:10.0.0.5"; text "S:255.255.255.0"; text "G:10.0.0.1"; text "L:10.0.1.9"; text "S:24"; text "D:10.0.1.2"; text "G:10.0.1.1"]
  /\ run (owned (text "02:0a:ff:0c:00:1e")) (map Msg (snd (leases new_client ls)))
     = Ok (Some (mkGrp (Some (text "10.0.1.9")) [mkPeer (text "02:0a:ff:0c:00:1e") None true true (Some (text "10.0.1.1")) true])).
Proof. vm_compute. repeat split; discriminate. Qed.

(** ** C127: wifid knows the peers of its own group *)
Theorem C127_peer_partial : forall g m ip a p b, is_mac m -> is_addr ip -> g_local g <> None -> Forall (fun p => q_owner p = false) (g_peers g) ->
  g_peers g = a ++ p :: b -> Forall (fun q => ~ knows (canon m) q) a -> knows (canon m) p -> q_in p = true ->
  exists g' p', comm_fn g (server_event m ip) = Ok (Some g') /\ nth_error (g_peers g') (List.length a) = Some p' /\ q_mac p' = q_mac p /\ q_remote p' = Some ip /\ q_conn p' = true.
Proof. exact server_peer. Qed.
Print Assumptions C127_peer_partial.
Theorem C127_line_partial : forall g k t g' i p, t <> [] -> lenN t <= 509 -> Forall (fun c => c <> 0) t -> Forall (fun p => q_owner p = false) (g_peers g) -> comm_fn g (k :: 58 :: t) = Ok (Some g') ->
  g_local g' <> None -> nth_error (g_peers g') i = Some p -> q_in p = true -> q_remote p <> None -> q_conn p = true.
Proof. exact line_reports. Qed.
Print Assumptions C127_line_partial.
(** The address of the peer is told before it joins. *)
Theorem C127_late_refuted : exists m ip mac g, is_mac m /\ is_addr ip /\ mac = canon m
  /\ run (mkGrp None [mkPeer mac None false false None false]) [Msg (server_up (text "192.168.7.1")); Msg (server_event m ip); Join mac] = Ok (Some g)
  /\ g_local g <> None /\ g_peers g = [mkPeer mac None true false (Some ip) false].
Proof.
  exists [2; 10; 255; 12; 0; 30], (text "192.168.7.5"), (text "02:0a:ff:0c:00:1e"). eexists. split; [split; [reflexivity|repeat constructor; reflexivity]|]. split; [apply addr_b; reflexivity|].
  split; [reflexivity|]. split; [vm_compute; reflexivity|]. split; [discriminate|reflexivity].
Qed.
Print Assumptions C127_late_refuted.
Example C127_ex :
  run (mkGrp None [mkPeer (text "02:0a:ff:0c:00:1e") None false false None false])
    [Msg (server_up (text "192.168.7.1")); Join (text "02:0a:ff:0c:00:1e"); Msg (server_event [2; 10; 255; 12; 0; 30] (text "192.168.7.5"))]
  = Ok (Some (mkGrp (Some (text "192.168.7.1")) [mkPeer (text "02:0a:ff:0c:00:1e") None true false (Some (text "192.168.7.5")) true])).
Proof. vm_compute. reflexivity. Qed.
