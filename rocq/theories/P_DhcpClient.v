(** Properties C82-C88: the IPv4 DHCP client. *)
From Verif Require Import Base DhcpClient_Model DhcpClient_Spec DhcpClient_Proofs.
From Verif Require DhcpOpt_Model.

(** C82. A client that does not run, and whose callbacks did not call it, has no timer left. *)
Theorem C82_stopped_partial : forall os c, runs proper os c -> running (log c) = false -> srcs c = [].
Proof. exact idle_after_stop. Qed.
Print Assumptions C82_stopped_partial.
(** Starting twice leaves a timer behind that no later stop removes. *)
Theorem C82_started_twice_refuted : exists os c,
  run 9 (plain (os ++ [OStop])) fresh_client = Ret c /\ running (log c) = false /\ srcs c <> [].
Proof. exists [OStart None; OStart None]. eexists. split; [vm_compute; reflexivity|]. split; [vm_compute; reflexivity|]. vm_compute. discriminate. Qed.
Print Assumptions C82_started_twice_refuted.
(** Stopping in the callback of the lease: the timers of the lease are set afterwards. *)
Theorem C82_stopped_in_callback_refuted : exists os p c,
  run 9 (plain os ++ [(true, DoStop, ORecv p)]) fresh_client = Ret c /\ running (log c) = false /\ srcs c <> [].
Proof. exists [OStart None; ORecv offer], (ack 3600). eexists. split; [vm_compute; reflexivity|]. split; [vm_compute; reflexivity|]. vm_compute. discriminate. Qed.
Print Assumptions C82_stopped_in_callback_refuted.
(** Timers that have run are removed again. *)
Theorem C82_removed_once_refuted : exists os c, runs proper os c /\ exists t, In (t, NotFound) (log c).
Proof.
  exists (rebinding 40). eexists. split; [apply (proper_runs 9 (plain (rebinding 40))); vm_compute; reflexivity|]. eexists. vm_compute. do 5 right. left. reflexivity.
Qed.
Print Assumptions C82_removed_once_refuted.

(** C83. Unless a NAK arrives while it is held, a lease is reported lost before its time ends. *)
Theorem C83_lease_ends_partial : forall os c d,
  runs (both proper no_nak) os c -> deadline (log c) = Some d -> caught_up c -> now c < d.
Proof. exact lease_ends. Qed.
Print Assumptions C83_lease_ends_partial.
(** After a NAK while rebinding the end of the lease is never reported. *)
Theorem C83_nak_refuted : exists os c d,
  runs proper os c /\ deadline (log c) = Some d /\ caught_up c /\ d <= now c.
Proof.
  exists (rebinding 40 ++ [ORecv nak; OWait 3000; OFire 6 0; OWait 4000]). eexists. eexists.
  split; [apply (proper_runs 9 (plain (rebinding 40 ++ [ORecv nak; OWait 3000; OFire 6 0; OWait 4000]))); vm_compute; reflexivity|].
  split; [vm_compute; reflexivity|]. split; [|vm_compute; discriminate]. repeat constructor.
Qed.
Print Assumptions C83_nak_refuted.

(** C84. While renewing, every packet is ignored. *)
Theorem C84_renewal_refuted : exists os c p,
  runs proper os c /\ st c = RENEWING /\ watch c = true /\ p_owner p = true /\ p_type p = Some 5 /\ p_lease p = Some 3600
  /\ forall fuel sock r, step fuel sock r (ORecv p) c = Ret c.
Proof.
  exists (lease_for 3600 ++ [OWait 1800000; OFire 3 0]). eexists. exists (ack 3600).
  split; [apply (proper_runs 9 (plain (lease_for 3600 ++ [OWait 1800000; OFire 3 0]))); vm_compute; reflexivity|].
  do 5 (split; [reflexivity|]). intros fuel sock r. reflexivity.
Qed.
Print Assumptions C84_renewal_refuted.
Theorem C84_always_ignored : forall os c p fuel sock r,
  runs proper os c -> st c = RENEWING -> step fuel sock r (ORecv p) c = Ret c.
Proof. exact renewing_deaf. Qed.
Print Assumptions C84_always_ignored.
(** For the packet is looked into with a length of 0. *)
Theorem C84_no_option : forall code p fuel, lenN p = 628 -> (389 <= fuel)%nat -> DhcpOpt_Model.get_option fuel p 0 code = Ok (Some None).
Proof. exact no_length_no_option. Qed.
Print Assumptions C84_no_option.
(** While rebinding an answer extends the lease. *)
Theorem C84_rebinding_partial : forall fuel sock p os c l, runs proper os c ->
  st c = REBINDING -> lmode c = L2 -> watch c = true -> p_owner p = true -> p_type p = Some 5 -> p_lease p = Some l -> 10 <= l < 2 ^ 28 ->
  exists c', step fuel sock Nothing (ORecv p) c = Ret c' /\ deadline (log c') = Some (now c + l * 1000).
Proof. exact rebinding_extends. Qed.
Print Assumptions C84_rebinding_partial.

(** C85. The handshake: after a stop, whatever happened before. *)
Theorem C85_handshake_partial : forall fuel c a b offer ack s l,
  p_owner offer = true -> p_type offer = Some 2 -> p_server offer = Some s ->
  p_owner ack = true -> p_type ack = Some 5 -> p_lease ack = Some l -> 10 <= l < 2 ^ 28 ->
  exists c0 c', step (S fuel) true Nothing OStop c = Ret c0 /\
    run (S fuel) (map (fun o => (true, Nothing, o)) [OStart None; OWait a; ORecv offer; OWait b; ORecv ack]) c0 = Ret c' /\
    log c' = log c0 ++ [(now c0, Discover 0); (now c0, Start true); (now c0 + a, Request (Some (p_yiaddr offer)) (Some s) None false);
                        (now c0 + a + b, Available (p_yiaddr ack) l)].
Proof. exact handshake. Qed.
Print Assumptions C85_handshake_partial.
(** After the report that there is no lease, a new start without a stop does not answer an offer; *)
Theorem C85_start_again_refuted : exists os c c', run 9 (plain os) fresh_client = Ret c /\ gave_up (log c) = true /\
  run 9 (plain [OStart None; ORecv offer]) c = Ret c' /\ log c' = log c ++ [(now c, Discover 0); (now c, Start true)].
Proof. exists no_answer. eexists. eexists. split; [vm_compute; reflexivity|]. split; [reflexivity|]. split; [vm_compute; reflexivity|]. reflexivity. Qed.
Print Assumptions C85_start_again_refuted.
(** and after an error of the socket the client is deaf, even when started again. *)
Theorem C85_socket_error_refuted : exists os c c', run 9 (plain (OStart None :: OError :: os)) fresh_client = Ret c /\ gave_up (log c) = true /\
  run 9 (plain [OStart None; ORecv offer]) c = Ret c' /\ log c' = log c ++ [(now c, Discover 0); (now c, Start true)].
Proof. exists (waits 1 6). eexists. eexists. split; [vm_compute; reflexivity|]. split; [reflexivity|]. split; [vm_compute; reflexivity|]. reflexivity. Qed.
Print Assumptions C85_socket_error_refuted.

(** C86. Without callbacks that call the client, every step ends; only a packet without server
    identifier can be fatal. *)
Theorem C86_every_step_ends_partial : forall fuel sock o c,
  (forall p, o = ORecv p -> p_server p <> None) -> exists c', step (S fuel) sock Nothing o c = Ret c'.
Proof. exact step_ret. Qed.
Print Assumptions C86_every_step_ends_partial.
(** An offer without it is, and so is an acknowledgement to a client that asks for its last
    address: a null pointer is read. *)
Theorem C86_no_server_refuted : exists os c p, runs proper os c /\ p_type p = Some 2 /\ forall fuel sock r, step fuel sock r (ORecv p) c = Undef.
Proof.
  exists [OStart None]. eexists. exists (Packet true (Some 2) None None 0x0a000007).
  split; [apply (proper_runs 9 (plain [OStart None])); vm_compute; reflexivity|]. split; [reflexivity|]. intros. reflexivity.
Qed.
Print Assumptions C86_no_server_refuted.
Theorem C86_no_server_reboot_refuted : exists os c p, runs proper os c /\ p_type p = Some 5 /\ forall fuel sock r, step fuel sock r (ORecv p) c = Undef.
Proof.
  exists [OStart (Some 0x0a000007)]. eexists. exists (Packet true (Some 5) None (Some 3600) 0x0a000007).
  split; [apply (proper_runs 9 (plain [OStart (Some 0x0a000007)])); vm_compute; reflexivity|]. split; [reflexivity|]. intros fuel sock r. destruct sock; reflexivity.
Qed.
Print Assumptions C86_no_server_reboot_refuted.
(** Starting again in the callback that reports no lease never ends. *)
Theorem C86_start_in_callback_refuted : exists os c id, runs proper os c /\ forall fuel sock la rnd, step fuel sock (DoStart la) (OFire id rnd) c = Endless.
Proof.
  exists (OStart None :: waits 1 5 ++ [OWait 5000]). eexists. exists 6.
  split; [apply (proper_runs 9 (plain (OStart None :: waits 1 5 ++ [OWait 5000]))); vm_compute; reflexivity|].
  intros fuel sock la rnd. apply (step_endless _ _ _ _ _ 30000); [reflexivity|vm_compute; discriminate|reflexivity].
Qed.
Print Assumptions C86_start_in_callback_refuted.

(** C87. A client that was started and did not give up has a timer: it goes on. *)
Theorem C87_goes_on_partial : forall os c, runs (both proper sockets) os c -> running (log c) = true -> gave_up (log c) = false -> srcs c <> [].
Proof. exact never_stuck. Qed.
Print Assumptions C87_goes_on_partial.
(** A socket that cannot be made when the lease has ended: it neither goes on nor gives up. *)
Theorem C87_no_socket_refuted : exists os c, runs proper os c /\ running (log c) = true /\ gave_up (log c) = false /\ srcs c = [].
Proof.
  exists (map snd (plain (lease_for 40 ++ [OWait 40000]) ++ [(false, Nothing, OFire 5 0)])). eexists.
  split; [apply (proper_runs 9 (plain (lease_for 40 ++ [OWait 40000]) ++ [(false, Nothing, OFire 5 0)])); vm_compute; reflexivity|].
  split; [vm_compute; reflexivity|]. split; vm_compute; reflexivity.
Qed.
Print Assumptions C87_no_socket_refuted.
(** A client that gave up goes on when a late offer or NAK arrives. *)
Theorem C87_silent_refuted : exists os c p c', runs proper os c /\ gave_up (log c) = true /\ srcs c = [] /\
  step 9 true Nothing (ORecv p) c = Ret c' /\ exists l a s, log c' = log c ++ l /\ In (now c, Request (Some a) (Some s) None false) l.
Proof.
  exists (OStart None :: waits 1 6). eexists. exists offer. eexists.
  split; [apply (proper_runs 9 (plain (OStart None :: waits 1 6))); vm_compute; reflexivity|]. split; [reflexivity|]. split; [reflexivity|]. split; [vm_compute; reflexivity|].
  exists [(30000, NotFound); (30000, Request (Some 0x0a000007) (Some 0x01010101) None false)]. eexists. eexists. split; [reflexivity|]. right. left. reflexivity.
Qed.
Print Assumptions C87_silent_refuted.

(** C88. Left alone, a client sends at most six DISCOVERs, if it was not refused seven times. *)
Theorem C88_six_discovers_partial : forall os c fuel os' c', runs proper os c -> naks os <= 6 -> alone_steps os' -> run fuel os' c = Ret c' ->
  exists l, log c' = log c ++ l /\ discovers l <= 6.
Proof. exact six_discovers. Qed.
Print Assumptions C88_six_discovers_partial.
(** After seven NAKs (the sixth makes it give up, a late offer makes it go on) it sends hundreds. *)
Theorem C88_refused_refuted : exists os c os' c' l, runs proper os c /\ naks os = 7 /\ alone_steps os' /\ run 9 os' c = Ret c' /\
  log c' = log c ++ l /\ 200 < discovers l.
Proof.
  exists (rounds 6 ++ [ORecv offer; ORecv nak; OWait 3000; OFire 20 0]). eexists. exists (plain (waits 21 210)). eexists. eexists.
  split; [apply (proper_runs 9 (plain (rounds 6 ++ [ORecv offer; ORecv nak; OWait 3000; OFire 20 0]))); vm_compute; reflexivity|]. split; [reflexivity|]. split; [apply plain_alone, waits_alone|].
  split; [vm_compute; reflexivity|]. split; [vm_compute; reflexivity|]. vm_compute. reflexivity.
Qed.
Print Assumptions C88_refused_refuted.

(** Examples. A lease of an hour, kept by rebinding, and given back. *)
Example C82_ex : exists c, run 9 (plain (lease_for 3600 ++ [OStop])) fresh_client = Ret c /\ srcs c = []
  /\ map snd (log c) = [Discover 0; Start true; Request (Some 0x0a000007) (Some 0x01010101) None false; Available 0x0a000007 3600; Release 0x01010101 0x0a000007; Stop].
Proof. eexists. split; [vm_compute; reflexivity|]. split; vm_compute; reflexivity. Qed.
Example C83_ex : exists c, runs (both proper no_nak) (lease_for 40) c /\ deadline (log c) = Some 40000 /\ caught_up c.
Proof.
  eexists. split; [|split].
  - apply runs_no_nak; [apply (proper_runs 9 (plain (lease_for 40))); vm_compute; reflexivity|repeat constructor].
  - vm_compute. reflexivity.
  - repeat constructor.
Qed.
Example C84_ex : exists c c', run 9 (plain (rebinding 3600)) fresh_client = Ret c /\ st c = REBINDING /\ lmode c = L2 /\ watch c = true
  /\ deadline (log c) = Some 3600000 /\ step 9 true Nothing (ORecv (ack 3600)) c = Ret c' /\ deadline (log c') = Some 6750000.
Proof. eexists. eexists. split; [vm_compute; reflexivity|]. do 4 (split; [vm_compute; reflexivity|]). split; vm_compute; reflexivity. Qed.
Example C87_ex : exists c, run 9 (plain [OStart None]) fresh_client = Ret c /\ srcs c = [Src 1 KDiscover 5000].
Proof. eexists. split; vm_compute; reflexivity. Qed.
Example C88_ex : exists c, run 9 (plain (OStart None :: waits 1 6)) fresh_client = Ret c /\ discovers (log c) = 6 /\ gave_up (log c) = true.
Proof. eexists. split; [vm_compute; reflexivity|]. split; vm_compute; reflexivity. Qed.
