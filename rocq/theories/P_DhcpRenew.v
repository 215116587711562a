(** Properties C99-C101: the requests of the IPv4 DHCP client for a lease it holds. *)
From Verif Require Import Base DhcpClient_Model DhcpClient_Spec DhcpClient_Proofs DhcpRenew_Spec DhcpRenew_Proofs.

(** C99. A lease is renewed after half of its time at the server and after seven eighths
    of its time everywhere, not before; *)
Theorem C99_not_early : forall os c, runs proper os c -> every on_time (log c).
Proof. exact not_early. Qed.
Print Assumptions C99_not_early.
(** and, unless a NAK arrives while it is held, not later. *)
Theorem C99_in_time : forall os c v, runs (both proper no_nak) os c -> lease_of (log c) = Some v -> caught_up c ->
  (half v <= now c -> h_renew v <> None \/ h_rebind v <> None) /\ (seven_eighths v <= now c -> h_rebind v <> None).
Proof. exact in_time. Qed.
Print Assumptions C99_in_time.
(** A lease of an hour, renewed, renewed again and rebound. *)
Definition hour : list op :=
  lease_for 3600 ++ [OWait 1800000; OFire 3 0; OWait 674000; OFire 6 1999; OWait 676000; OFire 4 0].
Example C99_example : exists c, runs (both proper no_nak) hour c
  /\ log c = [(0, Discover 0); (0, Start true); (0, Request (Some 0x0a000007) (Some 0x01010101) None false); (0, Available 0x0a000007 3600);
              (1800000, Request None None (Some 0x0a000007) true); (2474000, Request None None (Some 0x0a000007) true);
              (3150000, Request None None (Some 0x0a000007) false)]
  /\ lease_of (log c) = Some (Held 0 0x0a000007 3600 (Some 2474000) (Some 3150000)) /\ now c = 3150000 /\ caught_up c.
Proof.
  eexists. split; [apply runs_no_nak; [apply (proper_runs 9 (plain hour)); vm_compute; reflexivity|repeat constructor]|].
  split; [vm_compute; reflexivity|]. split; [vm_compute; reflexivity|]. split; [reflexivity|]. repeat constructor.
Qed.

(** C100. Two renewals at the same destination are a minute apart if the lease is shorter
    than 194 days. *)
Theorem C100_minute_partial : forall os c, runs proper os c -> every (spaced (2 ^ 24)) (log c).
Proof. exact minute_apart. Qed.
Print Assumptions C100_minute_partial.
(** The delay in milliseconds has 32 bits: with a lease of 265 days they are 704 ms apart. *)
Definition year : list op := lease_for 22906496 ++ [OWait 11453248000; OFire 3 1000; OWait 704; OFire 6 0].
Theorem C100_minute_refuted : exists os c, runs proper os c /\ ~ every (spaced (2 ^ 28)) (log c).
Proof.
  exists year. eexists. split; [apply (proper_runs 9 (plain year)); vm_compute; reflexivity|].
  match goal with |- ~ every _ ?h => let l := eval vm_compute in h in change h with l end. intros H.
  specialize (H [_; _; _; _; _] _ _ eq_refl eq_refl _ eq_refl). vm_compute in H. apply H. reflexivity.
Qed.
Print Assumptions C100_minute_refuted.

(** C101. If servers acknowledge the address requested, the address renewed and released is
    the one the user was told. *)
Theorem C101_address_partial : forall os c, runs (both proper honest) os c -> every same_address (log c).
Proof. exact addresses. Qed.
Print Assumptions C101_address_partial.
(** If the acknowledgement is for another address than the offer, the user is told the
    one acknowledged, and the one offered is renewed and released. *)
Definition ack_other : packet := Packet true (Some 5) (Some 0x01010101) (Some 3600) 0x0a000008.
Definition other_address : list op := [OStart None; ORecv offer; ORecv ack_other; OStop].
Theorem C101_address_refuted : exists os c, runs proper os c /\ ~ every same_address (log c).
Proof.
  exists other_address. eexists. split; [apply (proper_runs 9 (plain other_address)); vm_compute; reflexivity|].
  match goal with |- ~ every _ ?h => let l := eval vm_compute in h in change h with l end. intros H.
  specialize (H [_; _; _; _] _ _ eq_refl). cbn in H. destruct H as (v & E & F). injection E as <-. discriminate F.
Qed.
Print Assumptions C101_address_refuted.
(** The hour again: its acknowledgement is for the address offered. *)
Fixpoint honest_run (os : list op) (c : client) : Prop :=
  match os with
  | [] => True
  | o :: os => honest c true Nothing o /\ match step 9 true Nothing o c with Ret c' => honest_run os c' | _ => False end
  end.
Example C101_example : honest_run (hour ++ [OStop]) fresh_client /\ exists c, runs proper (hour ++ [OStop]) c
  /\ asked (log c) = Some 0x0a000007 /\ In (3150000, Release 0x01010101 0x0a000007) (log c).
Proof.
  split; [vm_compute; repeat split; discriminate|]. eexists. split; [apply (proper_runs 9 (plain (hour ++ [OStop]))); vm_compute; reflexivity|].
  split; [reflexivity|]. vm_compute. tauto.
Qed.
