(** Properties C197-C200: the DHCP client and the DHCP server of the program talking to each
    other. *)
From Coq Require Import Permutation.
From Verif Require Import Base DhcpOpt_Model DhcpOpt_Spec DhcpServer_Model DhcpServer_Spec DhcpServer_Proofs.
From Verif Require Import DhcpClient_Model DhcpTalk_Model DhcpTalk_Spec DhcpTalk_Lease.

(** miracle-dhcp on 192.168.49.1 and its client. *)
Definition ip (d : N) : N := 0xC0A83100 + d.
Definition srv : server := server_new (ip 100) (ip 199) 0x0131A8C0 3600 [(1, 0xFFFFFF00); (3, ip 1)].
Definition A : list byte := [2; 0; 0; 0; 0; 1].
Definition calls : list call := [SetSend 12 [60; 104; 62]; SetRequest 1; SetRequest 6; SetRequest 3; SetRequest 6].
Definition k : config := fold_left configure calls (new_config A).
Definition xid : list byte := [9; 8; 7; 6].
Definition T0 : N := 1700000000.

(** C197 is refuted: when all 256 codes are requested the length byte is 0 and nothing is
    requested; ... *)
Theorem C197_all_codes_refuted : exists l k p i,
  configured_by A l k /\ (forall code, In (SetRequest code) l -> code < 256) /\ lenN (k_reqs k) = 256 /\
  render_event k xid 0 (Discover 0) = Ok (Some p) /\
  get_option 400 p 548 55 = Ok (Some (Some i)) /\ nthN p (i - 1) = Some 0.
Proof.
  exists (map (fun n => SetRequest (N.of_nat n)) (seq 0 256)), (Config A (map N.of_nat (rev (seq 0 256))) []). eexists _, _.
  split; [split; [reflexivity|]; split; [reflexivity|]; split; [vm_compute; reflexivity|vm_compute; apply perm_nil]|].
  split; [intros code H; apply in_map_iff in H as (n & [= <-] & Hn); apply in_seq in Hn; lia|].
  split; [vm_compute; reflexivity|]. split; [vm_compute; reflexivity|]. split; vm_compute; reflexivity.
Qed.
Print Assumptions C197_all_codes_refuted.
(** ... a code above 255 requests another option; ... *)
Theorem C197_code_refuted : exists k p i, k = fold_left configure [SetRequest 257] (new_config A) /\
  render_event k xid 0 (Discover 0) = Ok (Some p) /\
  get_option 400 p 548 55 = Ok (Some (Some i)) /\ nthN p (i - 1) = Some 1 /\ nthN p i = Some 1.
Proof. eexists _, _, _. split; [reflexivity|]. split; [vm_compute; reflexivity|]. repeat split; vm_compute; reflexivity. Qed.
Print Assumptions C197_code_refuted.
(** ... with many of them the client writes after its packet; ... *)
Theorem C197_overflow_refuted : exists k,
  k = fold_left configure (map (fun n => SetRequest (N.of_nat n)) (seq 1 380)) (new_config A) /\
  render_event k xid 0 (Discover 0) = UB.
Proof. eexists. split; [reflexivity|]. vm_compute. reflexivity. Qed.
Print Assumptions C197_overflow_refuted.
(** ... and when the clock was set back by a second, 65535 seconds are claimed. *)
Theorem C197_secs_refuted : exists p, render_event k xid (-1) (Discover 0) = Ok (Some p) /\
  nthN p 8 = Some 255 /\ nthN p 9 = Some 255.
Proof. eexists. split; [vm_compute; reflexivity|]. split; vm_compute; reflexivity. Qed.
Print Assumptions C197_secs_refuted.

(** What holds: if the requested codes are real ones and the clock does not go back, every
    message is this one, whatever the values to send. *)
Theorem C197_message_partial : forall mac l k xid el e t, configured_by mac l k -> real_codes l -> lenN xid = 4 -> message_type e = Some t ->
  exists p, render_event k xid (Z.of_N el) e = Ok (Some p) /\ payload e p = message k xid el e /\ lenN (payload e p) = 548.
Proof. exact messages. Qed.
Print Assumptions C197_message_partial.

Example C197_nontrivial : configured_by A calls k /\ real_codes calls /\
  all_options k (Request (Some (ip 100)) (Some 0x0131A8C0) None false)
  = [(53, [3]); (50, [0xC0; 0xA8; 0x31; 100]); (54, [1; 0x31; 0xA8; 0xC0]); (57, [2; 64]); (55, [3; 6; 1]); (12, [60; 104; 62])]
  /\ takeN 48 (message k xid 300 (Request (Some (ip 100)) (Some 0x0131A8C0) None false))
  = [1; 1; 6; 0; 9; 8; 7; 6; 1; 44; 128; 0; 0; 0; 0; 0] ++ repeat 0 12 ++ A ++ repeat 0 14.
Proof.
  split; [split; [reflexivity|]; split; [reflexivity|]; split; [reflexivity|apply Permutation_refl]|].
  split; [|split; vm_compute; reflexivity].
  intros code [H|[H|[H|[H|[H|[]]]]]]; try discriminate H; injection H as <-; split; discriminate.
Qed.

(** C198 is refuted: the server reads the address the client has the wrong way round. *)
Theorem C198_in_use_refuted : exists p,
  render_event k xid 0 (Request None None (Some (ip 100)) true) = Ok (Some p) /\
  decode 400 srv (payload (Request None None (Some (ip 100)) true) p) = Ret (Some (mkInput 3 None None 0x6431A8C0 A)).
Proof. eexists. split; [vm_compute; reflexivity|]. vm_compute. reflexivity. Qed.
Print Assumptions C198_in_use_refuted.

(** What holds: of every message for it, and of no other, the server reads type, server,
    requested address and hardware address as the client means them (and the address in use
    if it reads the same in both directions); ... *)
Theorem C198_server_partial : forall mac l k xid el e t s p fuel,
  configured_by mac l k -> real_codes l -> lenN xid = 4 -> message_type e = Some t -> (400 <= fuel)%nat ->
  render_event k xid (Z.of_N el) e = Ok (Some p) ->
  decode fuel s (payload e p)
  = Ret (if match meant e with Some v => negb (v =? server_nip s) | None => false end then None
         else Some (mkInput t (meant e) (asked_for e) (swap32 (in_use e)) mac)).
Proof. exact understood. Qed.
Print Assumptions C198_server_partial.
(** ... the client reads every answer as the server means it; ... *)
Theorem C198_client_partial : forall mac l k xid el e t s p m fuel rest,
  configured_by mac l k -> real_codes l -> lenN xid = 4 -> message_type e = Some t -> (400 <= fuel)%nat ->
  config_ok s -> render_event k xid (Z.of_N el) e = Ok (Some p) ->
  exists r, render s (received (payload e p)) m = Ok (Some r)
  /\ read_packet fuel k xid (takeN 548 (DhcpRaw_Model.set_broadcast r) ++ rest) 548 = Ret (answer_read s m).
Proof. exact answer_understood. Qed.
Print Assumptions C198_client_partial.
(** ... and no other client, nor one with another transaction, takes it for its own. *)
Theorem C198_others_partial : forall mac l k xid el e t s p m fuel rest k' xid',
  configured_by mac l k -> real_codes l -> lenN xid = 4 -> message_type e = Some t ->
  config_ok s -> render_event k xid (Z.of_N el) e = Ok (Some p) -> xid' <> xid \/ k_mac k' <> mac ->
  exists r q, render s (received (payload e p)) m = Ok (Some r)
  /\ read_packet fuel k' xid' (takeN 548 (DhcpRaw_Model.set_broadcast r) ++ rest) 548 = Ret q /\ p_owner q = false.
Proof. exact answer_not_taken. Qed.
Print Assumptions C198_others_partial.

Example C198_nontrivial :
  swap32 (ip 100) = 0x6431A8C0 /\ swap32 0x0A01010A = 0x0A01010A /\
  answer_read srv (Offer (ip 100)) = Packet true (Some 2) (Some 0x0131A8C0) (Some 3600) (ip 100) /\
  exists p, render_event k xid 7 (Request (Some (ip 100)) (Some 0x0131A8C0) None false) = Ok (Some p) /\
  decode 400 srv (payload (Request (Some (ip 100)) (Some 0x0131A8C0) None false) p)
  = Ret (Some (mkInput 3 (Some 0x0131A8C0) (Some (ip 100)) 0 A)).
Proof. split; [reflexivity|]. split; [reflexivity|]. split; [reflexivity|]. eexists. split; [vm_compute; reflexivity|]. vm_compute. reflexivity. Qed.

(** C199. As long as the server has an address, a client's first message is answered with an
    offer; ... *)
Theorem C199_offered : forall mac calls k fuel xid rest a b me secs0 opts0 evs s o now el req,
  configured_by mac calls k -> real_codes calls ->
  (400 <= fuel)%nat -> lenN xid = 4 -> a < 2 ^ 32 -> b < 2 ^ 32 - 1 -> (forall ev, In ev evs -> e_now ev + secs0 < 2 ^ 31) ->
  history fuel (server_new a b me secs0 opts0) evs = Ret (s, o) -> config_ok s ->
  (N.to_nat (b + 1 - a) < fuel)%nat -> real_client mac ->
  free_address s \/ (exists x, has s x /\ DhcpServer_Model.expire x < now) ->
  exists s' p, exchange fuel true now s k xid (Z.of_N el) (Discover req) rest = Ret (s', [p]) /\ p_type p = Some 2 /\ p_owner p = true.
Proof. exact discover_offered. Qed.
Print Assumptions C199_offered.
(** ... and a client that gets an offer sends a request, which, whatever the server handles
    in between that leaves the address alone, is acknowledged: the client reports the address
    as available for the server's lease time, and the server holds it for the client. *)
Theorem C199_lease : forall mac calls k fuel xid rest s t1 el1 req s1 p1 l c sock r,
  configured_by mac calls k -> real_codes calls ->
  (400 <= fuel)%nat -> lenN xid = 4 -> config_ok s -> reachable s ->
  exchange fuel true t1 s k xid (Z.of_N el1) (Discover req) rest = Ret (s1, p1 :: l) ->
  p_type p1 = Some 2 -> st c = INIT_SELECTING -> lmode c = L2 ->
  exists c2 e, listener fuel sock r p1 c = Ret c2 /\ latest c2 = Some e /\ has s1 (mkLease 300 (p_yiaddr p1) mac) /\
  forall others s2 o t2 el2, quiet fuel s1 (p_yiaddr p1) mac others -> history fuel s1 others = Ret (s2, o) ->
  exists s3 p2 c3, exchange fuel true t2 s2 k xid (Z.of_N el2) e rest = Ret (s3, [p2]) /\
    has s3 (mkLease (t2 + secs s) (p_yiaddr p1) mac) /\
    listener fuel sock Nothing p2 c2 = Ret c3 /\
    latest c3 = Some (Available (p_yiaddr p1) (DhcpClient_Model.get_lease (Some (secs s)))) /\
    st c3 = BOUND /\ assigned c3 = Some (p_yiaddr p1).
Proof. exact lease_obtained. Qed.
Print Assumptions C199_lease.

(** A client from its start to its address. *)
Example C199_nontrivial :
  match start 5 true Nothing None fresh_client with
  | Ret (c1, true) =>
      latest c1 = Some (Discover 0) /\
      match exchange 400 true T0 srv k xid 0 (Discover 0) [] with
      | Ret (s1, [p1]) =>
          match listener 5 true Nothing p1 c1 with
          | Ret c2 =>
              latest c2 = Some (Request (Some (ip 100)) (Some 0x0131A8C0) None false) /\
              match exchange 400 true (T0 + 2) s1 k xid 2 (Request (Some (ip 100)) (Some 0x0131A8C0) None false) [] with
              | Ret (s3, [p2]) =>
                  match listener 5 true Nothing p2 c2 with
                  | Ret c3 => latest c3 = Some (Available (ip 100) 3600)
                      /\ map (heap s3) (leases s3) = [Some (mkLease (T0 + 3602) (ip 100) A)]
                  | _ => False
                  end
              | _ => False
              end
          | _ => False
          end
      | _ => False
      end
  | _ => False
  end.
Proof. vm_compute. repeat split; reflexivity. Qed.

(** C200 is refuted, for every address but those whose bytes read the same in both
    directions: a request to extend the lease gets no answer, and neither it nor a release
    changes anything. *)
Theorem C200_ignored : forall mac calls k fuel mem xid rest s now el x e,
  configured_by mac calls k -> real_codes calls -> (400 <= fuel)%nat -> lenN xid = 4 ->
  config_ok s -> reachable s -> has s x -> DhcpServer_Model.mac x = mac -> about_own e s x -> swap32 (nip x) <> nip x ->
  exchange fuel mem now s k xid (Z.of_N el) e rest = Ret (s, []).
Proof. exact extension_ignored. Qed.
Print Assumptions C200_ignored.
(** The messages meant for the server alone are not even sent to its address. *)
Theorem C200_unicast : forall c e v, v < 2 ^ 32 -> swap32 v <> v -> server_ip c = v ->
  (exists req srv ci, e = Request req srv ci true) \/ (exists a, e = Release v a) ->
  destination c e <> stored_bytes v.
Proof. exact unicast_address. Qed.
Print Assumptions C200_unicast.
Theorem C200_renew_refuted : exists s1 p1 s2 p2 e, 
  exchange 400 true T0 srv k xid 0 (Discover 0) [] = Ret (s1, [p1]) /\
  exchange 400 true T0 s1 k xid 0 (Request (Some (p_yiaddr p1)) (p_server p1) None false) [] = Ret (s2, [p2]) /\ p_type p2 = Some 5 /\
  e = Request None None (Some (p_yiaddr p2)) true /\ exchange 400 true (T0 + 1800) s2 k xid 1800 e [] = Ret (s2, []).
Proof.
  eexists _, _, _, _, _. split; [vm_compute; reflexivity|]. split; [vm_compute; reflexivity|]. split; [reflexivity|]. split; [reflexivity|].
  vm_compute. reflexivity.
Qed.
Print Assumptions C200_renew_refuted.
(** What holds: such an address, say 10.1.1.10, can be extended by any number of times. *)
Theorem C200_extension_partial : forall mac calls k fuel mem xid rest s now el x u,
  configured_by mac calls k -> real_codes calls -> (400 <= fuel)%nat -> lenN xid = 4 ->
  config_ok s -> reachable s -> has s x -> DhcpServer_Model.mac x = mac -> swap32 (nip x) = nip x ->
  exists s', exchange fuel mem now s k xid (Z.of_N el) (Request None None (Some (nip x)) u) rest = Ret (s', [answer_read s (Ack (nip x))])
  /\ has s' (mkLease (now + secs s) (nip x) mac).
Proof. exact extension_granted. Qed.
Print Assumptions C200_extension_partial.

Example C200_nontrivial :
  let s := server_new 0x0A01010A 0x0A01010A 0x0101010A 60 [] in
  match exchange 400 true T0 s k xid 0 (Discover 0) [] with
  | Ret (s1, [p1]) =>
      match exchange 400 true (T0 + 30) s1 k xid 30 (Request None None (Some (p_yiaddr p1)) true) [] with
      | Ret (s2, [p2]) => p_type p2 = Some 5 /\ map (heap s2) (leases s2) = [Some (mkLease (T0 + 90) 0x0A01010A A)]
      | _ => False
      end
  | _ => False
  end.
Proof. vm_compute. split; reflexivity. Qed.
