(** Properties C36-C39, C57-C60: the DHCP server. *)
From Verif Require Import Base DhcpOpt_Model DhcpOpt_Spec DhcpServer_Model DhcpServer_Spec
  DhcpServer_Proofs DhcpServer_More DhcpServer_Send.

(** C36. After any history the table is consistent; ... *)
Theorem C36_table : forall s, reachable s -> table_ok s.
Proof. exact reachable_table. Qed.
Print Assumptions C36_table.

(** ... an understood packet is handled without undefined behaviour, without an
    endless loop (unless the range ends at 255.255.255.255), and acts on the set
    of leases as [effect] says. *)
Theorem C36_step : forall s fuel mem now i, reachable s ->
  handle fuel mem now s i <> Undef /\
  (end_ip s < 2 ^ 32 - 1 -> (N.to_nat (end_ip s + 1 - start_ip s) < fuel)%nat -> handle fuel mem now s i <> Endless) /\
  forall s' out, handle fuel mem now s i = Ret (s', out) ->
    table_ok s' /\ exists T, (forall x, has s' x <-> T x) /\ effect s now (has s) i T out.
Proof. exact reachable_step. Qed.
Print Assumptions C36_step.

(** The server used in the examples: 192.168.49.50 and .51, one hour. *)
Definition ip (d : N) : N := 0xC0A83100 + d.
Definition ipb (d : N) : list byte := [0xC0; 0xA8; 0x31; d].
Definition me : N := 0x0131A8C0.
Definition srv (a b : N) : server := server_new (ip a) (ip b) me 3600 [(1, 0xFFFFFF00); (3, ip 1)].
Definition A : list byte := [2; 0; 0; 0; 0; 1].
Definition B : list byte := [2; 0; 0; 0; 0; 2].
Definition C : list byte := [2; 0; 0; 0; 0; 3].
(** The server id as the server sends it. *)
Definition sid : N * list byte := (54, [1; 0x31; 0xA8; 0xC0]).
Definition discover t m os := mkEvent true t (client_packet 1 m [0; 0; 0; 0] os).
Definition request t m ci os := mkEvent true t (client_packet 3 m ci os).
Definition answers (r : oc (server * log)) : option (list (list msg)) :=
  match r with Ret (_, o) => Some (map snd o) | _ => None end.
Definition T0 : N := 1700000000.

Example C36_nontrivial :
  match history 400 (srv 50 51)
    [discover T0 A []; request (T0 + 1) A [0; 0; 0; 0] [sid; (50, ipb 50)];
     discover (T0 + 2) B [(50, ipb 51)]; mkEvent true (T0 + 3) (client_packet 4 B [0; 0; 0; 0] [sid; (50, ipb 51)]);
     discover (T0 + 4) C []; mkEvent true (T0 + 5) [1; 2; 3]] with
  | Ret (s, o) => map snd o = [[Offer (ip 50)]; [Ack (ip 50)]; [Offer (ip 51)]; []; [Offer (ip 51)]; []]
      /\ map (heap s) (leases s) = [Some (mkLease (T0 + 3601) (ip 50) A); Some (mkLease 300 (ip 51) C)]
  | _ => False
  end.
Proof. vm_compute. split; reflexivity. Qed.

(** C37 is refuted: a client may name an address ending in 0; when its lease has
    expired the server picks that address for another client. *)
Theorem C37_picks_host_address_refuted : exists s l,
  s = server_new 0xC0A83000 0xC0A83000 me 3600 [] /\
  answers (history 400 s l) = Some [[Offer 0xC0A83000]; [Offer 0xC0A83000]] /\
  l = [discover T0 A [(50, [0xC0; 0xA8; 0x30; 0])]; discover (T0 + 1) B []].
Proof. eexists _, _. split; [reflexivity|]. split; [|reflexivity]. vm_compute. reflexivity. Qed.
Print Assumptions C37_picks_host_address_refuted.

(** What holds: offered addresses are in range, not leased to another client
    unless that lease has expired, and one that is neither the client's own, nor
    named by it, nor leased already is no .0 or .255 address. *)
Theorem C37_offer_partial : forall s fuel mem now i s' y, reachable s ->
  handle fuel mem now s i = Ret (s', [Offer y]) ->
  start_ip s <= y <= end_ip s
  /\ (forall x, has s x -> nip x = y -> mac x = chaddr i \/ expire x < now)
  /\ (req_ip i <> Some y -> (forall x, has s x -> nip x <> y) -> y mod 256 <> 0 /\ y mod 256 <> 255).
Proof. exact offer_ok. Qed.
Print Assumptions C37_offer_partial.

(** C38 is refuted: a request from a client without a lease takes an address
    acknowledged to another client two seconds before; ... *)
Theorem C38_exclusive_refuted : exists l,
  l = [discover T0 A []; request T0 A [0; 0; 0; 0] [sid; (50, ipb 50)]; request (T0 + 2) B [0; 0; 0; 0] [(50, ipb 50)]] /\
  answers (history 400 (srv 50 51) l) = Some [[Offer (ip 50)]; [Ack (ip 50)]; [Ack (ip 50)]].
Proof. eexists. split; [reflexivity|]. vm_compute. reflexivity. Qed.
Print Assumptions C38_exclusive_refuted.

(** ... and a second discover of the holder turns its lease into an offer that
    counts as expired. *)
Theorem C38_rediscover_refuted : exists l,
  l = [discover T0 A []; request T0 A [0; 0; 0; 0] [sid; (50, ipb 50)]; discover (T0 + 1) A [];
       discover (T0 + 2) B [(50, ipb 50)]; request (T0 + 2) B [0; 0; 0; 0] [sid; (50, ipb 50)]] /\
  answers (history 400 (srv 50 51) l)
  = Some [[Offer (ip 50)]; [Ack (ip 50)]; [Offer (ip 50)]; [Offer (ip 50)]; [Ack (ip 50)]].
Proof. eexists. split; [reflexivity|]. vm_compute. reflexivity. Qed.
Print Assumptions C38_rediscover_refuted.

(** C39 is refuted: an offer is forgotten at once, when another client names the
    address or when no other is free. *)
Theorem C39_reserved_refuted : exists l l',
  l = [discover T0 A []; discover (T0 + 1) B [(50, ipb 50)]] /\
  l' = [discover T0 A []; discover (T0 + 1) B []] /\
  answers (history 400 (srv 50 51) l) = Some [[Offer (ip 50)]; [Offer (ip 50)]] /\
  answers (history 400 (srv 50 50) l') = Some [[Offer (ip 50)]; [Offer (ip 50)]].
Proof. eexists _, _. split; [reflexivity|]. split; [reflexivity|]. vm_compute. split; reflexivity. Qed.
Print Assumptions C39_reserved_refuted.

(** What holds of C38 and C39: while all packets leave the address alone
    ([leaves_alone]: no request for it from a client without a lease, no discover
    naming it after its expiry, another address free after its expiry, and no
    discover, decline or release from the holder), it stays with its client and
    is given to no other. *)
Theorem C38_C39_quiet_partial : forall s fuel l s' o a m, reachable s ->
  (exists x, has s x /\ nip x = a /\ mac x = m) ->
  quiet fuel s a m l -> history fuel s l = Ret (s', o) ->
  (exists x, has s' x /\ nip x = a /\ mac x = m) /\ not_given a m o.
Proof. exact reachable_quiet. Qed.
Print Assumptions C38_C39_quiet_partial.

(** A quiet history with another client, which names the address in vain. *)
Example C38_C39_nontrivial :
  match history 400 (srv 50 51) [discover T0 A []; request T0 A [0; 0; 0; 0] [sid; (50, ipb 50)]] with
  | Ret (s, _) =>
      let l := [discover T0 B [(50, ipb 50)]; request T0 B [0; 0; 0; 0] [(50, ipb 51)];
                request (T0 + 9) A [0; 0; 0; 0] [sid; (50, ipb 50)]] in
      has s (mkLease (T0 + 3600) (ip 50) A) /\ quiet 400 s (ip 50) A l
      /\ answers (history 400 s l) = Some [[Offer (ip 51)]; [Ack (ip 51)]; [Ack (ip 50)]]
  | _ => False
  end.
Proof.
  Ltac step := match goal with |- context [listener_event ?f ?m ?n ?s ?b] =>
    let v := eval vm_compute in (listener_event f m n s b) in
    replace (listener_event f m n s b) with v by (vm_compute; reflexivity) end.
  match goal with |- match ?h with _ => _ end => let v := eval vm_compute in h in
    replace h with v by (vm_compute; reflexivity) end.
  lazy zeta. split; [exists 1; split; [now left|reflexivity]|]. split; [|vm_compute; reflexivity].
  cbn [quiet]. step. split.
  { right. split; [discriminate|]. intros _. left. exists (mkLease (T0 + 3600) (ip 50) A).
    split; [exists 1; split; [now left|reflexivity]|]. split; [reflexivity|discriminate]. }
  step. split.
  { left. exists (mkLease 300 (ip 51) B). split; [exists 2; split; [cbn; auto|reflexivity]|reflexivity]. }
  step. split; [|exact I]. split; [discriminate|]. split; discriminate.
Qed.

(** C57 is refuted: from 2038 on the 32-bit comparison sorts the list wrongly,
    and a client gets no answer although another one's lease has expired. *)
Theorem C57_expired_reused_refuted : exists s o,
  history 400 (srv 50 51) [request 2147483648 A [0; 0; 0; 0] [(50, ipb 50)]; discover 2147483648 B [(50, ipb 51)]] = Ret (s, o)
  /\ (exists x, has s x /\ expire x < 2147483649)
  /\ answers (history 400 s [discover 2147483649 C []]) = Some [[]].
Proof.
  eexists _, _. split; [vm_compute; reflexivity|]. split; [|vm_compute; reflexivity].
  exists (mkLease 300 (ip 51) B). split; [exists 2; split; [now left|reflexivity]|reflexivity].
Qed.
Print Assumptions C57_expired_reused_refuted.

(** What holds: as long as all times (with the lease time added) are below 2^31,
    a discover is answered whenever an address is free or some lease has expired. *)
Theorem C57_discover_answered_partial : forall a b me secs0 opts0 fuel l s o fuel' now i,
  a < 2 ^ 32 -> b < 2 ^ 32 - 1 -> (forall e, In e l -> e_now e + secs0 < 2 ^ 31) ->
  history fuel (server_new a b me secs0 opts0) l = Ret (s, o) ->
  (N.to_nat (b + 1 - a) < fuel')%nat ->
  type i = 1 -> real_client (chaddr i) ->
  free_address s \/ (exists x, has s x /\ expire x < now) ->
  exists s' y, handle fuel' true now s i = Ret (s', [Offer y]).
Proof. exact discover_gets_offer. Qed.
Print Assumptions C57_discover_answered_partial.

(** The same packets before 2038. *)
Example C57_nontrivial :
  answers (history 400 (srv 50 51)
    [request T0 A [0; 0; 0; 0] [(50, ipb 50)]; discover T0 B [(50, ipb 51)]; discover (T0 + 1) C []])
  = Some [[Ack (ip 50)]; [Offer (ip 51)]; [Offer (ip 51)]].
Proof. vm_compute. reflexivity. Qed.

(** C58 is refuted: the server identifier option carries the address of the server
    with its bytes reversed. *)
Theorem C58_server_id_refuted : exists s c y p,
  server_nip s = 0x0131A8C0 /\ stored_bytes (server_nip s) = [0xC0; 0xA8; 0x31; 1] /\
  render s c (Ack y) = Ok (Some p) /\ get_option 400 p 548 54 = Ok (Some (Some 245)) /\
  mem_read p 245 4 = Ok [1; 0x31; 0xA8; 0xC0].
Proof.
  exists (srv 50 51), (client_packet 3 A [0; 0; 0; 0] [] ++ repeat 0 200), (ip 50). eexists.
  split; [reflexivity|]. split; [vm_compute; reflexivity|]. split; [vm_compute; reflexivity|].
  split; vm_compute; reflexivity.
Qed.
Print Assumptions C58_server_id_refuted.

(** What holds: every answer is this packet (the server id apart, as intended):
    header fields copied from the client's packet, the address, lease time and
    configured options. *)
Theorem C58_reply_partial : forall s c m, config_ok s -> 628 <= lenN c ->
  render s c m = Ok (Some (packet_with (reply_header c (reply_addr m)) (reply_options s m))).
Proof. exact render_ok. Qed.
Print Assumptions C58_reply_partial.

Example C58_nontrivial : config_ok (srv 50 51) /\
  reply_options (srv 50 51) (Offer (ip 50))
  = [(53, [2]); (54, [1; 0x31; 0xA8; 0xC0]); (51, [0; 0; 14; 16]); (1, [255; 255; 255; 0]); (3, [0xC0; 0xA8; 0x31; 1])]
  /\ takeN 44 (reply_header (client_packet 3 A [9; 8; 7; 6] [] ++ repeat 0 200) (ip 50))
  = [2; 1; 6; 0; 1; 2; 3; 4; 0; 0; 0; 0; 9; 8; 7; 6; 0xC0; 0xA8; 0x31; 50; 0; 0; 0; 0; 0; 0; 0; 0] ++ A ++ repeat 0 10.
Proof.
  split; [|vm_compute; split; reflexivity]. split; [cbn; lia|]. constructor; [now left|]. constructor; [right; now left|constructor].
Qed.

(** C59 is refuted: a server id without data at the end of the packet makes the
    server read after the packet. *)
Theorem C59_reads_inside_refuted : exists got, lenN got = 628 /\
  forall s mem now, listener_event 400 mem now s got = Undef.
Proof.
  exists (takeN 243 (client_packet 3 A [0; 0; 0; 0] []) ++ repeat 0 382 ++ [54; 0; 0]).
  split; [vm_compute; reflexivity|]. intros. unfold listener_event.
  replace (decode 400 s _) with (@Undef (option input)); [reflexivity|]. vm_compute. reflexivity.
Qed.
Print Assumptions C59_reads_inside_refuted.

(** What holds: with well-formed options and address options of at least three
    bytes, nothing outside the packet is read and the lookups end. *)
Theorem C59_decode_partial : forall s got, well_formed (received got) 240 -> addresses_long got ->
  exists r, decode 400 s got = Ret r.
Proof. exact decode_safe. Qed.
Print Assumptions C59_decode_partial.

Example C59_nontrivial :
  decode 400 (srv 50 51) (client_packet 3 A [1; 2; 3; 4] [sid; (50, ipb 50); (12, [65])])
  = Ret (Some (mkInput 3 (Some me) (Some (ip 50)) 0x04030201 A)).
Proof. vm_compute. reflexivity. Qed.

(** C60 is refuted: a client renewing its lease names its address in the header
    field, which the server compares in the wrong byte order: no answer. *)
Theorem C60_renew_refuted : exists l,
  l = [discover T0 A []; request T0 A [0; 0; 0; 0] [sid; (50, ipb 50)]; request (T0 + 1800) A (ipb 50) []] /\
  answers (history 400 (srv 50 51) l) = Some [[Offer (ip 50)]; [Ack (ip 50)]; []].
Proof. eexists. split; [reflexivity|]. vm_compute. reflexivity. Qed.
Print Assumptions C60_renew_refuted.

(** What holds: a client that requests, by the requested-address option, the
    address it has gets it for the full lease time. *)
Theorem C60_own_address_partial : forall s fuel mem now i x, reachable s ->
  has s x -> mac x = chaddr i -> type i = 3 -> req_ip i = Some (nip x) ->
  exists s', handle fuel mem now s i = Ret (s', [Ack (nip x)]) /\ has s' (mkLease (now + secs s) (nip x) (mac x)).
Proof. exact own_address_option. Qed.
Print Assumptions C60_own_address_partial.

Example C60_nontrivial :
  answers (history 400 (srv 50 51)
    [discover T0 A []; request T0 A [0; 0; 0; 0] [sid; (50, ipb 50)]; request (T0 + 1800) A [0; 0; 0; 0] [(50, ipb 50)]])
  = Some [[Offer (ip 50)]; [Ack (ip 50)]; [Ack (ip 50)]].
Proof. vm_compute. reflexivity. Qed.
