(** Properties C32-C34: DHCP options. *)
From Verif Require Import Base DhcpOpt_Model DhcpOpt_Spec DhcpOpt_Proofs.

(** C32. A packet built by any sequence of option additions: memory-safe, exactly
    the options that fitted, in order, unchanged, followed by the end marker and
    zeros; the rest of the packet is the header. *)
Theorem C32_build_packet : forall type ops, Forall good_add ops ->
  build type ops = Ok (Some (packet type (options_of type ops)))
  /\ Forall good_opt (options_of type ops) /\ lenN (encs (options_of type ops)) <= 306.
Proof. exact build_ok. Qed.
Print Assumptions C32_build_packet.
(** The end marker is found behind options among padding, too. *)
Theorem C32_end_found : forall l rest,
  Forall (fun o => match o with Some (c, _) => c <> 0 /\ c <> 255 | None => True end) l ->
  (length l < 400)%nat -> end_option (padded l ++ 255 :: rest) = Ok (Some (lenN (padded l))).
Proof. exact end_found. Qed.
Print Assumptions C32_end_found.

(** C33. Looking up a code in such a packet (as sent or as received) finds the
    first option with that code, or nothing. *)
Theorem C33_read_back : forall type ops plen code fuel,
  Forall good_add ops -> 548 <= plen <= 628 -> (400 <= fuel)%nat ->
  exists p res, build type ops = Ok (Some p) /\ get_option fuel p plen code = Ok (Some res) /\
  match first code (options_of type ops) with
  | None => res = None
  | Some d => exists i, res = Some i /\ mem_read p i (lenN d) = Ok d /\ nthN p (i - 1) = Some (lenN d)
  end.
Proof. exact read_back. Qed.
Print Assumptions C33_read_back.

(** C34 is refuted, in three ways. An option claiming more data than is left:
    the loop never finishes ([rem] decreases until it overflows). *)
Theorem C34_lookup_terminates_refuted : exists p plen code, lenN p = 628 /\ plen <= 628
  /\ forall fuel x, get_option fuel p plen code <> Ok (Some x).
Proof.
  exists (repeat 0 240 ++ [12; 255] ++ repeat 65 255 ++ [12; 255] ++ repeat 65 129), 628, 53.
  split; [reflexivity|]. split; [vm_compute; discriminate|]. apply lookup_overruns; [reflexivity|].
  eapply OvOpt with (c := 12) (l := 255); try reflexivity; try discriminate.
  eapply OvHere with (c := 12) (l := 255); try reflexivity; try discriminate.
Qed.
Print Assumptions C34_lookup_terminates_refuted.

(** An overload option inside the overloaded field: endless loop. *)
Theorem C34_overload_terminates_refuted : exists p, lenN p = 628
  /\ forall fuel x, get_option fuel p 628 53 <> Ok (Some x).
Proof. exists loop_packet. split; [reflexivity|]. exact loop_packet_endless. Qed.
Print Assumptions C34_overload_terminates_refuted.

(** An overload option without data at the end: a byte after the packet is read. *)
Theorem C34_reads_inside_refuted : exists p, lenN p = 628 /\ get_option 400 p 628 53 = UB.
Proof. exists (repeat 0 626 ++ [52; 0]). split; vm_compute; reflexivity. Qed.
Print Assumptions C34_reads_inside_refuted.

(** What holds: with well-formed options the lookup ends, reads only the packet,
    and an answer's data lie inside the received part. *)
Theorem C34_lookup_well_formed_partial : forall p plen code,
  lenN p = 628 -> plen <= 628 -> well_formed p 240 ->
  exists r, get_option 400 p plen code = Ok (Some r)
  /\ forall o, r = Some o -> 242 <= o /\
       exists l, nthN p (o - 2) = Some code /\ nthN p (o - 1) = Some l /\ o + l < plen.
Proof. exact lookup_well_formed. Qed.
Print Assumptions C34_lookup_well_formed_partial.

(** Every packet whose options overrun the option area before an answer is found
    hangs the lookup. *)
Theorem C34_lookup_overrun_partial : forall p plen code,
  lenN p = 628 -> overruns p plen code 240 ->
  forall fuel x, get_option fuel p plen code <> Ok (Some x).
Proof. exact lookup_overruns. Qed.
Print Assumptions C34_lookup_overrun_partial.

(** An offer with a server id, a lease time, an unknown typed option (ignored),
    a long option that fits and one that does not. *)
Example C32_nontrivial :
  options_of 2 [AddU32 54 0xc0a83201; AddU32 51 86400; AddU32 99 1; AddBinary 55 (repeat 7 255);
                AddBinary 60 (repeat 8 40); AddU16 57 576]
  = [(53, [2]); (54, [0xc0; 0xa8; 0x32; 1]); (51, [0; 1; 0x51; 0x80]); (55, repeat 7 255); (57, [2; 0x40])]
  /\ match build 2 [AddU32 54 0xc0a83201; AddU32 51 86400; AddBinary 55 (repeat 7 255)] with
     | Ok (Some p) =>
         takeN 17 (dropN 236 p) = [0x63; 0x82; 0x53; 0x63; 53; 1; 2; 54; 4; 0xc0; 0xa8; 0x32; 1; 51; 4; 0; 1]
         /\ get_option 400 p 548 51 = Ok (Some (Some 251)) /\ get_option 400 p 548 55 = Ok (Some (Some 257))
         /\ get_option 400 p 548 50 = Ok (Some None)
     | _ => False
     end.
Proof. split; vm_compute; repeat split. Qed.

(** Options in overloaded fields: first the option area, then the file field, then the
    server name field. *)
Theorem C77_overload_lookup : forall p plen code os fs ss,
  overloaded p os fs ss -> 240 + lenN (encs os) < plen <= 628 ->
  Forall any_opt os -> Forall good_opt fs -> Forall good_opt ss ->
  let all := os ++ (if N.testbit (overloads os) 0 then fs else []) ++ (if N.testbit (overloads os) 1 then ss else []) in
  exists res, get_option 700 p plen code = Ok (Some res) /\
  match first code all with
  | None => res = None
  | Some d => exists i, res = Some i /\ mem_read p i (lenN d) = Ok d /\ nthN p (i - 1) = Some (lenN d)
  end.
Proof. exact overload_lookup. Qed.
Print Assumptions C77_overload_lookup.

(** Option 51 in the option area, 54 in the file field, 3 in the name field: which are
    found depends on the overload option. *)
Example C77_nontrivial :
  let p v := repeat 0 44 ++ ([3; 4; 10; 0; 0; 1; 255] ++ repeat 0 57) ++ ([54; 4; 1; 2; 3; 4; 255] ++ repeat 0 121)
    ++ [0x63; 0x82; 0x53; 0x63] ++ [52; 1; v; 51; 2; 9; 9; 255] ++ repeat 0 380 in
  map (fun v => map (get_option 700 (p v) 628) [51; 54; 3; 6]) [0; 1; 2; 3]
  = [[Ok (Some (Some 245)); Ok (Some None); Ok (Some None); Ok (Some None)];
     [Ok (Some (Some 245)); Ok (Some (Some 110)); Ok (Some None); Ok (Some None)];
     [Ok (Some (Some 245)); Ok (Some None); Ok (Some (Some 46)); Ok (Some None)];
     [Ok (Some (Some 245)); Ok (Some (Some 110)); Ok (Some (Some 46)); Ok (Some None)]]
  /\ overloaded (p 3) [(52, [3]); (51, [9; 9])] [(54, [1; 2; 3; 4])] [(3, [10; 0; 0; 1])].
Proof.
  split; [vm_compute; reflexivity|].
  exists (repeat 0 44), (repeat 0 57), (repeat 0 121), [0x63; 0x82; 0x53; 0x63], (repeat 0 380). repeat split; vm_compute; reflexivity.
Qed.
