(** Properties C41, C42 and C56: UIBC messages. *)
From Verif Require Import Base Uibc_Model Uibc_Spec Uibc_Proofs.

(** C41. Any text describing a touch event with 1 to 2^28 - 1 pointers is encoded
    as exactly the message of that event, of even length. *)
Theorem C41_touch_layout : forall s type ps,
  describes s type ps -> 1 <= lenN ps -> lenN ps < 2 ^ 28 ->
  Forall (fun v => v < 2 ^ 31) (numbers type ps) ->
  exists p, touch s = Ok (Some p) /\ plen p = lenN (touch_message type ps)
    /\ contents p = map Some (touch_message type ps) /\ N.even (plen p) = true
    /\ pstores p = stores 0 (touch_message type ps ++ [0]).
Proof. exact touch_packet_ok. Qed.
Print Assumptions C41_touch_layout.

(** C42 is refuted. Every such event makes a store one byte after the packet
    ("0,1,7,300,40"); *)
Theorem C42_touch_stores_inside_refuted : exists s p w,
  touch s = Ok (Some p) /\ In w (pstores p) /\ plen p <= fst w.
Proof.
  exists [48; 44; 49; 44; 55; 44; 51; 48; 48; 44; 52; 48]. eexists. exists (14, 0).
  split; [vm_compute; reflexivity|]. cbn [plen pstores fst]. split; [|vm_compute; discriminate].
  vm_compute. do 14 right. left. reflexivity.
Qed.
Print Assumptions C42_touch_stores_inside_refuted.

(** a pointer count larger than the number of pointers given reads past the
    fields ("0,2,7,300,40"); *)
Theorem C42_touch_reads_inside_refuted : exists s, touch s = UB.
Proof. exists [48; 44; 50; 44; 55; 44; 51; 48; 48; 44; 52; 48]. vm_compute. reflexivity. Qed.
Print Assumptions C42_touch_reads_inside_refuted.

(** a trailing comma overflows the array of fields ("0,1,"). *)
Theorem C42_split_inside_refuted : exists s, str_split s = UB.
Proof. exists [48; 44; 49; 44]. vm_compute. reflexivity. Qed.
Print Assumptions C42_split_inside_refuted.

(** and a number that is no int is undefined ("2147483648,1,7,300,40"). *)
Theorem C42_number_defined_refuted : exists s, touch s = UB /\ str_split s <> UB.
Proof. exists [50; 49; 52; 55; 52; 56; 51; 54; 52; 56; 44; 49; 44; 55; 44; 51; 48; 48; 44; 52; 48]. split; [vm_compute; reflexivity|vm_compute; discriminate]. Qed.
Print Assumptions C42_number_defined_refuted.

(** What holds: for a complete description that one byte is the only store
    outside. *)
Theorem C42_touch_one_byte_over_partial : forall s type ps,
  describes s type ps -> 1 <= lenN ps -> lenN ps < 2 ^ 28 ->
  Forall (fun v => v < 2 ^ 31) (numbers type ps) ->
  exists p good, touch s = Ok (Some p) /\ pstores p = good ++ [(plen p, 0)]
    /\ Forall (fun w => fst w < plen p) good.
Proof. exact touch_stores. Qed.
Print Assumptions C42_touch_one_byte_over_partial.

(** C56. Key events. *)
Theorem C56_key_layout : forall scan s t0 t1 t2 type k1 k2, s = join [t0; t1; t2] ->
  Forall (fun t => t <> [] /\ ~ In COMMA t) [t0; t1; t2] -> denotes t0 type -> type < 2 ^ 31 ->
  scan t1 = Some (Z.of_N k1) -> scan t2 = Some (Z.of_N k2) ->
  exists p, key scan s = Ok (Some p) /\
    contents p = map Some ([0; 0] ++ be16 12 ++ [type mod 256] ++ be16 5 ++ [0] ++ be16 k1 ++ be16 k2)
    /\ Forall (fun w => fst w < plen p) (pstores p).
Proof. exact key_ok. Qed.
Print Assumptions C56_key_layout.

(** "0,1,+7,-1,-2147483648": negative numbers wrap. *)
Example C41_ex_signs :
  match touch [48; 44; 49; 44; 43; 55; 44; 45; 49; 44; 45; 50; 49; 52; 55; 52; 56; 51; 54; 52; 56] with
  | Ok (Some p) => contents p = map Some [0; 0; 0; 14; 0; 0; 6; 1; 7; 255; 255; 0; 0; 0]
  | _ => False
  end.
Proof. vm_compute. reflexivity. Qed.
(** "1,2, 0,258,3,1,65535,0\n" *)
Example C41_nontrivial :
  match touch [49; 44; 50; 44; 32; 48; 44; 50; 53; 56; 44; 51; 44; 49; 44; 54; 53; 53; 51; 53; 44; 48; 10] with
  | Ok (Some p) => contents p = map Some [0; 0; 0; 18; 1; 0; 11; 2; 0; 1; 2; 0; 3; 1; 255; 255; 0; 0]
                   /\ touch_message 1 [(0, 258, 3); (1, 65535, 0)]
                      = [0; 0; 0; 18; 1; 0; 11; 2; 0; 1; 2; 0; 3; 1; 255; 255; 0; 0]
  | _ => False
  end.
Proof. vm_compute. split; reflexivity. Qed.

(** "3,a,b" with key codes 0x0141 and 0. *)
Example C56_nontrivial :
  match key (fun t => match t with [97] => Some 0x141%Z | _ => Some 0%Z end) [51; 44; 97; 44; 98] with
  | Ok (Some p) => contents p = map Some [0; 0; 0; 12; 3; 0; 5; 0; 1; 0x41; 0; 0]
  | _ => False
  end.
Proof. vm_compute. reflexivity. Qed.
