(** Property C81: the values of received options. *)
From Verif Require Import Base Text DhcpVal_Model DhcpVal_Spec DhcpVal_Proofs.

(** C81. Address options (subnet mask, routers, DNS and time servers, requested address): the
    addresses in dotted notation. *)
Theorem C81_addresses_partial : forall code d,
  In code [0x01; 0x03; 0x06; 0x2a; 0x32] -> bytes d -> 4 <= lenN d -> lenN d mod 4 = 0 ->
  values code d = Ok (Some (addresses d)).
Proof. exact address_values. Qed.
Print Assumptions C81_addresses_partial.
Theorem C81_numbers_partial : forall d, bytes d ->
  (2 <= lenN d -> lenN d mod 2 = 0 -> values 0x39 d = Ok (Some (numbers16 d)))
  /\ (4 <= lenN d -> lenN d mod 4 = 0 -> values 0x33 d = Ok (Some (numbers32 d)) /\ values 0x36 d = Ok (Some (numbers32 d))).
Proof. exact number_values. Qed.
Print Assumptions C81_numbers_partial.
Theorem C81_text_partial : forall code d,
  In code [0x0c; 0x0f; 0x3c; 0x3d; 0xfc] -> 1 <= lenN d -> values code d = Ok (Some [upto0 d]).
Proof. exact text_values. Qed.
Print Assumptions C81_text_partial.
Theorem C81_unknown : forall code d,
  ~ In code [0x01; 0x03; 0x06; 0x0c; 0x0f; 0x2a; 0x32; 0x33; 0x35; 0x36; 0x39; 0x3c; 0x3d; 0xfc] -> values code d = Ok (Some []).
Proof. exact other_values. Qed.
Print Assumptions C81_unknown.

(** An incomplete address at the end becomes an empty value. *)
Theorem C81_incomplete_refuted : exists d, bytes d /\ addresses d = [dotted 10 0 0 1] /\ values 0x06 d = Ok (Some [dotted 10 0 0 1; []]).
Proof. exists [10; 0; 0; 1; 7]. split; [repeat (apply Forall_cons; [reflexivity|]); apply Forall_nil|]. split; vm_compute; reflexivity. Qed.
Print Assumptions C81_incomplete_refuted.
Theorem C81_incomplete : forall code d,
  In code [0x01; 0x03; 0x06; 0x2a; 0x32] -> bytes d -> 4 <= lenN d -> lenN d mod 4 <> 0 ->
  values code d = Ok (Some (addresses d ++ [[]])).
Proof. exact address_values_rest. Qed.
Print Assumptions C81_incomplete.
(** An option shorter than its type, as an empty domain name or a router of three bytes,
    makes the client read an uninitialised string, whatever the memory holds; a single byte
    (message type) always does. *)
Theorem C81_short_refuted : exists d, bytes d /\ values 0x03 d = UB /\ values 0x0f [] = UB /\ values 0x35 [5] = UB.
Proof. exists [10; 0; 0]. split; [repeat (apply Forall_cons; [reflexivity|]); apply Forall_nil|]. repeat split. Qed.
Print Assumptions C81_short_refuted.
(** Exactly these options do. *)
Theorem C81_undefined_exact : forall code d, bytes d -> (values code d = UB <->
  (In code [0x01; 0x03; 0x06; 0x2a; 0x32; 0x33; 0x36] /\ lenN d < 4)
  \/ (code = 0x39 /\ lenN d < 2)
  \/ (In code [0x0c; 0x0f; 0x3c; 0x3d; 0xfc] /\ d = [])
  \/ (code = 0x35 /\ lenN d < 2)).
Proof. exact undefined_exact. Qed.
Print Assumptions C81_undefined_exact.

(** Examples: two DNS servers; a lease time; a domain name with a terminator. *)
Example C81_ex_dns : values 0x06 [192; 168; 0; 1; 8; 8; 8; 8] = Ok (Some
  [[49; 57; 50; 46; 49; 54; 56; 46; 48; 46; 49]; [56; 46; 56; 46; 56; 46; 56]]).
Proof. vm_compute. reflexivity. Qed.
Example C81_ex_lease : values 0x33 [0; 0; 14; 16] = Ok (Some [[51; 54; 48; 48]]).
Proof. vm_compute. reflexivity. Qed.
Example C81_ex_name : values 0x0f [97; 98; 0; 99] = Ok (Some [[97; 98]]).
Proof. vm_compute. reflexivity. Qed.
