(** Properties C30, C31 and C65 to C68 and C89: supplicant control messages. *)
From Coq Require Import String.
From Verif Require Import Base Text Split_Spec WpasMsg_Model WpasMsg_Spec WpasMsg_Proofs.
Local Open Scope list_scope.

(** C30 is refuted: a reply is not split at blanks, only at newlines. *)
Theorem C30_reply_words_refuted : exists raw m, parse false raw = Ok (inl m) /\ w_argv m = [raw] /\ raw = text "a b".
Proof. exists (text "a b"). eexists. split; [vm_compute; reflexivity|]. vm_compute. auto. Qed.
Print Assumptions C30_reply_words_refuted.
Theorem C30_reply_lines_partial : forall raw, has_ifname raw = false -> (forall t, raw <> 60 :: t) -> lenN raw < 2 ^ 31 ->
  exists m fs, parse false raw = Ok (inl m) /\ w_type m = WReply /\ split_of (fun c => c = 10) raw fs
    /\ w_argv m = map cstr fs /\ w_iter m = 0 /\ w_raw m = Some (cstr raw).
Proof. exact reply_parsed. Qed.
Print Assumptions C30_reply_lines_partial.
(** An event text made of any tokens is parsed into these tokens and can be read back. *)
Theorem C30_event_tokens_partial : forall name level args vs m,
  sealed_event name level args = Some m -> sendable name -> level < 2 ^ 31 -> Forall2 carries args vs ->
  exists m', parse false (raw_text m) = Ok (inl m') /\ w_type m' = WEvent /\ w_name m' = Some name /\ w_level m' = level /\ w_argv m' = w_argv m
    /\ exists m'', read_all m' (map arg_type args) = Ok (m'', vs, None).
Proof. exact event_round_trip. Qed.
Print Assumptions C30_event_tokens_partial.
(** A request of plain tokens is these tokens with single blanks between them. *)
Theorem C30_request_text_partial : forall name args m ts,
  sealed_request name args = Some m -> texts args ts -> Forall plain (name :: ts) -> sent_text m = spaced (name :: ts).
Proof. exact request_text. Qed.
Print Assumptions C30_request_text_partial.

(** C31 is refuted by every event: what is sent lacks as many bytes at the end as the
    prefix has. *)
Theorem C31_event_length_refuted : exists name level args m, sealed_event name level args = Some m
  /\ sent_text m = text "<3>CTRL-EVENT-CONN" /\ raw_text m = text "<3>CTRL-EVENT-CONNECT".
Proof. exists (text "CTRL-EVENT-CONNECT"), 3, []. eexists. split; [vm_compute; reflexivity|]. vm_compute. auto. Qed.
Print Assumptions C31_event_length_refuted.
Theorem C31_event_short_partial : forall name level args m, sealed_event name level args = Some m ->
  w_rawlen m + lenN (dec level) + 2 = lenN (raw_text m) /\ sent_text m <> raw_text m.
Proof. exact event_short. Qed.
Print Assumptions C31_event_short_partial.

(** C65. What the server side parses from a sent request is the request, and its
    arguments are read back. *)
Theorem C65_request_round_trip : forall name args vs m,
  sealed_request name args = Some m -> sendable name -> prefix_free name -> Forall2 carries args vs ->
  exists m', parse true (sent_text m) = Ok (inl m') /\ w_type m' = WRequest /\ w_name m' = Some name /\ w_argv m' = w_argv m
    /\ exists m'', read_all m' (map arg_type args) = Ok (m'', vs, None).
Proof. exact request_round_trip. Qed.
Print Assumptions C65_request_round_trip.
(** A sealed message is not changed any more. *)
Theorem C65_sealed_fixed : forall m, w_sealed m = true ->
  (forall a, wappend_basic m a = (m, Some EBUSY)) /\ (forall l, wappend m l = (m, Some EBUSY)) /\ wseal m = (m, None).
Proof. exact wsealed_fixed. Qed.
Print Assumptions C65_sealed_fixed.

(** C66 is refuted: a level that is no int. *)
Theorem C66_any_datagram_refuted : exists raw, parse false raw = UB.
Proof. exists (text "<3000000000>X"). vm_compute. reflexivity. Qed.
Print Assumptions C66_any_datagram_refuted.
Theorem C66_defined_partial : forall server raw, server = true \/ digit_count raw < 10 -> exists r, parse server raw = Ok r.
Proof. exact parse_defined. Qed.
Print Assumptions C66_defined_partial.

(** C67. *)
Theorem C67_interface_prefix : forall server n body m, ~ In 0 n -> ~ In 32 n -> has_ifname body = false -> parse server body = Ok (inl m) ->
  parse server (text "IFNAME=" ++ n ++ 32 :: body) = Ok (inl (set_source m (cstr (text "IFNAME=" ++ n ++ 32 :: body)) n)).
Proof. exact ifname_stripped. Qed.
Print Assumptions C67_interface_prefix.

(** C68. *)
Theorem C68_dict_first : forall m name, ~ In 61 name ->
  (exists l1 v l2, dropN (first_arg m) (w_argv m) = l1 ++ (name ++ [61] ++ v) :: l2 /\ Forall (fun e => ~ is_entry name e) l1
     /\ dict_read m name TString = Ok (inl (VString v))
     /\ dict_read m name TInt32 = parse_num TInt32 v /\ dict_read m name TUint32 = parse_num TUint32 v)
  \/ (Forall (fun e => ~ is_entry name e) (dropN (first_arg m) (w_argv m)) /\ forall t, dict_read m name t = Ok (inr ENOENT)).
Proof. exact dict_read_first. Qed.
Print Assumptions C68_dict_first.

(** Numbers are read after white space and with a sign; those that do not fit are
    undefined, texts without a number are refused. *)
Theorem C68_numbers : forall s neg n, starts_with_number s neg n ->
  ((- 2 ^ 31 <= with_sign neg n < 2 ^ 31)%Z -> parse_num TInt32 s = Ok (inl (VInt32 (with_sign neg n))))
  /\ (~ (- 2 ^ 31 <= with_sign neg n < 2 ^ 31)%Z -> parse_num TInt32 s = UB)
  /\ (n < 2 ^ 32 -> parse_num TUint32 s = Ok (inl (VUint32 (Z.to_N (with_sign neg n mod 2 ^ 32)))))
  /\ (2 ^ 32 <= n -> parse_num TUint32 s = UB).
Proof. exact numbers_read. Qed.
Print Assumptions C68_numbers.
Theorem C68_no_number : forall s t, (forall neg n, ~ starts_with_number s neg n) -> parse_num t s = Ok (inr EINVAL).
Proof. exact no_number. Qed.
Print Assumptions C68_no_number.
(** Arguments by position. *)
Theorem C68_by_position : forall m name args pos, w_name m = Some name -> w_argv m = name :: args -> pos < 2 ^ 32 -> lenN args < 2 ^ 32 ->
  (forall a, nth_error args (N.to_nat pos) = Some a -> argv_read m pos TString = Ok (inl (VString a))
     /\ argv_read m pos TInt32 = parse_num TInt32 a /\ argv_read m pos TUint32 = parse_num TUint32 a)
  /\ (nth_error args (N.to_nat pos) = None -> forall t, argv_read m pos t = Ok (inr EINVAL)).
Proof. exact argv_nth. Qed.
Print Assumptions C68_by_position.
Theorem C68_by_position_reply : forall m pos, w_name m = None ->
  (forall a, nth_error (w_argv m) (N.to_nat pos) = Some a -> argv_read m pos TString = Ok (inl (VString a))
     /\ argv_read m pos TInt32 = parse_num TInt32 a /\ argv_read m pos TUint32 = parse_num TUint32 a)
  /\ (nth_error (w_argv m) (N.to_nat pos) = None -> forall t, argv_read m pos t = Ok (inr EINVAL)).
Proof. exact argv_nth_unnamed. Qed.
Print Assumptions C68_by_position_reply.

(** C89 is refuted: a reply behind an interface prefix is not taken for a good one,
    and asking a reply that is not sealed reads a null pointer. *)
Theorem C89_prefixed_ok_refuted : exists m, parse false (text "IFNAME=wlan0 OK" ++ [10]) = Ok (inl m)
  /\ w_type m = WReply /\ w_argv m = [text "OK"] /\ is_ok m = Ok false.
Proof. eexists. split; [vm_compute; reflexivity|]. vm_compute. auto. Qed.
Print Assumptions C89_prefixed_ok_refuted.
Theorem C89_unsealed_refuted : is_ok new_wreply = UB.
Proof. reflexivity. Qed.
Print Assumptions C89_unsealed_refuted.
Theorem C89_verdict_partial : forall raw m, parse false raw = Ok (inl m) ->
  (is_ok m = Ok true <-> cstr raw = text "OK" ++ [10]) /\ (is_fail m = Ok true <-> cstr raw = text "FAIL" ++ [10]).
Proof. exact received_verdict. Qed.
Print Assumptions C89_verdict_partial.
Theorem C89_no_reply : forall m s, w_type m <> WReply -> raw_is m s = Ok false.
Proof. exact verdict_request. Qed.
Print Assumptions C89_no_reply.
Example C89_nontrivial :
  match parse false (text "OK" ++ [10; 0; 7]), parse false (text "FAIL" ++ [10]), parse false (text "OK") with
  | Ok (inl a), Ok (inl b), Ok (inl c) => is_ok a = Ok true /\ is_fail a = Ok false /\ is_fail b = Ok true /\ is_ok b = Ok false /\ is_ok c = Ok false
  | _, _, _ => False end.
Proof. vm_compute. auto 10. Qed.
Example C68_numbers_nontrivial :
  starts_with_number (text "  -12x") true 12 /\ parse_num TInt32 (text "  -12x") = Ok (inl (VInt32 (-12)))
  /\ parse_num TUint32 (text "+7 ") = Ok (inl (VUint32 7)) /\ parse_num TUint32 (text "-1") = Ok (inl (VUint32 4294967295)) /\ parse_num TUint32 (text "x1") = Ok (inr EINVAL).
Proof.
  split; [|vm_compute; auto]. exists (text "  "), [45], (text "12"), (text "x"). split; [reflexivity|]. split; [repeat constructor|]. split; [cbn; auto|]. split; [discriminate|].
  split; [repeat constructor; discriminate|]. split; [reflexivity|]. right. exists 120, []. split; [reflexivity|]. unfold numeral. lia.
Qed.

Definition demo_args : list arg :=
  [AString (Some (text "it's a ""test""\")); AInt32 (-7); AUint32 4294967295; ADict (Some (text "ssid")) (Some (text "a=b c"))].
Example C65_nontrivial :
  match sealed_request (text "SET") demo_args with
  | Some m => sent_text m = text "SET ""it's a \""test\""\\"" -7 4294967295 ""ssid=a=b c"""
      /\ match parse true (sent_text m) with
         | Ok (inl m') => match read_all m' (map arg_type demo_args) with
                          | Ok (_, vs, e) => vs = [VString (text "it's a ""test""\"); VInt32 (-7); VUint32 4294967295; VString (text "a=b c")] /\ e = None
                          | UB => False end
         | _ => False end
  | None => False end.
Proof. vm_compute. auto. Qed.
Example C30_nontrivial :
  match sealed_event (text "P2P-DEVICE-FOUND") 3 [AString (Some (text "02:00")); ADict (Some (text "name")) (Some (text "my tv"))] with
  | Some m => match parse false (raw_text m) with
              | Ok (inl m') => w_level m' = 3 /\ w_argv m' = [text "P2P-DEVICE-FOUND"; text "02:00"; text "name=my tv"]
                               /\ dict_read m' (text "name") TString = Ok (inl (VString (text "my tv")))
              | _ => False end
  | None => False end.
Proof. vm_compute. auto. Qed.
Example C30_reply_nontrivial :
  match parse false (text "bssid=02:00" ++ [10] ++ text "freq=2412" ++ [10]) with
  | Ok (inl m) => w_argv m = [text "bssid=02:00"; text "freq=2412"] /\ dict_read m (text "freq") TUint32 = Ok (inl (VUint32 2412))
                  /\ dict_read m (text "fre") TUint32 = Ok (inr ENOENT)
  | _ => False end.
Proof. vm_compute. auto. Qed.
Example C67_nontrivial :
  match parse false (text "IFNAME=wlan0 <3>SCAN x") with
  | Ok (inl m) => w_ifname m = Some (text "wlan0") /\ w_name m = Some (text "SCAN") /\ w_argv m = [text "SCAN"; text "x"] /\ w_type m = WEvent
  | _ => False end.
Proof. vm_compute. auto. Qed.
Example C66_nontrivial : digit_count (text "<3>X") < 10 /\ exists m, parse false (text "<3>X") = Ok (inl m).
Proof. split; [vm_compute; reflexivity|]. eexists. vm_compute. reflexivity. Qed.
