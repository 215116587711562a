(** Properties C08, C09, C48: quoted command lines and the growing buffers
    they are built in. *)
From Verif Require Import Base Align_Model Alloc_Model Qstr_Model Qstr_Proofs Qstr_Mem.

(** C08. Joining and tokenizing again is the identity on lists of non-empty
    strings without NUL in which unquoted strings contain no apostrophe. *)
Theorem C08_join_tokenize_round_trip :
  forall ss,
  Forall (fun s => s <> [] /\ ~ In 0 s /\ (need_quote s = false -> ~ In 39 s)) ss ->
  tokenize (join ss) = ss.
Proof. exact qstr_roundtrip. Qed.
Print Assumptions C08_join_tokenize_round_trip.

(** [need_quote] is: contains a space, tab, newline or vertical tab. *)
Theorem C08_need_quote_iff :
  forall s, need_quote s = true <-> exists c, In c s /\ In c [32; 9; 10; 11].
Proof. exact need_quote_iff. Qed.
Print Assumptions C08_need_quote_iff.

(** Strings with a quotation mark, with apostrophe, blanks and backslash, and a plain one. *)
Definition demo : list (list byte) :=
  [[97; 34; 98]; [105; 116; 39; 115; 32; 97; 32; 92]; [120]].
Example C08_nontrivial :
  Forall (fun s => s <> [] /\ ~ In 0 s /\ (need_quote s = false -> ~ In 39 s)) demo
  /\ tokenize (join demo) = demo.
Proof.
  split; [|vm_compute; reflexivity].
  exact (clean_list_test demo eq_refl).
Qed.

(** C09 is false: an empty string disappears, an unquoted apostrophe too. *)
Theorem C09_round_trip_every_list_refuted :
  exists ss, Forall (fun s => ~ In 0 s) ss /\ tokenize (join ss) <> ss.
Proof.
  exact roundtrip_counterexample.
Qed.
Print Assumptions C09_round_trip_every_list_refuted.

(** C09, exactly which lists survive. *)
Theorem C09_round_trip_exactly_partial :
  forall ss, Forall (fun s => ~ In 0 s) ss -> tokenize (join ss) = ss ->
  Forall (fun s => s <> [] /\ ~ In 0 s /\ (need_quote s = false -> ~ In 39 s)) ss.
Proof. exact qstr_roundtrip_only. Qed.
Print Assumptions C09_round_trip_exactly_partial.
Example C09_apostrophe : tokenize (join [[97; 39; 98]]) = [[97; 98]].
Proof. vm_compute. reflexivity. Qed.

(** C48. join never writes outside its buffer; what it returns is the line with
    a terminating 0, or an error if the line has 2^31 bytes or more. Total text
    at most 2^60 bytes, allocation succeeds. *)
Theorem C48_join_memory_safe :
  forall ss, 4 * (lenN (concat ss) + lenN ss) <= 2 ^ 62 ->
  exists r, join_buf ss true = Ok r /\
    ((r = None /\ 2 ^ 31 <= lenN (join ss))
     \/ exists b, r = Some (b, lenN (join ss)) /\ lenN (join ss) < 2 ^ 31
          /\ takeN (lenN (join ss) + 1) b = map Some (join ss ++ [0])).
Proof. exact join_buf_ok. Qed.
Print Assumptions C48_join_memory_safe.

(** Decoding in place stays inside a buffer of length + 1 bytes and leaves the
    decoded, terminated string at its front. *)
Theorem C48_decode_in_place_safe :
  forall s t, exists junk,
    decode_n (map Some s ++ [t]) (lenN s)
    = Ok (map Some (decode false 0 s) ++ Some 0 :: junk, lenN (decode false 0 s)).
Proof. exact decode_n_ok. Qed.
Print Assumptions C48_decode_in_place_safe.
Example C48_nontrivial :
  decode_n (map Some [34; 92; 110; 92; 113; 34; 92] ++ [None]) 7
  = Ok ([Some 10; Some 92; Some 113; Some 92; Some 0; Some 34; Some 92; None], 4).
Proof. vm_compute. reflexivity. Qed.

(** C49. The growing allocation either provides a buffer of at least the needed
    size that starts with the old contents (zero-filled after them), or fails
    without any change, which happens only when realloc fails. *)
Theorem C49_greedy_realloc :
  forall m size need ok, lenN m = size -> need <= 2 ^ 63 ->
  (exists m' size', greedy_realloc0 m size need ok = Ok (Some (m', size'))
    /\ lenN m' = size' /\ need <= size' /\ size <= size'
    /\ takeN size m' = m /\ dropN size m' = repeat (Some 0) (N.to_nat (size' - size)))
  \/ (greedy_realloc0 m size need ok = Ok None /\ ok = false /\ size < need).
Proof. exact greedy_realloc_ok. Qed.
Print Assumptions C49_greedy_realloc.
Example C49_nontrivial :
  greedy_realloc0 [Some 7] 1 65 true
  = Ok (Some (Some 7 :: repeat (Some 0) 127, 128)).
Proof. vm_compute. reflexivity. Qed.

(** C50 is false: the typed variant multiplies without an overflow check; asked
    for 2^61 + 1 eight-byte elements it reports success with an empty buffer. *)
Theorem C50_greedy_realloc_typed_refuted :
  exists m cnt need ts, need <= 2 ^ 63 /\ lenN m = cnt * ts /\
    greedy_realloc_t m cnt need ts true = Ok (Some ([], 2 ^ 62)) /\ need <= 2 ^ 62.
Proof.
  exact greedy_typed_counterexample.
Qed.
Print Assumptions C50_greedy_realloc_typed_refuted.

(** C50 holds when the byte size fits. *)
Theorem C50_greedy_realloc_typed_partial :
  forall m cnt need ts ok, lenN m = cnt * ts -> 0 < ts -> 1 <= need ->
  2 * N.max 64 need * ts <= 2 ^ 63 ->
  (exists m' cnt', greedy_realloc_t m cnt need ts ok = Ok (Some (m', cnt'))
    /\ lenN m' = cnt' * ts /\ need <= cnt' /\ takeN (cnt * ts) m' = m)
  \/ (greedy_realloc_t m cnt need ts ok = Ok None /\ ok = false /\ cnt < need).
Proof. exact greedy_realloc_t_ok. Qed.
Print Assumptions C50_greedy_realloc_typed_partial.
(** The variant that clears fills what is new with zeros and keeps the rest. *)
Theorem C50_zeroed_partial :
  forall m cnt need ts ok, lenN m = cnt * ts -> 0 < ts -> 1 <= need ->
  2 * N.max 64 need * ts <= 2 ^ 63 ->
  (exists cnt', greedy_realloc0_t m cnt need ts ok = Ok (Some (m ++ repeat (Some 0) (N.to_nat ((cnt' - cnt) * ts)), cnt'))
    /\ need <= cnt' /\ cnt <= cnt')
  \/ (greedy_realloc0_t m cnt need ts ok = Ok None /\ ok = false /\ cnt < need).
Proof. exact greedy_realloc0_t_ok. Qed.
Print Assumptions C50_zeroed_partial.
Example C50_zeroed_example : greedy_realloc0_t [Some 7; Some 8] 1 33 2 true = Ok (Some (Some 7 :: Some 8 :: repeat (Some 0) 126, 64)).
Proof. vm_compute. reflexivity. Qed.
