(** Properties C156 .. C161: what a DHCPv6 client reads. *)
From Verif Require Import Base Dhcp6_Model Dhcp6_Spec Dhcp6_Proofs Dhcp6_Ia Dhcp6_More Dhcp6_Msg Dhcp6_Cex.
Local Open Scope list_scope.

(** C156. Looking for an option gives the last one with the code and how many there
    are, within the message: not if one to three bytes are left. *)
Theorem C156_stub_refuted : exists t xid os s code, lenN xid = 3 /\ Forall opt_ok os /\ rest_ok (RStub s) /\ get_option (message t xid os ++ s) code = Undef.
Proof. exact stub_undef. Qed.
Print Assumptions C156_stub_refuted.
Theorem C156_option_partial : forall t xid os r code, lenN xid = 3 -> Forall opt_ok os -> rest_ok r -> outcome code os r (get_option (message t xid os ++ rest_bytes r) code).
Proof. exact option_found. Qed.
Print Assumptions C156_option_partial.
(** Every message of bytes is one of these. *)
Theorem C156_every_partial : forall p, bytes p -> 4 <= lenN p -> exists t xid os r, p = message t xid os ++ rest_bytes r /\ lenN xid = 3 /\ Forall opt_ok os /\ rest_ok r.
Proof. exact every_message. Qed.
Print Assumptions C156_every_partial.
Example C156_ex : get_option (message 7 xid0 base) 2 = Ret (Some (sid ++ encs (skipn 2 base), 4), 1)
  /\ get_option (message 7 xid0 (base ++ [mkOpt 2 [9]]) ++ rest_bytes (RShort 8 5 [1])) 2 = Ret (Some (9 :: rest_bytes (RShort 8 5 [1]), 1), 2)
  /\ get_option (message 7 xid0 base) 14 = Ret (None, 0).
Proof. exact found_ex. Qed.

(** C157. All addresses and prefixes of a well-formed identity association are read,
    with the time at which the lease ends: only the last address is, and the lease of
    prefixes ends at once. *)
Theorem C157_addresses_refuted : exists b iaid t1 t2 ss l b' st, b_iaid b = iaid /\ t1 <= t2 /\ Forall sub_ok ss /\ statuses ss = []
  /\ (forall a p v, In (a, p, v) (addresses ss) -> p <= v)
  /\ get_addresses b 3 (lenN (ia_data 3 iaid t1 t2 ss)) (ia_data 3 iaid t1 t2 ss) 0 = Ret (l, b', st)
  /\ exists a p v, In (a, p, v) (addresses ss) /\ ~ In (VAddr a) l.
Proof. exact addresses_lost. Qed.
Print Assumptions C157_addresses_refuted.
Theorem C157_expire_refuted : exists b iaid t1 t2 ss l b' st, b_iaid b = iaid /\ t1 <= t2 /\ Forall sub_ok ss /\ addresses ss = []
  /\ get_addresses b 25 (lenN (ia_data 25 iaid t1 t2 ss)) (ia_data 25 iaid t1 t2 ss) 0 = Ret (l, b', st)
  /\ live (prefixes ss) <> [] /\ ~ ends_first (live (prefixes ss)) (b_expire b').
Proof. exact expire_wrong. Qed.
Print Assumptions C157_expire_refuted.
Theorem C157_address_partial : forall b code iaid t1 t2 ss r status, code = 3 \/ code = 4 ->
  b_iaid b = iaid -> iaid < 2 ^ 32 -> t1 < 2 ^ 32 -> t2 < 2 ^ 32 -> Forall sub_ok ss -> prefixes ss = [] -> (code = 3 -> t1 <= t2) ->
  get_addresses b code (lenN (ia_data code iaid t1 t2 ss)) (ia_data code iaid t1 t2 ss ++ r) status
  = Ret (match last_of (addresses ss), or_else (last_of (statuses ss)) 0 =? 0 with
         | Some (a, p, v), true =>
             if p <=? v then
               ([VAddr a], mkBind iaid (if code =? 3 then t1 else 0) (if code =? 3 then t2 else 0) (N.max (b_expire b) v)
                                  (if code =? 3 then a else b_na b) (if code =? 3 then b_ta b else a))
             else ([], b)
         | _, _ => ([], b)
         end, or_else (last_of (statuses ss)) status).
Proof. exact ia_address. Qed.
Print Assumptions C157_address_partial.
Theorem C157_prefixes_partial : forall b iaid t1 t2 ss r status,
  b_iaid b = iaid -> iaid < 2 ^ 32 -> t1 <= t2 -> t2 < 2 ^ 32 -> Forall sub_ok ss -> addresses ss = [] ->
  get_addresses b 25 (lenN (ia_data 25 iaid t1 t2 ss)) (ia_data 25 iaid t1 t2 ss ++ r) status
  = Ret (map prefix_value (live (prefixes ss)), match live (prefixes ss) with [] => b | _ => mkBind iaid t1 t2 0 (b_na b) (b_ta b) end, or_else (last_of (statuses ss)) status).
Proof. exact ia_prefixes. Qed.
Print Assumptions C157_prefixes_partial.
Theorem C157_ignored_partial : forall b code iaid t1 t2 ss r status, (b_iaid b <> iaid \/ (timed code = true /\ t2 < t1)) -> iaid < 2 ^ 32 -> t1 < 2 ^ 32 -> t2 < 2 ^ 32 ->
  get_addresses b code (lenN (ia_data code iaid t1 t2 ss)) (ia_data code iaid t1 t2 ss ++ r) status = Ret ([], b, status).
Proof. exact ia_ignored. Qed.
Print Assumptions C157_ignored_partial.
Example C157_na_ex : get_addresses b0 3 (lenN ia_na) ia_na 9 = Ret ([VAddr a1], mkBind 77 10 20 60 a1 [], 0).
Proof. exact na_ex. Qed.
Example C157_pd_ex : get_addresses b0 25 (lenN (ia_data 25 77 10 20 two_prefixes)) (ia_data 25 77 10 20 two_prefixes) 0
  = Ret ([VPrefix a1 64 30 60; VPrefix a2 56 30 50], mkBind 77 10 20 0 [] [], 0).
Proof. exact pd_ex. Qed.

(** C158. Reading an identity association depends on nothing behind it: it does, if
    it is short or the last header in it promises more. *)
Theorem C158_follows_refuted : exists b code d r1 r2 st, get_addresses b code (lenN d) (d ++ r1) st <> get_addresses b code (lenN d) (d ++ r2) st.
Proof. exact ia_leaks. Qed.
Print Assumptions C158_follows_refuted.
Theorem C158_undefined_refuted : exists b code d st, 12 <= lenN d /\ get_addresses b code (lenN d) d st = Undef.
Proof. exact ia_undef. Qed.
Print Assumptions C158_undefined_refuted.
Theorem C158_short_refuted : exists b d, lenN d = 4 /\ get_addresses b 3 4 d 0 = Undef.
Proof. exact short_ia_undef. Qed.
Print Assumptions C158_short_refuted.
Theorem C158_well_formed_partial : forall b code iaid t1 t2 ss status, iaid < 2 ^ 32 -> t1 < 2 ^ 32 -> t2 < 2 ^ 32 -> Forall sub_ok ss ->
  exists x, forall r, get_addresses b code (lenN (ia_data code iaid t1 t2 ss)) (ia_data code iaid t1 t2 ss ++ r) status = Ret x.
Proof. exact ia_safe. Qed.
Print Assumptions C158_well_formed_partial.
Example C158_ex : Forall sub_ok two_addresses /\ Forall sub_ok two_prefixes
  /\ get_addresses b0 3 (lenN overrun) (overrun ++ a1 ++ be32 1 ++ be32 2) 0 = Ret ([VAddr a1], mkBind 77 10 20 2 a1 [], 0).
Proof. exact (conj two_addresses_ok (conj two_prefixes_ok (proj2 overrun_reads))). Qed.

(** C159. Lists of servers and of names are read as they were written, and only they:
    a name without its end is read on, and long labels lead out of the array. *)
Theorem C159_reads_on_refuted : exists d r l, value_list b0 24 (lenN d) d 0 = Undef /\ value_list b0 24 (lenN d) (d ++ r) 0 = Ret ([VName l], b0, 0) /\ List.length l = 5%nat /\ lenN d = 4.
Proof. exact name_reads_on. Qed.
Print Assumptions C159_reads_on_refuted.
Theorem C159_array_refuted : value_list b0 24 (lenN jumps) jumps 0 = Undef /\ last_of jumps = Some 0.
Proof. exact jumps_out. Qed.
Print Assumptions C159_array_refuted.
Theorem C159_lists_partial : forall c d v q b st, shows c d v -> value_list b c (lenN d) (d ++ q) st = Ret (v, b, st).
Proof. exact shows_read. Qed.
Print Assumptions C159_lists_partial.
Theorem C159_bad_length_partial : forall b code len m status, code = 23 \/ code = 31 -> len mod 16 <> 0 -> value_list b code len m status = Ret ([], b, status).
Proof. exact server_list_bad. Qed.
Print Assumptions C159_bad_length_partial.
(** So are those of a message that the client asked for. *)
Theorem C159_request_partial : forall t xid os, lenN xid = 3 -> Forall opt_ok os -> forall vals b st codes tab, (forall c, In c codes -> says os c (vals c)) ->
  exists tab', get_request codes (message t xid os) b st tab = Ret (b, st, tab') /\ (forall c, In c codes -> tab' c = vals c) /\ (forall c, ~ In c codes -> tab' c = tab c).
Proof. exact request_read. Qed.
Print Assumptions C159_request_partial.
Example C159_ex : value_list b0 23 32 (a1 ++ a2) 0 = Ret ([VAddr a1; VAddr a2], b0, 0)
  /\ value_list b0 24 (lenN (concat (map enc_name names))) (concat (map enc_name names)) 0 = Ret ([VName [97; 98; 46; 99]; VName [120; 46; 121; 46; 122; 122]], b0, 0)
  /\ dotted [[97; 98]; [99]] = [97; 98; 46; 99].
Proof. exact lists_ex. Qed.

(** C160. The user only hears of messages with the transaction, the identifier of the
    client, one server, the known one, and a type that the client waits for: the
    identifiers may be longer. *)
Theorem C160_client_refuted : exists k t xid os o k', lenN xid = 3 /\ Forall opt_ok os /\ with_code 1 os = [o] /\ o_data o <> k_duid k
  /\ receive k (Some (message t xid os)) = Ret (k', Reply).
Proof. exact other_client. Qed.
Print Assumptions C160_client_refuted.
Theorem C160_server_refuted : exists k t xid os o s k', lenN xid = 3 /\ Forall opt_ok os /\ for_client k xid os /\ k_server k = Some s /\ with_code 2 os = [o] /\ o_data o <> s
  /\ receive k (Some (message t xid os)) = Ret (k', Reply).
Proof. exact other_server. Qed.
Print Assumptions C160_server_refuted.
Theorem C160_failed_read_refuted : exists k, k_listens k = true /\ receive k None = Undef.
Proof. exact failed_read. Qed.
Print Assumptions C160_failed_read_refuted.
Theorem C160_refused_server_refuted : exists k p p2 k1 k2 k3, receive k (Some p) = Ret (k1, Nothing) /\ k_server k = None /\ k_server k1 <> None
  /\ receive k (Some p2) = Ret (k2, Reply) /\ receive k1 (Some p2) = Ret (k3, Nothing).
Proof. exact refused_server. Qed.
Print Assumptions C160_refused_server_refuted.
Theorem C160_heard_partial : forall t xid os r, lenN xid = 3 -> Forall opt_ok os -> rest_ok r -> forall k k' w, receive k (Some (message t xid os ++ rest_bytes r)) = Ret (k', w) ->
  (w = Nothing /\ k_bind k' = k_bind k /\ k_values k' = k_values k /\ k_listens k' = k_listens k
   /\ (k_phase k = Replying -> k_server k' = k_server k)) \/
  (w = heard t /\ due (k_phase k) t /\ k_listens k = true /\ k_listens k' = false /\ be xid = k_xid k
   /\ (exists o q, last_of (with_code 1 os) = Some o /\ o_data o <> [] /\ starts (k_duid k) (o_data o ++ q))
   /\ (exists o q, with_code 2 os = [o] /\ o_data o <> []
       /\ (k_phase k <> Solicitation -> forall s, k_server k = Some s -> starts s (o_data o ++ q))
       /\ (k_phase k = Solicitation -> k_server k' = Some (o_data o)))
   /\ (k_phase k = Solicitation -> t = 7 -> exists o, with_code 14 os = [o] /\ o_data o <> [])).
Proof. exact receive_sound. Qed.
Print Assumptions C160_heard_partial.
Example C160_ex : shown (receive (k0 Replying (Some sid) [3; 23; 24; 31]) (Some (message 7 xid0 base)))
  = Some (Reply, false, Some sid, 0, [[VAddr a1]; [VAddr a1; VAddr a2]; [VName [97; 98; 46; 99]; VName [120; 46; 121; 46; 122; 122]]; []])
  /\ shown (receive (k0 Solicitation None [3; 23]) (Some (message 2 xid0 base))) = Some (Advertise, false, Some sid, 0, [[VAddr a1]; [VAddr a1; VAddr a2]; []; []])
  /\ shown (receive (k0 Replying (Some [9]) []) (Some (message 7 xid0 base))) = Some (Nothing, true, Some [9], 0, [[]; []; []; []])
  /\ shown (receive (k0 Replying None []) (Some (message 7 [1; 2; 4] base))) = Some (Nothing, true, None, 0, [[]; []; []; []]).
Proof. exact reply_ex. Qed.

(** C161. The user hears of every message that is right: not of replies with a Rapid
    Commit option as RFC 3315 has it, without data. *)
Theorem C161_rapid_refuted : exists k xid os k', lenN xid = 3 /\ Forall opt_ok os /\ for_client k xid os /\ from_server k os /\ k_listens k = true /\ k_phase k = Solicitation
  /\ with_code 14 os = [mkOpt 14 []] /\ receive k (Some (message 7 xid os)) = Ret (k', Nothing).
Proof. exact rapid_refused. Qed.
Print Assumptions C161_rapid_refuted.
Theorem C161_heard_partial : forall t xid os, lenN xid = 3 -> Forall opt_ok os -> forall vals k o,
  for_client k xid os -> k_duid k <> [] -> k_listens k = true -> due (k_phase k) t -> (forall c, In c (k_requests k) -> says os c (vals c)) -> statuses_ok os ->
  with_code 2 os = [o] -> o_data o <> [] -> (k_phase k <> Solicitation -> forall s, k_server k = Some s -> o_data o = s) ->
  (k_phase k = Solicitation -> t = 7 -> exists o, with_code 14 os = [o] /\ o_data o <> []) ->
  exists k', receive k (Some (message t xid os)) = Ret (k', heard t) /\ k_listens k' = false /\ k_status k' = status_of os /\ k_bind k' = k_bind k
    /\ (forall c, In c (k_requests k) -> k_phase k <> Solicitation \/ status_of os = 0 -> k_values k' c = vals c) /\ (forall c, ~ In c (k_requests k) -> k_values k' c = k_values k c)
    /\ k_server k' = match k_phase k, k_server k with Replying, s => s | Rebind, Some s => Some s | _, _ => Some (o_data o) end.
Proof. exact receive_complete. Qed.
Print Assumptions C161_heard_partial.
Example C161_ex : shown (receive (k0 Rebind None []) (Some (message 7 xid0 (mkOpt 13 [0; 2] :: base)))) = Some (Reply, false, Some sid, 2, [[]; []; []; []]).
Proof. exact rebind_ex. Qed.
