(** C173-C179: what a DHCPv6 client sends. *)
From Coq Require Import ZArith Permutation.
From Verif Require Import Base Dhcp6_Spec Dhcp6Send_Model Dhcp6Send_Spec Dhcp6Send_Opts Dhcp6Send_Msg Dhcp6Send_Run Dhcp6Send_Cex.
Local Open Scope N_scope.

(** ** C173: identity associations *)
Theorem C173_one_partial mac t1 t2 add ia_na w c os : is_mac mac -> sane c -> tidy c os -> uint32_if t1 -> uint32_if t2 -> (forall a, ia_na = Some (Some a) -> address a) -> wished c add ia_na w ->
  exists c' i, set_ia (Some mac) 3 t1 t2 add ia_na c = Ret (c', 0) /\ identity c (Some mac) i /\ c_iaid c' = i /\ kept c c' /\ sane c'
    /\ asks (mkOpt 3 (match w with Some a => ia_data 3 i (or_zero t1) (or_zero t2) [SAddr a 0 0 []] | None => ia_data 3 i 0 0 [] end)) c os c'
    /\ c_na c' = match w with Some a => a | None => c_na c end.
Proof. exact (set_ia_na mac t1 t2 add ia_na w c os). Qed.
Print Assumptions C173_one_partial.
Theorem C173_temporary mac t1 t2 add ia_na c os : is_mac mac -> sane c -> tidy c os ->
  exists c' i, set_ia (Some mac) 4 t1 t2 add ia_na c = Ret (c', 0) /\ identity c (Some mac) i /\ c_iaid c' = i /\ kept c c' /\ sane c' /\ asks (mkOpt 4 (ia_data 4 i 0 0 [])) c os c' /\ c_na c' = c_na c.
Proof. exact (set_ia_ta mac t1 t2 add ia_na c os). Qed.
Print Assumptions C173_temporary.
Theorem C173_list_partial mac code t1 t2 l c os : is_mac mac -> sane c -> tidy c os -> (code = 3 \/ code = 4) -> uint32_if t1 -> uint32_if t2 -> Forall address l -> 1 <= lenN l <= 2340 ->
  exists c' i, set_ias (Some mac) code t1 t2 (map Some l) c = Ret (c', 0) /\ identity c (Some mac) i /\ c_iaid c' = i /\ kept c c' /\ asks (mkOpt code (ia_data code i (or_zero t1) (or_zero t2) (map (fun a => SAddr a 0 0 []) l))) c os c'.
Proof. exact (set_ias_exact mac code t1 t2 l c os). Qed.
Print Assumptions C173_list_partial.
Theorem C173_times_refuted : exists t1 t2 c', t1 <> 0 /\ t2 <> 0 /\ set_ia (Some mac1) 3 (Some t1) (Some t2) false None fresh = Ret (c', 0) /\ exists i, c_sends c' = [stored (mkOpt 3 (ia_data 3 i 0 0 []))].
Proof. exact times_lost. Qed.
Print Assumptions C173_times_refuted.
Theorem C173_invalid_refuted : exists c', set_ias (Some mac1) 3 None None [Some a1; None; Some a2] fresh = Ret (c', 0)
  /\ c_sends c' = [stored (mkOpt 3 (ia_data 3 iaid1 0 0 (SAddr a1 0 0 [] :: repeat (SOther 0 []) 14)))].
Proof. exact list_cut. Qed.
Print Assumptions C173_invalid_refuted.
Theorem C173_many_refuted : exists l c', lenN l = 2341 /\ Forall address l /\ set_ias (Some mac1) 3 None None (map Some l) fresh = Ret (c', 0) /\ exists d, c_sends c' = [stored (mkOpt 3 d)] /\ lenN d = 24.
Proof. exact many_cut. Qed.
Print Assumptions C173_many_refuted.
Example C173_ex : exists c', set_ias (Some mac1) 3 (Some 60) None [Some a1; Some a2] fresh = Ret (c', 0) /\ c_sends c' = [stored (mkOpt 3 (ia_data 3 iaid1 60 0 [SAddr a1 0 0 []; SAddr a2 0 0 []]))].
Proof. eexists. split; vm_compute; reflexivity. Qed.

(** ** C174: prefixes *)
Theorem C174_prefixes_partial t1 t2 l c os : sane c -> tidy c os -> uint32_if t1 -> uint32_if t2 -> Forall (fun x => address (snd x)) l -> lenN l <= 49 ->
  exists c', set_pd t1 t2 l c = Ret (c', 0) /\ c_iaid c' = c_iaid c /\ kept c c' /\ sane c' /\ asks (mkOpt 25 (ia_data 25 (c_iaid c) (or_zero t1) (or_zero t2) (map (fun x => SPrefix 0 0 (fst x mod 256) (snd x) []) l))) c os c'.
Proof. exact (set_pd_exact t1 t2 l c os). Qed.
Print Assumptions C174_prefixes_partial.
Theorem C174_too_many t1 t2 l c : Forall (fun x => address (snd x)) l -> 50 <= lenN l -> exists c', set_pd t1 t2 l c = Ret (c', EINVAL) /\ c_sends c' = c_sends c /\ c_iaid c' = c_iaid c /\ kept c c'.
Proof. exact (set_pd_refused t1 t2 l c). Qed.
Print Assumptions C174_too_many.
Theorem C174_identity_refuted : exists c1 c2, set_pd None None [(64, a1)] fresh = Ret (c1, 0) /\ set_ia (Some mac1) 3 None None false None c1 = Ret (c2, 0) /\ iaid_at 25 c2 = Some (be32 0) /\ iaid_at 3 c2 = Some (be32 iaid1).
Proof. exact pd_first. Qed.
Print Assumptions C174_identity_refuted.
Example C174_ex : exists c', set_pd (Some 1) None [(64, a1); (56, a2)] (with_iaid 9 fresh) = Ret (c', 0) /\ c_sends c' = [stored (mkOpt 25 (ia_data 25 9 1 0 [SPrefix 0 0 64 a1 []; SPrefix 0 0 56 a2 []]))].
Proof. eexists. split; vm_compute; reflexivity. Qed.

(** ** C175: the options that are asked for *)
Theorem C175_codes_partial l c os : tidy c os -> Forall (fun x => x < 65536) l -> 1 <= lenN l <= 32767 ->
  exists c', set_oro l c = Ret (c', 0) /\ c_iaid c' = c_iaid c /\ kept c c' /\ c_requests c' = c_requests c /\ tidy c' (mkOpt 6 (concat (map be16 l)) :: other 6 os).
Proof. exact (set_oro_exact l c os). Qed.
Print Assumptions C175_codes_partial.
Theorem C175_none_refuted : forall c, set_oro [] c = Ret (c, ENOMEM).
Proof. exact oro_none. Qed.
Print Assumptions C175_none_refuted.
Theorem C175_many_refuted : exists l c', lenN l = 32768 /\ Forall (fun x => x < 65536) l /\ set_oro l fresh = Ret (c', 0) /\ c_sends c' = [stored (mkOpt 6 [])].
Proof. exact oro_wraps. Qed.
Print Assumptions C175_many_refuted.
Example C175_ex : exists c', set_oro [23; 24; 258] fresh = Ret (c', 0) /\ c_sends c' = [(6, [0; 6; 0; 6; 0; 23; 0; 24; 1; 2])].
Proof. eexists. split; vm_compute; reflexivity. Qed.

(** ** C176: messages *)
Theorem C176_proper order l : (forall l, Permutation (order l) l) -> forall c, inv c -> Forall call_ok l ->
  exists c' ps, calls order l c = Ret (c', ps) /\ inv c' /\ Forall proper ps /\ (c_iaid c <> 0 -> c_iaid c' = c_iaid c)
    /\ (c_again c = true -> ~ In (Again false) l -> Forall (fun p => xid_of p = xid3 (c_xid c)) ps).
Proof. exact (calls_inv order l). Qed.
Print Assumptions C176_proper.
Theorem C176_message_partial type id now order c os : (forall l, Permutation (order l) l) -> sane c -> tidy c os -> type < 256 ->
  exists c' p t os1 more os2 os', send_msg type id now order c = Ret (c', p) /\ p = message type (if c_again c then xid3 (c_xid c) else xid3 id) (os1 ++ os2) /\ lenN p <= 1496
    /\ time_told c now t /\ t < 65536 /\ flat_map (requested c t) (c_requests c') = os1 ++ more /\ Permutation os' os /\ some_of os2 os'
    /\ ((In 1 (c_requests c) -> c_duid c <> None) -> lenN (encs (os1 ++ more ++ os)) <= 1492 -> more = [] /\ os2 = os')
    /\ (forall r, In r (c_requests c') <-> r = 8 \/ In r (c_requests c)) /\ sane c' /\ tidy c' os /\ c_iaid c' = c_iaid c /\ c_na c' = c_na c /\ c_duid c' = c_duid c /\ c_server c' = c_server c /\ c_again c' = c_again c
    /\ (c_again c = true -> c_xid c' = c_xid c /\ c_start c' = c_start c) /\ (c_again c = false -> xid3 (c_xid c') = xid3 id /\ c_start c' = now).
Proof. exact (send_spec type id now order c os). Qed.
Print Assumptions C176_message_partial.
Theorem C176_time_refuted : Forall call_ok one_send /\ exists c', calls (fun l => l) one_send fresh = Ret (c', [message 1 [1; 2; 3] [mkOpt 8 [0; 0]]; message 1 [1; 2; 4] []]) /\ In 8 (c_requests c').
Proof. exact no_duid. Qed.
Print Assumptions C176_time_refuted.
Theorem C176_fits_refuted : exists c', send_msg 1 66051 (0%Z, 0%Z) (fun l => l) long_client = Ret (c', message 1 [1; 2; 3] [mkOpt 8 [0; 0]]) /\ lenN (message 1 [1; 2; 3] [mkOpt 8 [0; 0]; long_opt]) = 1498.
Proof. exact left_out. Qed.
Print Assumptions C176_fits_refuted.
Example C176_fresh : inv fresh.
Proof. exact fresh_inv. Qed.
Example C176_calls : Forall call_ok busy.
Proof. exact busy_ok. Qed.
Example C176_ex : exists c', calls (fun l => l) busy duid_client = Ret (c', [message 3 [1; 2; 3] [mkOpt 8 [0; 0]; mkOpt 1 duid1; mkOpt 25 (ia_data 25 iaid1 0 0 [SPrefix 0 0 56 a2 []]); mkOpt 3 (ia_data 3 iaid1 10 20 [SAddr a1 0 0 []]); mkOpt 6 [0; 23; 0; 24]];
  message 3 [1; 2; 3] [mkOpt 8 (be16 150); mkOpt 1 duid1; mkOpt 25 (ia_data 25 iaid1 0 0 [SPrefix 0 0 56 a2 []]); mkOpt 3 (ia_data 3 iaid1 10 20 [SAddr a1 0 0 []]); mkOpt 6 [0; 23; 0; 24]]]).
Proof. exact busy_sends. Qed.

(** ** C177: sending again *)
Theorem C177_same_xid order t id now l c : (forall l, Permutation (order l) l) -> inv c -> c_again c = false -> t < 256 -> id < 2147483648 -> Forall call_ok l -> ~ In (Again false) l ->
  exists c' p ps, calls order (Send t id now :: Again true :: l) c = Ret (c', p :: ps) /\ xid_of p = xid3 id /\ Forall (fun q => xid_of q = xid_of p) ps.
Proof. exact (again_xid order t id now l c). Qed.
Print Assumptions C177_same_xid.
Theorem C177_time_partial c now c' : c_again c' = c_again c -> (c_again c = true -> c_start c' = c_start c) -> time_told c now (elapsed c' now).
Proof. exact (time_told_ok c now c'). Qed.
Print Assumptions C177_time_partial.
Theorem C177_time_refuted : exists c', send_msg 1 7 (42949673%Z, 0%Z) (fun l => l) late = Ret (c', message 1 [1; 2; 3] [mkOpt 8 (be16 4)]).
Proof. exact time_wraps. Qed.
Print Assumptions C177_time_refuted.
Example C177_ex : exists c', send_msg 1 7 (12%Z, 345678%Z) (fun l => l) late = Ret (c', message 1 [1; 2; 3] [mkOpt 8 (be16 1234)]).
Proof. exact time_told_ex. Qed.

(** ** C178: identifiers *)
Theorem C178_llt_partial hw now mac : hw < 256 -> is_mac mac -> create_duid 1 hw now (Some mac) = Ret (0, Some (be16 1 ++ be16 hw ++ be32 (Z.to_N ((now - 946684800) mod 4294967296)) ++ mac)).
Proof. exact (duid_llt hw now mac). Qed.
Print Assumptions C178_llt_partial.
Theorem C178_ll_partial hw now mac : hw < 256 -> is_mac mac -> create_duid 3 hw now (Some mac) = Ret (0, Some (be16 3 ++ be16 hw ++ mac)).
Proof. exact (duid_ll hw now mac). Qed.
Print Assumptions C178_ll_partial.
Theorem C178_hardware_refuted : create_duid 3 801 0 (Some mac1) = Ret (0, Some (be16 3 ++ be16 33 ++ mac1)).
Proof. exact duid_cut. Qed.
Print Assumptions C178_hardware_refuted.
Theorem C178_type_refuted : create_duid 4 1 0 (Some mac1) = Ret (0, None).
Proof. exact duid_type_unknown. Qed.
Print Assumptions C178_type_refuted.
Theorem C178_no_mac_refuted : create_duid 3 1 0 None = Undef /\ set_ia None 3 None None false None fresh = Undef.
Proof. exact duid_no_mac. Qed.
Print Assumptions C178_no_mac_refuted.
Example C178_ex : create_duid 1 1 946684801 (Some mac1) = Ret (0, Some [0; 1; 0; 1; 0; 0; 0; 1; 2; 0; 10; 20; 30; 40]).
Proof. reflexivity. Qed.

(** ** C179: what is started, and who is told *)
Theorem C179_one_partial set k : set k = true -> (forall j, set j = true -> j = k) -> start set = Some k /\ (k <> Solicit -> tells set = Some k).
Proof. exact (start_one set k). Qed.
Print Assumptions C179_one_partial.
Theorem C179_type_partial set k t id now order c : (forall l, Permutation (order l) l) -> inv c -> set k = true -> (forall j, set j = true -> j = k) -> In (k, t) types ->
  exists c' xid os, first_msg set id now order c = Ret (c', Some (message t xid os)).
Proof. exact (first_type set k t id now order c). Qed.
Print Assumptions C179_type_partial.
Theorem C179_none set id now order c : (forall k, set k = false) -> first_msg set id now order c = Ret (c, None).
Proof. exact (first_none set id now order c). Qed.
Print Assumptions C179_none.
Theorem C179_two_refuted : let set := (fun k => match k with Confirm | Renew => true | _ => false end) in start set = Some Confirm /\ tells set = Some Renew.
Proof. exact two_callbacks. Qed.
Print Assumptions C179_two_refuted.
Example C179_ex : start (fun k => match k with Rebind => true | _ => false end) = Some Rebind.
Proof. reflexivity. Qed.
Example C179_type_ex : exists c', first_msg (fun k => match k with Renew => true | _ => false end) 66051 (0%Z, 0%Z) (fun l => l) fresh = Ret (c', Some (message 5 [1; 2; 3] [mkOpt 8 [0; 0]])).
Proof. eexists. vm_compute. reflexivity. Qed.
