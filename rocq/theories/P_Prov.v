(** C167 to C172, C183, C184: connecting to peers. *)
From Coq Require Import String.
From Verif Require Import Base Text Comm_Model Comm_Spec Prov_Model Prov_Spec Prov_Sound Prov_Watch Prov_Cex.
Local Open Scope list_scope.

(** C167: no peer is used after it was freed, and every device is one peer, on the bus
    exactly while wpa_supplicant runs. *)
Theorem C167_safe h : exists s o, run init h = Ret (s, o).
Proof. exact (safe_c167 h). Qed.
Print Assumptions C167_safe.
Theorem C167_once h s o : run init h = Ret (s, o) -> NoDup (map p_mac (s_peers s)) /\ Forall (fun p => address (p_mac p) /\ p_public p = s_run s) (s_peers s).
Proof. exact (known_once h s o). Qed.
Print Assumptions C167_once.
Example C167_ex : exists s, run init [Reply (Some A); Ready true; Connect A [] [] 0; Lost (Some A); NegFailure] =
  Ret (s, [Added A; Send [text "P2P_CONNECT"; A; text "pbc"]; Returns 0; Failed A (text "lost"); Removed A]) /\ s_peers s = [].
Proof. eexists. split; vm_compute; reflexivity. Qed.

(** C168: peers are the devices that were found and not lost. *)
Theorem C168_ghost_refuted : exists h s o mac, run init h = Ret (s, o) /\ Forall proper h /\ object s mac <> None /\ ~ there h mac.
Proof. exact ghost_c168. Qed.
Print Assumptions C168_ghost_refuted.
Theorem C168_known_partial h s o : Forall proper h -> Forall direct h -> run init h = Ret (s, o) -> forall mac, In mac (map p_mac (s_peers s)) <-> there h mac.
Proof. exact (known_there h s o). Qed.
Print Assumptions C168_known_partial.
Example C168_ex : there [Found (Some A) (Some A); Found (Some B) (Some B); Lost (Some B)] A /\ exists s o, run init [Found (Some A) (Some A); Found (Some B) (Some B); Lost (Some B)] = Ret (s, o) /\ map p_mac (s_peers s) = [A].
Proof.
  split; [|do 2 eexists; split; vm_compute; reflexivity]. exists [], (Found (Some A) (Some A)), [Found (Some B) (Some B); Lost (Some B)]. split; [reflexivity|]. split; [left; eauto|].
  split; intros H; cbn [In] in H; repeat (destruct H as [H|H]; [discriminate H|]); exact H.
Qed.

(** C169: what Connect asks for. *)
Theorem C169_connect h s o mac p prov pin err : Forall proper h -> run init h = Ret (s, o) -> object s mac = Some p ->
  exists w, v_ask (view_of mac h) = Some w /\
  forall m n r, method_is w prov m -> pin_is w pin n -> request mac m n r ->
  step s (Connect mac prov pin err) =
    if p_in p then Ret (s, [Returns 0])
    else if match pend s with Some m => negb (str_eq m mac) | None => false end then Ret (s, [Returns EALREADY])
    else match r with
         | None => Ret (s, [Returns EINVAL])
         | Some words => if err =? 0 then Ret (with_pending (Some (p_id p)) s, [Send words; Returns 0]) else Ret (s, [Returns err])
         end.
Proof. exact (connect_spec h s o mac p prov pin err). Qed.
Print Assumptions C169_connect.
Theorem C169_total w prov pin mac : exists m n r, method_is w prov m /\ pin_is w pin n /\ request mac m n r.
Proof. exact (total_c169 w prov pin mac). Qed.
Print Assumptions C169_total.
Theorem C169_no_object s mac prov pin err : object s mac = None -> step s (Connect mac prov pin err) = Ret (s, [NoObject]).
Proof. exact (connect_no_object s mac prov pin err). Qed.
Print Assumptions C169_no_object.
Example C169_ex : exists s o s', run init shown = Ret (s, o) /\ step s (Connect A (text "auto") [] 0) = Ret (s', [Send [text "P2P_CONNECT"; A; text "12345670"; text "display"]; Returns 0])
  /\ step s (Connect A (text "keypad") (text "1234") 0) = Ret (s', [Send [text "P2P_CONNECT"; A; text "1234"; text "keypad"]; Returns 0]) /\ step s (Connect A (text "nfc") [] 0) = Ret (s, [Returns EINVAL]).
Proof. do 3 eexists. repeat split; vm_compute; reflexivity. Qed.

(** C170: one attempt at a time. *)
Theorem C170_left_refuted : exists h s o mac, run init h = Ret (s, o) /\ (forall m, ~ going h m) /\ Forall (fun p => p_in p = false) (s_peers s) /\ step s (Connect mac [] [] 0) = Ret (s, [Returns EALREADY]).
Proof. exact left_c170. Qed.
Print Assumptions C170_left_refuted.
Theorem C170_scan_refuted : exists h s o a b s' w, run init h = Ret (s, o) /\ going h a /\ a <> b /\ step s (Connect b [] [] 0) = Ret (s', [Send w; Returns 0]).
Proof. exact scan_c170. Qed.
Print Assumptions C170_scan_refuted.
Theorem C170_tried_partial h s o : run init h = Ret (s, o) -> ~ In (Ready false) h -> forall mac, pend s = Some mac <-> tried h mac.
Proof. exact (pend_tried h s o). Qed.
Print Assumptions C170_tried_partial.
Theorem C170_one_partial h a b : ~ In (Ready false) h -> tried h a -> tried h b -> a = b.
Proof. exact (tried_one h a b). Qed.
Print Assumptions C170_one_partial.
Example C170_ex : tried [Ready true; Reply (Some A); Reply (Some B); Connect A [] [] 0; Connect B [] [] 0] A.
Proof.
  exists [Ready true; Reply (Some A); Reply (Some B)], [], [], [Connect B [] [] 0]. do 4 eexists. split; [reflexivity|]. split; [vm_compute; reflexivity|]. split; [vm_compute; reflexivity|].
  split; [eexists; left; reflexivity|]. repeat constructor. intros H. exact H.
Qed.

(** C171: failures are told. *)
Theorem C171_scan_refuted : exists h s o a, run init h = Ret (s, o) /\ going h a /\ step s FormFailure = Ret (s, []).
Proof. exact scan_c171. Qed.
Print Assumptions C171_scan_refuted.
Theorem C171_connected_refuted : exists h s o mac p s' r, run init h = Ret (s, o) /\ object s mac = Some p /\ p_conn p = true /\ step s NegFailure = Ret (s', [Failed mac r]).
Proof. exact connected_c171. Qed.
Print Assumptions C171_connected_refuted.
Theorem C171_told_partial h s o mac : ~ In (Ready false) h -> run init h = Ret (s, o) -> tried h mac ->
  step s NegFailure = Ret (with_pending None s, [Failed mac (text "group owner negotiation failed")]) /\ step s FormFailure = Ret (with_pending None s, [Failed mac (text "unknown")])
  /\ (exists s' o', step s (Lost (Some mac)) = Ret (s', Failed mac (text "lost") :: o'))
  /\ (forall p, named s mac = Some p -> p_conn p = false -> exists s' o', step s (StaDisconnected (Some mac)) = Ret (s', Failed mac (text "disconnected") :: o')).
Proof. exact (failure_told h s o mac). Qed.
Print Assumptions C171_told_partial.
Theorem C171_only_partial h s o e s' o' mac r : ~ In (Ready false) h -> e <> Ready false -> run init h = Ret (s, o) -> step s e = Ret (s', o') -> In (Failed mac r) o' -> tried h mac /\ forall m, ~ tried (h ++ [e]) m.
Proof. exact (failed_tried h s o e s' o' mac r). Qed.
Print Assumptions C171_only_partial.
Theorem C171_count_partial h s o : run init h = Ret (s, o) -> forall mac, count (is_failure mac) o <= count (is_request mac) o.
Proof. exact (failures_count h s o). Qed.
Print Assumptions C171_count_partial.
Example C171_ex : exists s o, run init [Ready true; Reply (Some A); Connect A [] [] 0; FormFailure; FormFailure] = Ret (s, o) /\ count (is_failure A) o = 1 /\ count (is_request A) o = 1.
Proof. do 2 eexists. split; [vm_compute; reflexivity|]. split; vm_compute; reflexivity. Qed.

(** C172: requests of peers are told. *)
Theorem C172_method_refuted : exists h s o mac s' pin, run init h = Ret (s, o) /\ Forall proper h /\ step s (NegRequest (Some mac) 4) = Ret (s', [Wanted mac (text "display") pin]).
Proof. exact method_c172. Qed.
Print Assumptions C172_method_refuted.
Theorem C172_asked_partial h s o mac : Forall proper h -> run init h = Ret (s, o) -> object s mac <> None ->
  (exists s', step s (PbcReq (Some mac)) = Ret (s', [Asked mac (text "pbc") []])) /\ (forall pin, exists s', step s (ShowPin (Some mac) (Some pin)) = Ret (s', [Asked mac (text "display") pin]))
  /\ (exists s', step s (EnterPin (Some mac)) = Ret (s', [Asked mac (text "pin") []])).
Proof. exact (asked_told h s o mac). Qed.
Print Assumptions C172_asked_partial.
Theorem C172_wanted_partial h s o mac p i : Forall proper h -> run init h = Ret (s, o) -> object s mac = Some p -> p_in p = false ->
  exists s' w, v_ask (view_of mac h) = Some w /\ step s (NegRequest (Some mac) i) = Ret (s', [match w with Some (m, pin) => Wanted mac m (or_empty pin) | None => Wanted mac (text "pbc") [] end]).
Proof. exact (wanted_told h s o mac p i). Qed.
Print Assumptions C172_wanted_partial.
Example C172_ex : exists s, run init [Ready true; Reply (Some A); NegRequest (Some A) 4; EnterPin (Some A); NegRequest (Some A) 1] =
  Ret (s, [Added A; Wanted A (text "pbc") []; Asked A (text "pin") []; Wanted A (text "pin") []]).
Proof. eexists. vm_compute. reflexivity. Qed.

(** C183: a client that follows the signals, from any moment on, knows the devices. *)
Theorem C183_watched h s o h' s' o' mac w : run init h = Ret (s, o) -> run s h' = Ret (s', o') -> knows w (on_bus s mac) -> exists w', follow mac w o' = Some w' /\ knows w' (on_bus s' mac).
Proof. exact (watched h s o h' s' o' mac w). Qed.
Print Assumptions C183_watched.
Example C183_ex : exists s o, run init [Reply (Some A); Ready true; GroupStarted A; Up A; Up A; Found (Some B) (Some B)] = Ret (s, o) /\ o = [Added A; Connected A true; Added B; Send [text "P2P_PEER"; B]]
  /\ follow A None o = Some (Some (Some true)) /\ on_bus s A = Some true /\ follow B None o = Some (Some None) /\ on_bus s B = Some false
  /\ exists s' o', run s [Lost (Some A)] = Ret (s', o') /\ o' = [Connected A false; Removed A] /\ follow A (Some (Some true)) o' = Some None /\ on_bus s' A = None.
Proof. do 2 eexists. split; [vm_compute; reflexivity|]. repeat (split; [vm_compute; reflexivity|]). do 2 eexists. split; [vm_compute; reflexivity|]. repeat split; vm_compute; reflexivity. Qed.
Example C183_senseless : follow A None [Removed A] = None /\ follow A None [Added A; Added A] = None /\ follow A None [Added A; Connected A true; Removed A] = None /\ follow A None [Failed A []] = None.
Proof. repeat split; vm_compute; reflexivity. Qed.

(** C184: scans are asked for exactly while wpa_supplicant runs with P2P. *)
Theorem C184_scans h s o err : run init h = Ret (s, o) ->
  step s (StartScan err) = match runs h with
    | Some true => Ret (with_pending None s, if err =? 0 then [Send [text "P2P_FIND"]; Returns 0] else [Returns err])
    | _ => Ret (s, [Returns EINVAL])
    end
  /\ step s StopScan = Ret (s, match runs h with Some true => [Send [text "P2P_STOP_FIND"]] | _ => [] end).
Proof. exact (scans h s o err). Qed.
Print Assumptions C184_scans.
Example C184_ex : exists s, run init [StartScan 0; StopScan; Ready false; StartScan 0; Stopped; Ready true; Ready false; StartScan 0; StartScan 12; StopScan] =
  Ret (s, [Returns EINVAL; Returns EINVAL; Send [text "P2P_FIND"]; Returns 0; Returns 12; Send [text "P2P_STOP_FIND"]]).
Proof. eexists. vm_compute. reflexivity. Qed.
