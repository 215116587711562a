(** Properties C92 to C98: link-local addresses. *)
From Verif Require Import Base LinkLocal_Model LinkLocal_Spec LinkLocal_Proofs.

(** ** C92: an address is reported only after three probes and two announcements, far enough
    apart, while nobody else names it *)
Theorem C92_claimed_partial : forall c, runs sockets c -> claimed (log c).
Proof. exact claimed_ok. Qed.
Print Assumptions C92_claimed_partial.
(** The socket cannot be opened: nobody looks at the answers. *)
Theorem C92_no_socket_refuted :
  exists c, runs (both (fun e o _ => link_local (e_ip e) /\ o <> OError) in_time) c /\ ~ claimed (log c).
Proof. exact deaf_refuted. Qed.
Print Assumptions C92_no_socket_refuted.
(** The socket fails on the way. *)
Theorem C92_socket_error_refuted :
  exists c, runs (both (fun e _ _ => link_local (e_ip e) /\ e_sock e = true) in_time) c /\ ~ claimed (log c).
Proof. exact error_refuted. Qed.
Print Assumptions C92_socket_error_refuted.
Example C92_ex : runs (both sockets in_time) first /\
  log first = [(0, Start); (0, Probe 0xa9fe0100); (1000, Probe 0xa9fe0100); (2000, Probe 0xa9fe0100);
    (4000, Announce 0xa9fe0100); (6000, Announce 0xa9fe0100); (8000, Available 0xa9fe0100)].
Proof. split; [unfold first; walk | vm_compute; reflexivity]. Qed.

(** ** C93: a held address is defended once in ten seconds, and lost only when somebody uses
    it again within that time *)
Theorem C93_kept : forall c e ip o s g, runs sockets c -> held (seen (log c)) = Some ip -> uses ip o s = false ->
  log (step e (ORecv o s g) c) = log c ++ [(now c, Wire o s g)] /\
  held (seen (log (step e (ORecv o s g) c))) = Some ip.
Proof. exact keep_ok. Qed.
Print Assumptions C93_kept.
Theorem C93_defended : forall c e ip o g, runs sockets c -> held (seen (log c)) = Some ip -> (o = 1 \/ o = 2) ->
  caught_up c -> (forall t, defence (seen (log c)) = Some t -> t + 10000 <= now c) ->
  log (step e (ORecv o ip g) c) = log c ++ [(now c, Wire o ip g); (now c, Announce ip)] /\
  held (seen (log (step e (ORecv o ip g) c))) = Some ip.
Proof. exact defend_ok. Qed.
Print Assumptions C93_defended.
Theorem C93_lost : forall c e ip o g t, runs sockets c -> held (seen (log c)) = Some ip -> (o = 1 \/ o = 2) ->
  link_local (e_ip e) -> defence (seen (log c)) = Some t -> now c < t + 10000 ->
  exists rest,
    log (step e (ORecv o ip g) c) = log c ++ (now c, Wire o ip g) :: (now c, Lost) :: rest /\
    held (seen (log (step e (ORecv o ip g) c))) = None /\
    assigned (step e (ORecv o ip g) c) = None.
Proof. exact lose_ok. Qed.
Print Assumptions C93_lost.
Theorem C93_lost_rightly : forall c, runs (both sockets in_time) c -> lost_rightly (log c).
Proof. exact lost_ok. Qed.
Print Assumptions C93_lost_rightly.
(** Two uses more than ten seconds apart are both defended; a third soon after is not. *)
Example C93_ex :
  skipn 7 (log (run ((ev, OStart) :: claim 1 ++ [use; (ev, OWait 10000); (ev, OFire 7); use; (ev, OWait 9999); use])
    fresh_client)) =
  [(8000, Wire 1 0xa9fe0100 0xa9fe0100); (8000, Announce 0xa9fe0100);
   (18000, Wire 1 0xa9fe0100 0xa9fe0100); (18000, Announce 0xa9fe0100);
   (27999, Wire 1 0xa9fe0100 0xa9fe0100); (27999, Lost)].
Proof. vm_compute. reflexivity. Qed.

(** ** C94: the client gives up after ten conflicts *)
(** As long as no address was ever reported. *)
Theorem C94_tenth_conflict_partial : forall c e ip o s g, runs sockets c -> e_react e = Nothing ->
  existsb is_avail (log c) = false -> cand (seen (log c)) = Some ip -> names ip o s g = true ->
  hits (seen (log c)) < 255 ->
  log (step e (ORecv o s g) c) = log c ++ (now c, Wire o s g) ::
    (if hits (seen (log c)) + 1 <? 10 then [] else [(now c, NoLease)]).
Proof. exact conflict_ok. Qed.
Print Assumptions C94_tenth_conflict_partial.
(** Requests for the address, which any host may send, count as conflicts while it is held. *)
Theorem C94_requests_refuted : exists c h t ip, runs (both sockets in_time) c /\
  log c = h ++ [(t, Lost); (t, NoLease)] /\ length (filter (used ip) h) = 2%nat /\ existsb gave_up h = false /\
  hits (seen h) = 10.
Proof. exact requests_refuted. Qed.
Print Assumptions C94_requests_refuted.
(** After giving up, starting again gives up at the first conflict. *)
Theorem C94_started_again_refuted : exists c h t ip, runs (both sockets in_time) c /\
  log c = h ++ [(t, Stop); (t, Start); (t, Probe ip); (t, Wire 1 ip ip); (t, NoLease)].
Proof. exact started_again_refuted. Qed.
Print Assumptions C94_started_again_refuted.
Example C94_ex : existsb gave_up (log (run (firstn 19 ten_run) fresh_client)) = false /\
  existsb gave_up (log (run ten_run fresh_client)) = true.
Proof. vm_compute. auto. Qed.

(** ** C95: only a conflict makes the client drop the address it tries *)
(** Packets that do not name it change nothing. *)
Theorem C95_others_partial : forall c e o s g, runs sockets c ->
  (forall ip, cand (seen (log c)) = Some ip -> names ip o s g = false) ->
  step e (ORecv o s g) c = emit (Wire o s g) c.
Proof. exact others_ok. Qed.
Print Assumptions C95_others_partial.
(** A host that merely asks for the address is taken for an owner. *)
Theorem C95_asked_refuted : exists c h t ip s ip', runs (both sockets in_time) c /\
  log c = h ++ [(t, Probe ip); (t, Wire 1 s ip); (t, Probe ip')] /\ s <> 0 /\ s <> ip /\ ip' <> ip.
Proof. exact asked_refuted. Qed.
Print Assumptions C95_asked_refuted.
Example C95_ex : log (step ev (ORecv 1 0xa9fe1234 0xa9fe4321) first) =
  log first ++ [(8000, Wire 1 0xa9fe1234 0xa9fe4321)].
Proof. vm_compute. reflexivity. Qed.

(** ** C96: a stopped client does nothing until it is started *)
Theorem C96_stopped_partial : forall P c e os, runs P c -> Forall (fun x => call (snd x) = false) os ->
  filter own (log (run os (step e OStop c))) = filter own (log c) ++ [(now c, Stop)].
Proof. exact stop_ok. Qed.
Print Assumptions C96_stopped_partial.
Theorem C96_stopped_when_available_partial : forall P c e id t ip os, runs P c ->
  Forall (fun x => call (snd x) = false) os ->
  log (step e (OFire id) c) = log c ++ [(t, Available ip); (t, Stop)] ->
  filter own (log (run os (step e (OFire id) c))) = filter own (log (step e (OFire id) c)).
Proof. exact stop_available_ok. Qed.
Print Assumptions C96_stopped_when_available_partial.
(** Stopped by the callback for a lost address, it goes on and claims another. *)
Theorem C96_stop_refuted : exists c h t h' t' ip, runs (both sockets in_time) c /\
  log c = h ++ [(t, Lost); (t, Stop)] ++ h' ++ [(t', Available ip)] /\ existsb started h' = false.
Proof. exact stop_refuted. Qed.
Print Assumptions C96_stop_refuted.
Example C96_ex : log (run ((ev, OStart) :: firstn 4 (claim 1) ++ (ev, OStop) :: skipn 4 (claim 1) ++ [use]) fresh_client) =
  [(0, Start); (0, Probe 0xa9fe0100); (1000, Probe 0xa9fe0100); (2000, Stop); (8000, Wire 1 0xa9fe0100 0xa9fe0100)].
Proof. vm_compute. reflexivity. Qed.

(** ** C97: eleven seconds after the start or the last conflict there is an address *)
Theorem C97_found : forall c, runs (both sockets in_time) c -> caught_up c -> on (seen (log c)) = true ->
  since (seen (log c)) + 10997 <= now c -> held (seen (log c)) <> None.
Proof. exact live_ok. Qed.
Print Assumptions C97_found.
(** The longest it takes. *)
Example C97_ex :
  let slow := Env true 999 0xa9fe0100 Nothing in
  let os := [(slow, OStart); (slow, OWait 999); (slow, OFire 1); (slow, OWait 1999); (slow, OFire 2);
    (slow, OWait 1999); (slow, OFire 3); (slow, OWait 2000); (slow, OFire 4); (slow, OWait 2000); (slow, OFire 5);
    (slow, OWait 2000)] in
  now (run os fresh_client) = 10997 /\ held (seen (log (run os fresh_client))) = None /\
  held (seen (log (step slow (OFire 6) (run os fresh_client)))) = Some 0xa9fe0100.
Proof. vm_compute. auto. Qed.

(** ** C98: g_dhcp_client_get_address returns the address held *)
Theorem C98_address_partial : forall c ip, runs sockets c -> held (seen (log c)) = Some ip -> assigned c = Some ip.
Proof. exact address_ok. Qed.
Print Assumptions C98_address_partial.
(** Also after the client was stopped. *)
Theorem C98_stopped_refuted : exists c ip h t, runs (both sockets in_time) c /\ log c = h ++ [(t, Stop)] /\
  held (seen (log c)) = None /\ assigned c = Some ip.
Proof. exact stopped_address_refuted. Qed.
Print Assumptions C98_stopped_refuted.
Example C98_ex : assigned first = Some 0xa9fe0100 /\ assigned (run [use; use] first) = None.
Proof. vm_compute. auto. Qed.
