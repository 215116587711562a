(** Properties C236 to C238: the life of a DHCP server. *)
From Verif Require Import Base SrvLife_Model SrvLife_Spec SrvLife_Proofs SrvLife_Cex.

(** ** Examples *)
Definition view (x : res world) : res (option server * list source * list N * list N * list N) :=
  do w <- x; Ok (srv w, srcs w, opened w, closed w, warned w).
Example started_ex : view (run [OOther; OStart true] new_one)
  = Ok (Some (Server 1 true 3), [Src 1 None; Src 2 None; Src 3 (Some 7)], [7], [], []).
Proof. vm_compute. reflexivity. Qed.
Example twice_ex : view (run [OStart true; OStart true] new_one) = Ok (Some (Server 1 true 2), [Src 1 None; Src 2 (Some 7)], [7], [], []).
Proof. vm_compute. reflexivity. Qed.
Example again_ex : view (run [OStart true; OStop; OStart true; OOther; ORef; OUnref] new_one)
  = Ok (Some (Server 1 true 3), [Src 1 None; Src 3 (Some 8); Src 4 None], [7; 8], [7], []).
Proof. vm_compute. reflexivity. Qed.
Example no_socket_ex : server_start false new_one = Ok (new_one, (-5)%Z).
Proof. vm_compute. reflexivity. Qed.
Example freed_ex : view (do w <- run [OOther; OStart true; OOther] new_one; manager_free w)
  = Ok (None, [Src 1 None; Src 2 None; Src 4 None], [7], [7], []).
Proof. vm_compute. reflexivity. Qed.
Example unref_ex : view (run [OStart true; ORef; OUnref; OUnref; OOther; OEndOther 1] new_one) = Ok (None, [Src 3 None], [7], [7], []).
Proof. vm_compute. reflexivity. Qed.
Example error_ex : view (run [OStart true; OError 2; OStop; OStart true] new_one) = Ok (Some (Server 1 true 3), [Src 1 None; Src 3 (Some 8)], [7; 8], [7], []).
Proof. vm_compute. reflexivity. Qed.
Example unused_ex : view (run [OStart false; OError 1; OStop; OStop; OUnref] new_one) = Ok (None, [Src 1 None], [], [], [4294967295]).
Proof. vm_compute. reflexivity. Qed.
Example misuse_ex : run [OUnref; OStop] new_one = UB /\ run [OUnref; OStart true] new_one = UB /\ run [OUnref; ORef] new_one = UB /\ refs 1 [OUnref; OStop] = None.
Proof. repeat split; vm_compute; reflexivity. Qed.
Example new_ex : map (fun x => snd (server_new (fst x) (snd x) empty))
  [(good, -1); (Found false true true 1, 3); (Found true false true 1, 3); (Found true true false 1, 3); (Found true true true 0, 3); (good, 0)]%Z
  = [INVALID_INDEX; NOMEM; INTERFACE_UNAVAILABLE; INTERFACE_DOWN; IP_ADDRESS_INVALID; NONE].
Proof. vm_compute. reflexivity. Qed.

(** ** C236: using a server with references is safe, and nothing of it remains *)
Theorem C236_life w w1 os n : before w -> made w w1 -> room w os -> refs 1 os = Some n ->
  exists w2, run os w1 = Ok w2 /\ opened w2 = closed w2 ++ watched w2 /\ (length (watched w2) <= 1)%nat /\
    (srv w2 = None <-> n = 0) /\ (n = 0 -> watched w2 = [] /\ closed w2 = opened w2) /\
    (forall s, srv w2 = Some s -> ref_count s = n).
Proof. exact (life w w1 os n). Qed.
Print Assumptions C236_life.
Theorem C236_new f i w : before w -> server_new f i w = (set_srv (Some (Server 1 false guint_max)) w, NONE) /\ (0 <= i)%Z /\ f_address f <> 0 \/
  exists e, server_new f i w = (w, e) /\ e <> NONE.
Proof. exact (tries f i w). Qed.
Print Assumptions C236_new.

(** ** C237: a server that was started listens *)
(** Refuted: after an error on its socket the server counts as started, and starting it again
    succeeds without a socket. *)
Theorem C237_deaf_refuted : exists w w1 os w2, before w /\ made w w1 /\ room w os /\ refs 1 os = Some 1 /\ run os w1 = Ok w2 /\
  server_start true w2 = Ok (w2, 0%Z) /\ watched w2 = [].
Proof. exact deaf. Qed.
Print Assumptions C237_deaf_refuted.
(** Missing: errors on the socket. *)
Theorem C237_listens_partial w w1 os n : before w -> made w w1 -> room w os -> refs 1 os = Some n -> n <> 0 -> existsb is_error os = false ->
  exists w2, run os w1 = Ok w2 /\ forall sock w3, server_start sock w2 = Ok (w3, 0%Z) -> exists f, watched w3 = [f].
Proof. exact (listens w w1 os n). Qed.
Print Assumptions C237_listens_partial.
(** Stopping it first always helps, and touches no other sources. *)
Theorem C237_again w w1 os n : before w -> made w w1 -> room w os -> next_id w + lenN os < guint_max -> refs 1 os = Some n -> n <> 0 ->
  exists w2 w3 w4, run os w1 = Ok w2 /\ server_stop w2 = Ok w3 /\ watched w3 = [] /\ others w3 = others w2 /\
    server_start true w3 = Ok (w4, 0%Z) /\ others w4 = others w2 /\ exists f, watched w4 = [f].
Proof. exact (stop_start w w1 os n). Qed.
Print Assumptions C237_again.

(** ** C238: only sources that exist are removed *)
(** Refuted: listener_watch is unsigned and begins as -1, so that freeing a server that was
    never started, as miracle-dhcp does after an error, removes source 4294967295. *)
Theorem C238_warns_refuted : exists w w1 w2, before w /\ made w w1 /\ manager_free w1 = Ok w2 /\ srv w2 = None /\ warned w2 = [4294967295].
Proof. exact warns. Qed.
Print Assumptions C238_warns_refuted.
(** Missing: servers that are stopped or freed before they were ever started; these do so once. *)
Theorem C238_removals_partial w w1 os n : before w -> made w w1 -> room w os -> refs 1 os = Some n ->
  exists w2, run os w1 = Ok w2 /\ warned w2 = if unused 1 os then [4294967295] else [].
Proof. exact (warnings w w1 os n). Qed.
Print Assumptions C238_removals_partial.
