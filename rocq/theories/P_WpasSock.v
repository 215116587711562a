(** C208-C211: names of the sockets of the supplicant channel. *)
From Coq Require Import String.
From Verif Require Import Base Text WpasSock_Model WpasSock_Spec WpasSock_Proofs WpasSock_More.
Local Open Scope list_scope.
Local Open Scope N_scope.

(** C208: whatever channels a process opens, fails to open and closes: each open one has
    a socket of its own in /tmp and of those of closed ones nothing is left; *)
Theorem C208_files : forall pid w w' c, pid < 2 ^ 32 -> start w -> steps pid (w, fresh_proc) (w', c) ->
  NoDup (map snd (c_buses c)) /\
  (forall fd name, In (fd, name) (c_buses c) -> lookup name (x_files w') = Some (NSock fd true)) /\
  (forall q id o, In id (c_ever c) -> lookup q (x_files w') = Some (NSock id o) -> In (id, q) (c_buses c)).
Proof. exact clients_files. Qed.
(** other processes use other names; *)
Theorem C208_processes : forall p q n m, p < 2 ^ 32 -> q < 2 ^ 32 -> n < 2 ^ 64 -> m < 2 ^ 64 -> client_name p n = client_name q m -> p = q /\ n = m.
Proof. exact name_other_pid. Qed.
(** and what a dead process left behind does not prevent opening. *)
Theorem C208_stale : forall w pid n path sid o, pid < 2 ^ 32 -> n + 1 < 2 ^ 64 -> plain_path path -> start w -> path <> client_name pid (n + 1) ->
  lookup path (x_files w) = Some (NSock sid o) -> k_reach w sid = 0%Z -> x_mk w (client_name pid (n + 1)) = None ->
  (lookup (client_name pid (n + 1)) (x_files w) = None \/ x_rm w (client_name pid (n + 1)) = true \/ exists id, lookup (client_name pid (n + 1)) (x_files w) = Some (NSock id true)) ->
  exists w1, open_client w true pid n path = (Opened (x_next w) (client_name pid (n + 1)), w1, n + 1).
Proof. exact open_works. Qed.

Definition srv : list byte := text "/run/wpa/global".
Definition w1 : world := mkWorld [(srv, NSock 3 true); (text "/tmp/.miracle-wpas-77-1", NSock 2 true)] [(text "x", 4)] [mkSock 3 true true] 5 (fun _ => None) (fun _ => false).
Example C208_ex :
  start w1 /\
  open_client w1 true 77 0 srv = (Opened 5 (text "/tmp/.miracle-wpas-77-1"),
    mkWorld [(text "/tmp/.miracle-wpas-77-1", NSock 5 true); (srv, NSock 3 true)] [(text "x", 4)] [mkSock 5 true true; mkSock 3 true true] 6 (x_mk w1) (x_rm w1), 1) /\
  (let '(o, w, n) := open_client w1 true 77 0 (text "/gone") in o = Failed (- ENOENT)%Z /\ x_files w = [(srv, NSock 3 true)] /\ x_socks w = x_socks w1 /\ n = 1) /\
  (let '(o, w, n) := open_client w1 false 77 0 srv in o = Failed (- EMFILE)%Z /\ w = w1 /\ n = 0) /\
  (let '(o, w, n) := open_client w1 true 77 1 srv in o = Opened 5 (text "/tmp/.miracle-wpas-77-2") /\ x_files (close_bus w 5 (text "/tmp/.miracle-wpas-77-2")) = x_files w1) /\
  (let '(o, w, n) := open_client (mkWorld (x_files w1) [] [] 5 (fun _ => Some 13%positive) (fun _ => false)) true 77 1 srv in o = Failed (-13)%Z /\ x_files w = x_files w1) /\
  (let '(o, w, n) := open_client (mkWorld [(text "/tmp/.miracle-wpas-77-1", NSock 2 false)] [] [] 5 (x_mk w1) (fun _ => false)) true 77 0 srv in
   o = Failed (- EADDRINUSE)%Z /\ x_files w = [(text "/tmp/.miracle-wpas-77-1", NSock 2 false)]).
Proof.
  split; [|repeat split; vm_compute; reflexivity]. intros q id o. cbn [w1 x_files lookup x_next].
  destruct (str_eq srv q); [intros [= <- _]; reflexivity|]. destruct (str_eq _ q); [intros [= <- _]; reflexivity|discriminate].
Qed.
Example C208_steps_ex : exists w' c, steps 77 (w1, fresh_proc) (w', c) /\ c_buses c = [(7, text "/tmp/.miracle-wpas-77-3")] /\
  x_files w' = [(text "/tmp/.miracle-wpas-77-3", NSock 7 true); (srv, NSock 3 true)] /\ c_ever c = [7; 6; 5].
Proof.
  do 2 eexists. split.
  - eapply ZCons; [eapply ZCons; [eapply ZCons; [eapply ZCons; [apply ZNil|]|]|]|].
    + apply (SOpen 77 w1 fresh_proc true srv 5 (text "/tmp/.miracle-wpas-77-1") (snd (fst (open_client w1 true 77 0 srv))) 1); vm_compute; reflexivity.
    + eapply (SFail 77 _ _ true (text "/gone") (- ENOENT)%Z); [vm_compute; reflexivity|]. vm_compute. reflexivity.
    + eapply (SOpen 77 _ _ true srv 7 (text "/tmp/.miracle-wpas-77-3")); [vm_compute; reflexivity|]. vm_compute. reflexivity.
    + apply (SClose 77 _ _ 5 (text "/tmp/.miracle-wpas-77-1") [(7, text "/tmp/.miracle-wpas-77-3")] []). vm_compute. reflexivity.
  - split; [vm_compute; reflexivity|]. split; vm_compute; reflexivity.
Qed.

(** C209: a client reaches the server of the same name, *)
Theorem C209_meet : forall w so path fd name w1, open_server w so path = (Opened fd name, w1) -> connect_client w1 path = 0%Z.
Proof. exact server_meets. Qed.
(** and of no other. This fails for the empty name, which is the abstract one of zeros. *)
Theorem C209_other_refuted : exists p q a b, is_text p /\ is_text q /\ p <> q /\ to_addr p = Some a /\ to_addr q = Some b /\ place_of a = place_of b.
Proof.
  exists [], ABSTRACT. do 2 eexists. split; [easy|]. split; [intros H; vm_compute in H; repeat (destruct H as [H|H]; [discriminate|]); exact H|]. split; [discriminate|].
  split; [vm_compute; reflexivity|]. split; vm_compute; reflexivity.
Qed.
(** Missing: the empty name. *)
Theorem C209_other_partial : forall p q a b, is_text p -> is_text q -> to_addr p = Some a -> to_addr q = Some b -> place_of a = place_of b ->
  p = q \/ (p = [] /\ q = ABSTRACT) \/ (q = [] /\ p = ABSTRACT).
Proof. exact addr_inj. Qed.
(** Names that are accepted. *)
Theorem C209_length : forall p, to_addr p <> None <-> (if is_abstract p then lenN p <= 96 else lenN p <= 107).
Proof. exact addr_some. Qed.
Example C209_ex :
  to_addr (text "@abstract:ab") = Some (mkAddr 1 ([0; 97; 98] ++ repeat 0 105)) /\ to_addr (text "ab") = Some (mkAddr 1 ([97; 98] ++ repeat 0 106)) /\
  to_addr (repeat 97 107) = Some (mkAddr 1 (repeat 97 107 ++ [0])) /\ to_addr (repeat 97 108) = None /\
  to_addr (ABSTRACT ++ repeat 97 86) = Some (mkAddr 1 ([0] ++ repeat 97 86 ++ repeat 0 21)) /\ to_addr (ABSTRACT ++ repeat 97 87) = None /\
  (let '(o, w) := open_server w1 true (text "@abstract:q") in o = Opened 5 [] /\ connect_client w (text "@abstract:q") = 0%Z /\ connect_client w (text "q") = (- ENOENT)%Z /\
     x_names (close_bus w 5 []) = x_names w1).
Proof. repeat split; vm_compute; reflexivity. Qed.

(** C210: wpas_create takes a name that is not in use only. It removes what it cannot
    connect to: a file that is not a socket, *)
Theorem C210_file_refuted : exists w path fd w1, lookup path (x_files w) = Some NFile /\ open_server w true path = (Opened fd path, w1) /\ lookup path (x_files w1) = Some (NSock fd true).
Proof.
  exists (mkWorld [(text "/etc/x", NFile)] [] [] 1 (fun _ => None) (fun _ => true)), (text "/etc/x"). do 2 eexists.
  split; [vm_compute; reflexivity|]. split; vm_compute; reflexivity.
Qed.
(** and the socket of a server that is there, of another type or one that does not take
    connections. *)
Theorem C210_live_refuted : exists w path id fd w1 k, lookup path (x_files w) = Some (NSock id true) /\ open_server w true path = (Opened fd path, w1) /\
  sock_of w1 id = Some k /\ lookup path (x_files w1) = Some (NSock fd true).
Proof.
  exists (mkWorld [(srv, NSock 0 true)] [] [mkSock 0 false true] 1 (fun _ => None) (fun _ => true)), srv, 0. do 3 eexists.
  split; [vm_compute; reflexivity|]. split; [vm_compute; reflexivity|]. split; vm_compute; reflexivity.
Qed.
(** A server that closes removes its name even if another server has it by now. *)
Theorem C210_close_refuted : exists w path fd fd' w1 w2, open_server w true path = (Opened fd path, w1) /\ open_server (k_unlink w1 path) true path = (Opened fd' path, w2) /\
  connect_client w2 path = 0%Z /\ connect_client (close_bus w2 fd path) path = (- ENOENT)%Z.
Proof.
  exists (mkWorld [] [] [] 1 (fun _ => None) (fun _ => true)), srv. do 4 eexists.
  split; [vm_compute; reflexivity|]. split; [vm_compute; reflexivity|]. split; vm_compute; reflexivity.
Qed.
(** Missing: files that are not datagram sockets which take connections or dead ones. *)
Theorem C210_live_partial : forall w path id o, plain_path path -> start w -> lookup path (x_files w) = Some (NSock id o) -> k_reach w id = 0%Z ->
  exists w1, open_server w true path = (Failed (- EADDRINUSE), w1) /\ x_files w1 = x_files w /\ k_reach w1 id = 0%Z.
Proof. exact server_live. Qed.
Theorem C210_dead_partial : forall w path id o, plain_path path -> start w -> lookup path (x_files w) = Some (NSock id o) -> sock_of w id = None ->
  (o = true \/ x_rm w path = true) -> x_mk w path = None ->
  exists w1, open_server w true path = (Opened (x_next w) path, w1) /\ lookup path (x_files w1) = Some (NSock (x_next w) true).
Proof. exact server_dead. Qed.
Theorem C210_free_partial : forall w path, plain_path path -> lookup path (x_files w) = None -> x_mk w path = None ->
  exists w1, open_server w true path = (Opened (x_next w) path, w1) /\ lookup path (x_files w1) = Some (NSock (x_next w) true).
Proof. exact server_free. Qed.
Example C210_ex :
  (let '(o, w) := open_server w1 true srv in o = Failed (- EADDRINUSE)%Z /\ x_files w = x_files w1 /\ x_socks w = x_socks w1) /\
  (let '(o, w) := open_server w1 true (text "/tmp/.miracle-wpas-77-1") in o = Opened 5 (text "/tmp/.miracle-wpas-77-1") /\ connect_client w (text "/tmp/.miracle-wpas-77-1") = 0%Z) /\
  (let '(o, w) := open_server (mkWorld (x_files w1) [(repeat 0 107, 9)] (x_socks w1) 10 (x_mk w1) (x_rm w1)) true ABSTRACT in o = Failed (- EADDRINUSE)%Z /\ x_socks w = x_socks w1) /\
  (let '(o, w) := open_server (mkWorld [(srv, NFile)] [] [] 10 (x_mk w1) (x_rm w1)) true srv in o = Failed (- EADDRINUSE)%Z /\ x_files w = [(srv, NFile)]) /\
  (let '(o, w) := open_server w1 true (repeat 97 108) in o = Failed (- EINVAL)%Z /\ x_socks w = x_socks w1) /\
  (let '(o, w) := open_server w1 true (text "/tmp/s") in o = Opened 5 (text "/tmp/s") /\ x_files (close_bus w 5 (text "/tmp/s")) = x_files w1 /\ x_socks (close_bus w 5 (text "/tmp/s")) = x_socks w1).
Proof. repeat split; vm_compute; reflexivity. Qed.

(** C211: a message can be sent to the peer given to wpas_message_set_peer. It never
    can: its address has no family. *)
Theorem C211_send_refuted : exists l, is_text l /\ place_of (set_peer l) = None.
Proof. exists srv. split; [intros H; vm_compute in H; repeat (destruct H as [H|H]; [discriminate|]); exact H|]. vm_compute. reflexivity. Qed.
Theorem C211_never : forall l, place_of (set_peer l) = None.
Proof. exact set_peer_family. Qed.
(** An escaped abstract name is taken for a path. *)
Theorem C211_escaped_refuted : exists p a, is_text p /\ to_addr p = Some a /\ a_path (set_peer (get_escaped_peer a)) <> a_path a.
Proof.
  exists (text "@abstract:a"). eexists. split; [intros H; vm_compute in H; repeat (destruct H as [H|H]; [discriminate|]); exact H|].
  split; [vm_compute; reflexivity|]. vm_compute. discriminate.
Qed.
(** Missing: the family. The rest of the address is kept, escaped addresses can be used
    to open channels, and replies go to the client that asked. *)
Theorem C211_path_partial : forall p a, is_text p -> to_addr p = Some a -> a_path (set_peer (get_peer a)) = a_path a.
Proof. exact get_set. Qed.
Theorem C211_escaped_partial : forall p a, is_text p -> to_addr p = Some a ->
  get_escaped_peer a = match p with [] => ABSTRACT | _ => p end /\ to_addr (get_escaped_peer a) = Some a.
Proof. exact escaped. Qed.
Theorem C211_reply_partial : forall pid n, pid < 2 ^ 32 -> n < 2 ^ 64 ->
  place_of (reply_peer (mkAddr AF_UNIX (strncpy SUN (client_name pid n)))) = Some (AtPath (client_name pid n)).
Proof. exact reply_back. Qed.
Example C211_ex :
  set_peer (text "/some/path" ++ [0; 7]) = mkAddr 0 (text "/some/path" ++ repeat 0 98) /\ set_peer ([0] ++ text "ab" ++ [0; 7]) = mkAddr 0 ([0; 97; 98] ++ repeat 0 105) /\
  get_escaped_peer (mkAddr 1 ([0; 97; 98] ++ repeat 0 105)) = text "@abstract:ab" /\ get_escaped_peer (mkAddr 1 ([97; 98] ++ repeat 0 106)) = text "ab" /\
  a_path (set_peer (repeat 97 120)) = repeat 97 107 ++ [0].
Proof. repeat split; vm_compute; reflexivity. Qed.

Print Assumptions C208_files.
Print Assumptions C208_processes.
Print Assumptions C208_stale.
Print Assumptions C208_ex.
Print Assumptions C208_steps_ex.
Print Assumptions C209_meet.
Print Assumptions C209_other_refuted.
Print Assumptions C209_other_partial.
Print Assumptions C209_length.
Print Assumptions C209_ex.
Print Assumptions C210_file_refuted.
Print Assumptions C210_live_refuted.
Print Assumptions C210_close_refuted.
Print Assumptions C210_live_partial.
Print Assumptions C210_dead_partial.
Print Assumptions C210_free_partial.
Print Assumptions C210_ex.
Print Assumptions C211_send_refuted.
Print Assumptions C211_never.
Print Assumptions C211_escaped_refuted.
Print Assumptions C211_path_partial.
Print Assumptions C211_escaped_partial.
Print Assumptions C211_reply_partial.
Print Assumptions C211_ex.
