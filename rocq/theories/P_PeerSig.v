(** Properties C229 and C230: signals of peers. *)
From Coq Require Import String.
From Verif Require Import Base Text Comm_Spec Mirror_Model Mirror_Spec PeerSig_Model PeerSig_Spec PeerSig_Proofs.
Local Open Scope list_scope.

(** ** Examples *)
Definition mac1 : list byte := text "02:00:00:00:01:0a".
Example canon1 : is_canon mac1.
Proof. exists [2; 0; 0; 0; 1; 10]. split; [split; [reflexivity|repeat (apply Forall_cons; [reflexivity|]); apply Forall_nil]|reflexivity]. Qed.
Definition up : list op := [LinkNew 3 (text "wlan0"); SetManaged 3 true true true; Started 3; Ready 3 true].
Definition found : list op := [Found 3 mac1 (Some (text "phone")) (Some (text "000600101c440032"))].
Example good : Forall good_op (up ++ found).
Proof. repeat (apply Forall_cons; [first [exact canon1|exact Logic.I]|]); apply Forall_nil. Qed.
Definition client_now : client :=
  match fetch [] (objects (daemon_after up)) with Some c => fst (hear_all c (snd (run (daemon_after up) found))) | None => [] end.
Example follows_now : follower up found client_now.
Proof. eexists. split; vm_compute; reflexivity. Qed.
Definition peer_now : dpeer := mkDPeer mac1 true false (Some (text "phone")) (Some (text "000600101c440032")) None None None.
Example there : option_map (fun l => find_p (dl_peers l) mac1) (find_l (fst (run (daemon_after up) found)) 3) = Some (Some peer_now).
Proof. vm_compute. reflexivity. Qed.
Definition asks : list msg := send 3 peer_now (Asks (Some (text "display")) (Some (text "12345670"))).
Example asks_msg : asks = [mkMsg (PeerPath (text "02:00:00:00:01:0a@3")) (text "org.freedesktop.miracle.wifi.Peer") (text "ProvisionDiscovery") [Some (text "display"); Some (text "12345670")]].
Proof. vm_compute. reflexivity. Qed.
Example wants_msg : send 3 peer_now (Wants (Some (text "pbc")) None) = [mkMsg (PeerPath (text "02:00:00:00:01:0a@3")) (text "org.freedesktop.miracle.wifi.Peer") (text "GoNegRequest") [Some (text "pbc"); Some []]].
Proof. vm_compute. reflexivity. Qed.
Example fails_msg : send 3 peer_now (Fails (text "lost")) = [mkMsg (PeerPath (text "02:00:00:00:01:0a@3")) (text "org.freedesktop.miracle.wifi.Peer") (text "FormationFailure") [Some (text "lost")]].
Proof. vm_compute. reflexivity. Qed.
Example without_method : send 3 peer_now (Asks None (Some (text "12345670"))) = [] /\ send 3 peer_now (Wants None None) = [].
Proof. split; vm_compute; reflexivity. Qed.
Example shown_wifictl : map (fun m => wifictl_prints true (peer_fn client_now m)) asks
  = [91 :: 27 :: text "[0;93mPROV" ++ 27 :: text "[0m] Peer: 02:00:00:00:01:0a@3 Type: display PIN: 12345670" ++ [10]].
Proof. vm_compute. reflexivity. Qed.
Example shown_quiet : map (fun m => wifictl_prints false (peer_fn client_now m)) asks = [[]] /\ map (fun m => sinkctl_prints false true (peer_fn client_now m)) asks = [[]].
Proof. split; vm_compute; reflexivity. Qed.
Example shown_sinkctl : map (fun m => sinkctl_prints true true (peer_fn client_now m)) (send 3 peer_now (Wants (Some (text "pbc")) None) ++ send 3 peer_now (Fails (text "lost")))
  = [91 :: 27 :: text "[0;93mGO NEG" ++ 27 :: text "[0m] Peer: 02:00:00:00:01:0a@3 Type: pbc PIN: " ++ [10];
     91 :: 27 :: text "[0;93mFAIL" ++ 27 :: text "[0m] Peer: 02:00:00:00:01:0a@3 Reason: lost" ++ [10]].
Proof. vm_compute. reflexivity. Qed.
Example wrong_messages : map (peer_fn client_now)
  [mkMsg (PeerPath (text "02:00:00:00:01:0b@3")) peer_iface (text "FormationFailure") [Some (text "lost")];
   mkMsg (LinkPath (text "3")) peer_iface (text "FormationFailure") [Some (text "lost")];
   mkMsg (PeerPath (text "02:00:00:00:01:0a@3")) peer_iface (text "Other") [Some (text "lost")];
   mkMsg (PeerPath (text "02:00:00:00:01:0a@3")) peer_iface (text "GoNegRequest") [Some (text "pbc")];
   mkMsg (PeerPath (text "02:00:00:00:01:0a@3")) peer_iface (text "GoNegRequest") [Some (text "pbc"); None]] = [Ignored; Ignored; Ignored; Bad; Bad].
Proof. vm_compute. reflexivity. Qed.

(** ** C229: what wifid tells of a peer reaches the programs *)
(** Once, for the peer with that address on that link, with the same texts. *)
Theorem C229_told os1 os2 c i l p mac n k args : Forall good_op os1 -> Forall good_op os2 -> follower os1 os2 c -> is_canon mac ->
  find_l (fst (run (daemon_after os1) os2)) i = Some l -> find_p (dl_peers l) mac = Some p -> dp_public p = true -> means n k args ->
  exists q, map (peer_fn c) (send i p n) = [Call k q args] /\ known_as c i mac q.
Proof. exact (told os1 os2 c i l p mac n k args). Qed.
Print Assumptions C229_told.
Theorem C229_hidden i p n : dp_public p = false -> send i p n = [].
Proof. exact (hidden i p n). Qed.
Print Assumptions C229_hidden.
(** Whatever the message: a callback is only called for a peer of the program, by a signal
    of that path and that name, with what is in it. *)
Theorem C229_only c m k q args : peer_fn c m = Call k q args ->
  exists t rest, g_path m = PeerPath t /\ find_peer c t = Some q /\ g_iface m = text "org.freedesktop.miracle.wifi.Peer" /\ g_args m = map Some args ++ rest
  /\ g_member m = match k with Prov => text "ProvisionDiscovery" | GoNeg => text "GoNegRequest" | Fail => text "FormationFailure" end
  /\ List.length args = match k with Fail => 1%nat | _ => 2%nat end.
Proof. exact (only c m k q args). Qed.
Print Assumptions C229_only.
Theorem C229_unknown c m t : g_path m = PeerPath t -> find_peer c t = None -> peer_fn c m = Ignored.
Proof. exact (unknown c m t). Qed.
Print Assumptions C229_unknown.

(** ** C230: what the user sees of them *)
Theorem C230_wifictl c m k q args : peer_fn c m = Call k q args ->
  (k <> GoNeg -> printed k (cp_label q) args (wifictl_prints true (peer_fn c m))) /\ (k = GoNeg -> wifictl_prints true (peer_fn c m) = []).
Proof. exact (print_wifictl c m k q args). Qed.
Print Assumptions C230_wifictl.
Theorem C230_sinkctl c m k q args ours : peer_fn c m = Call k q args ->
  (ours = true /\ or_empty (cp_wfd q) <> [] -> printed k (cp_label q) args (sinkctl_prints true ours (peer_fn c m)))
  /\ (ours = false \/ or_empty (cp_wfd q) = [] -> sinkctl_prints true ours (peer_fn c m) = []).
Proof. exact (print_sinkctl c m k q args ours). Qed.
Print Assumptions C230_sinkctl.
Theorem C230_silent c m : (forall k q args, peer_fn c m <> Call k q args) -> forall running ours, wifictl_prints running (peer_fn c m) = [] /\ sinkctl_prints running ours (peer_fn c m) = [].
Proof. exact (silent c m). Qed.
Print Assumptions C230_silent.
