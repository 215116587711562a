(** Properties C226 to C228: the start and the end of miracle-wifid. *)
From Coq Require Import String.
From Verif Require Import Base Text Link_Model Link_Spec Wifid_Model Wifid_Spec Wifid_Proofs.
Local Open Scope list_scope.

(** ** C226: the exit status *)
Theorem C226_well : forall parse root f ss, usual f -> snd (wifid parse root f ss) = Some 0 <->
  parse = 0%Z \/ (0 < parse)%Z /\ root = true /\ Forall (fun x => (0 <= f x)%Z) calls /\ exists s, In s ss /\ asks_to_end s.
Proof. exact ends_well. Qed.
Print Assumptions C226_well.
Theorem C226_failing : forall f ss c a b, calls = a ++ c :: b -> Forall (fun x => (0 <= f x)%Z) a -> (-255 <= f c < 0)%Z ->
  wifid 1 true f ss = (a ++ [c], Some (Z.to_N (- f c))) /\ Z.to_N (- f c) <> 0.
Proof. exact ends_failing. Qed.
Print Assumptions C226_failing.
Theorem C226_serves : forall f ss, Forall (fun x => (0 <= f x)%Z) calls -> wifid 1 true f ss = (calls, if existsb signal_fn ss then Some 0 else None).
Proof. exact serves. Qed.
Print Assumptions C226_serves.
Example C226_ex :
  let busy := fun c => match c with RequestName => (-17)%Z | _ => 1%Z end in
  wifid 1 true busy [TERM] = (firstn 21 calls, Some 17)
  /\ nth_error calls 20 = Some RequestName /\ nth_error calls 23 = Some Notify /\ lenN calls = 24
  /\ firstn 6 (skipn 4 calls) = [AddSignal 0; AddSignal 1; AddSignal 2; AddSignal 3; AddSignal 4; AddSignal 5]
  /\ wifid 1 true (fun _ => 0%Z) [PIPE; CHLD; CHLD; HUP] = (calls, Some 0)
  /\ wifid 1 true (fun _ => 0%Z) [INT] = (calls, Some 0) /\ wifid 1 true (fun _ => 0%Z) [QUIT] = (calls, Some 0)
  /\ wifid 1 true (fun _ => 0%Z) [PIPE; CHLD] = (calls, None)
  /\ wifid 1 false (fun _ => 0%Z) [TERM] = ([], Some 13) /\ wifid (-1) true (fun _ => 0%Z) [TERM] = ([], Some 1) /\ wifid 0 true (fun _ => 0%Z) [] = ([], Some 0).
Proof. vm_compute. repeat split; reflexivity. Qed.

(** ** C227: the links that are there at the start *)
Theorem C227_vanished_refuted : exists c ds ls i, (forall d, In d ds -> d_ix d = i -> d_there d = true) /\ wanted c ds i /\ read_links c ds [] = Ok ls /\ ~ has_link i ls.
Proof.
  exists (mkMgr None None true false), [mkDev false 3 (Some (text "wlan0")) true true; mkDev true 4 (Some (text "wlan1")) true true], [], 4.
  split; [intros d [<-|[<-|[]]] H; [discriminate H|reflexivity]|]. split; [|split; [vm_compute; reflexivity|intros (l & [] & _)]].
  exists (mkDev true 4 (Some (text "wlan1")) true true), (text "wlan1"). split; [right; now left|]. split; [reflexivity|]. split; [discriminate|]. split; [reflexivity|]. split; [intros r H; discriminate H|intros w H; discriminate H].
Qed.
Print Assumptions C227_vanished_refuted.
Theorem C227_all_partial : forall c ds ls i, i <> 0 -> Forall (fun d => d_there d = true) ds -> read_links c ds [] = Ok ls -> has_link i ls <-> wanted c ds i.
Proof. exact links_at_start. Qed.
Print Assumptions C227_all_partial.
Theorem C227_before_partial : forall c a d b ls i, i <> 0 -> Forall (fun d => d_there d = true) a -> d_there d = false -> read_links c (a ++ d :: b) [] = Ok ls ->
  has_link i ls <-> wanted c a i.
Proof. exact links_before. Qed.
Print Assumptions C227_before_partial.
Theorem C227_safe : forall c ds ls, exists ls', read_links c ds ls = Ok ls'.
Proof. exact read_links_total. Qed.
Print Assumptions C227_safe.
Example C227_ex :
  let ds := [mkDev true 3 (Some (text "wlan0")) true true; mkDev true 0 (Some (text "wlan9")) true true; mkDev true 5 None true true;
             mkDev true 6 (Some (text "p2p-wlan0-0")) true true; mkDev true 3 (Some (text "wlan7")) true true; mkDev true 4 (Some (text "wlan1")) false true] in
  (exists a b, read_links (mkMgr None None true false) ds [] = Ok [a; b] /\ l_ix a = 3 /\ l_ifname a = text "wlan0" /\ l_managed a = false /\ l_ix b = 4 /\ l_ifname b = text "wlan1")
  /\ (exists a b, read_links (mkMgr None None false true) ds [] = Ok [a; b] /\ l_managed a = true /\ l_managed b = false)
  /\ (exists b, read_links (mkMgr None (Some (text "wlan1")) false false) ds [] = Ok [b] /\ l_ix b = 4 /\ l_managed b = true).
Proof. split; [|split]; [do 2 eexists|do 2 eexists|eexists]; (split; [vm_compute; reflexivity|]); vm_compute; repeat split; reflexivity. Qed.

(** ** C228: the name of the machine *)
Theorem C228_empty_refuted : exists level, read_name level (HText []) None = UB.
Proof. exists 5. reflexivity. Qed.
Print Assumptions C228_empty_refuted.
Theorem C228_name_partial : forall level h old, h <> HText [] \/ old <> None \/ level < 4 ->
  read_name level h old = Ok (match h with HText (c :: t) => Some (c :: t) | HUnread => Some (text "undefined") | _ => old end).
Proof. exact read_name_ok. Qed.
Print Assumptions C228_name_partial.
Example C228_ex :
  read_name 5 (HText (text "pc")) None = Ok (Some (text "pc")) /\ read_name 5 HFails None = Ok None
  /\ read_name 3 (HText []) None = Ok None /\ read_name 4 (HText []) None = UB.
Proof. vm_compute. repeat split; reflexivity. Qed.
