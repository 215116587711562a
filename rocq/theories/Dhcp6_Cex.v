(** Examples and counterexamples for DHCPv6. *)
From Verif Require Import Base Dhcp6_Model Dhcp6_Spec Dhcp6_Proofs Dhcp6_Ia Dhcp6_More Dhcp6_Msg.
Local Open Scope list_scope.

Definition a1 : list byte := [254; 128; 0; 0; 0; 0; 0; 0; 0; 0; 0; 0; 0; 0; 0; 1].
Definition a2 : list byte := [254; 128; 0; 0; 0; 0; 0; 0; 0; 0; 0; 0; 0; 0; 0; 2].
Definition cid : list byte := [0; 3; 0; 1; 9; 8; 7].
Definition sid : list byte := [0; 2; 5; 5].
Definition b0 : bindings := mkBind 77 0 0 0 [] [].
Definition k0 (ph : phase) (s : option (list byte)) (req : list N) : client := mkClient ph 66051 cid s req b0 0 (fun _ => []) true.
Definition xid0 : list byte := [1; 2; 3].
Definition ia_na : list byte := ia_data 3 77 10 20 [SOther 99 [1]; SAddr a1 30 60 []; SStatus 0 [79; 75]].
Definition two_addresses : list sub := [SAddr a1 30 60 []; SAddr a2 30 60 []].
Definition two_prefixes : list sub := [SPrefix 30 60 64 a1 []; SPrefix 30 50 56 a2 []; SPrefix 9 9 56 a2 []].
Definition names : list (list (list byte)) := [[[97; 98]; [99]]; [[120]; [121]; [122; 122]]].
Definition base : list option6 := [mkOpt 1 cid; mkOpt 2 sid; mkOpt 23 (a1 ++ a2); mkOpt 24 (concat (map enc_name names)); mkOpt 3 ia_na].

(** ** Options *)
Lemma found_ex : get_option (message 7 xid0 base) 2 = Ret (Some (sid ++ encs (skipn 2 base), 4), 1)
  /\ get_option (message 7 xid0 (base ++ [mkOpt 2 [9]]) ++ rest_bytes (RShort 8 5 [1])) 2 = Ret (Some (9 :: rest_bytes (RShort 8 5 [1]), 1), 2)
  /\ get_option (message 7 xid0 base) 14 = Ret (None, 0).
Proof. vm_compute. repeat split. Qed.
(** One byte is left: its header is read anyway. *)
Lemma stub_undef : exists t xid os s code, lenN xid = 3 /\ Forall opt_ok os /\ rest_ok (RStub s) /\ get_option (message t xid os ++ s) code = Undef.
Proof.
  exists 7, xid0, [mkOpt 2 [1]], [0], 2. split; [reflexivity|]. split; [|split; [split; vm_compute; discriminate|reflexivity]].
  constructor; [|constructor]. split; [reflexivity|]. split; [reflexivity|]. constructor; [reflexivity|constructor].
Qed.

(** ** Identity associations *)
Lemma na_ex : get_addresses b0 3 (lenN ia_na) ia_na 9 = Ret ([VAddr a1], mkBind 77 10 20 60 a1 [], 0).
Proof. reflexivity. Qed.
Lemma pd_ex : get_addresses b0 25 (lenN (ia_data 25 77 10 20 two_prefixes)) (ia_data 25 77 10 20 two_prefixes) 0
  = Ret ([VPrefix a1 64 30 60; VPrefix a2 56 30 50], mkBind 77 10 20 0 [] [], 0).
Proof. reflexivity. Qed.
Ltac small := repeat (constructor; [reflexivity|]); constructor.
Lemma addr_ok a p v : bytes a -> lenN a = 16 -> p < 2 ^ 32 -> v < 2 ^ 32 -> sub_ok (SAddr a p v []).
Proof.
  intros B L P V. split; [|auto]. split; [reflexivity|]. split.
  - change (lenN (a ++ be32 p ++ be32 v ++ []) < 65532). len. rewrite !len_be32. len. lia.
  - change (bytes (a ++ be32 p ++ be32 v ++ [])). unfold bytes. rewrite !Forall_app. split; [exact B|]. unfold be32, is_byte. repeat split; repeat (constructor; [lia|]); constructor.
Qed.
Lemma pref_ok a n p v : bytes a -> lenN a = 16 -> n < 256 -> p < 2 ^ 32 -> v < 2 ^ 32 -> sub_ok (SPrefix p v n a []).
Proof.
  intros B L HN P V. split; [|auto]. split; [reflexivity|]. split.
  - change (lenN (be32 p ++ be32 v ++ [n] ++ a ++ []) < 65532). len. rewrite !len_be32. len. lia.
  - change (bytes (be32 p ++ be32 v ++ [n] ++ a ++ [])). unfold bytes. rewrite !Forall_app. unfold be32, is_byte. repeat split; try exact B; repeat (constructor; [lia|]); constructor.
Qed.
Lemma two_addresses_ok : Forall sub_ok two_addresses.
Proof. repeat constructor; try lia. Qed.
Lemma two_prefixes_ok : Forall sub_ok two_prefixes.
Proof. repeat constructor; try lia. Qed.
(** Only one address of an IA is kept. *)
Lemma addresses_lost : exists b iaid t1 t2 ss l b' st, b_iaid b = iaid /\ t1 <= t2 /\ Forall sub_ok ss /\ statuses ss = []
  /\ (forall a p v, In (a, p, v) (addresses ss) -> p <= v)
  /\ get_addresses b 3 (lenN (ia_data 3 iaid t1 t2 ss)) (ia_data 3 iaid t1 t2 ss) 0 = Ret (l, b', st)
  /\ exists a p v, In (a, p, v) (addresses ss) /\ ~ In (VAddr a) l.
Proof.
  exists b0, 77, 10, 20, two_addresses. do 3 eexists. split; [reflexivity|]. split; [lia|]. split; [exact two_addresses_ok|]. split; [reflexivity|].
  split; [intros a p v [E|[E|[]]]; injection E as _ <- <-; lia|]. split; [reflexivity|]. exists a1, 30, 60. split; [now left|]. intros [E|[]]. discriminate E.
Qed.
(** A lease of prefixes ends at once. *)
Lemma expire_wrong : exists b iaid t1 t2 ss l b' st, b_iaid b = iaid /\ t1 <= t2 /\ Forall sub_ok ss /\ addresses ss = []
  /\ get_addresses b 25 (lenN (ia_data 25 iaid t1 t2 ss)) (ia_data 25 iaid t1 t2 ss) 0 = Ret (l, b', st)
  /\ live (prefixes ss) <> [] /\ ~ ends_first (live (prefixes ss)) (b_expire b').
Proof.
  exists b0, 77, 10, 20, two_prefixes. do 3 eexists. split; [reflexivity|]. split; [lia|]. split; [exact two_prefixes_ok|]. split; [reflexivity|].
  split; [reflexivity|]. split; [discriminate|]. intros [(x & [<-|[<-|[]]] & E) _]; discriminate E.
Qed.
(** The times of an IA_NA of four bytes are those of what follows. *)
Lemma short_ia_undef : exists b d, lenN d = 4 /\ get_addresses b 3 4 d 0 = Undef.
Proof. exists b0, (be32 77). split; reflexivity. Qed.
(** The address is what follows the IA, if the last header in it says so. *)
Definition overrun : list byte := be32 77 ++ be32 10 ++ be32 20 ++ enc (mkOpt 99 (repeat 0 24)) ++ be16 5 ++ be16 24.
Lemma overrun_reads : get_addresses b0 3 (lenN overrun) overrun 0 = Undef
  /\ get_addresses b0 3 (lenN overrun) (overrun ++ a1 ++ be32 1 ++ be32 2) 0 = Ret ([VAddr a1], mkBind 77 10 20 2 a1 [], 0).
Proof. split; reflexivity. Qed.
Lemma ia_leaks : exists b code d r1 r2 st, get_addresses b code (lenN d) (d ++ r1) st <> get_addresses b code (lenN d) (d ++ r2) st.
Proof. exists b0, 3, overrun, (a1 ++ be32 1 ++ be32 2), (a2 ++ be32 1 ++ be32 2), 0. discriminate. Qed.
Lemma ia_undef : exists b code d st, 12 <= lenN d /\ get_addresses b code (lenN d) d st = Undef.
Proof. exists b0, 3, overrun, 0. split; [vm_compute; discriminate|apply overrun_reads]. Qed.

(** ** Lists *)
Lemma lists_ex : value_list b0 23 32 (a1 ++ a2) 0 = Ret ([VAddr a1; VAddr a2], b0, 0)
  /\ value_list b0 24 (lenN (concat (map enc_name names))) (concat (map enc_name names)) 0 = Ret ([VName [97; 98; 46; 99]; VName [120; 46; 121; 46; 122; 122]], b0, 0)
  /\ dotted [[97; 98]; [99]] = [97; 98; 46; 99].
Proof. vm_compute. repeat split. Qed.
(** A name without its end is read on. *)
Lemma name_reads_on : exists d r l, value_list b0 24 (lenN d) d 0 = Undef /\ value_list b0 24 (lenN d) (d ++ r) 0 = Ret ([VName l], b0, 0) /\ List.length l = 5%nat /\ lenN d = 4.
Proof. exists [3; 97; 98; 99], [1; 100; 0], [97; 98; 99; 46; 100]. vm_compute. repeat split. Qed.
(** Labels of 255 bytes lead out of the array, though all of it is in the option. *)
Definition jumps : list byte := 255 :: repeat 1 255 ++ 255 :: repeat 1 255 ++ 255 :: repeat 1 255 ++ 255 :: repeat 1 255 ++ 255 :: repeat 1 255 ++ [0].
Lemma jumps_out : value_list b0 24 (lenN jumps) jumps 0 = Undef /\ last_of jumps = Some 0.
Proof. vm_compute. repeat split. Qed.

(** ** Messages *)
Definition shown (x : oc (client * told)) : option (told * bool * option (list byte) * N * list (list value)) :=
  match x with Ret (k, w) => Some (w, k_listens k, k_server k, k_status k, map (k_values k) [3; 23; 24; 31]) | _ => None end.
Lemma reply_ex : shown (receive (k0 Replying (Some sid) [3; 23; 24; 31]) (Some (message 7 xid0 base)))
  = Some (Reply, false, Some sid, 0, [[VAddr a1]; [VAddr a1; VAddr a2]; [VName [97; 98; 46; 99]; VName [120; 46; 121; 46; 122; 122]]; []])
  /\ shown (receive (k0 Solicitation None [3; 23]) (Some (message 2 xid0 base))) = Some (Advertise, false, Some sid, 0, [[VAddr a1]; [VAddr a1; VAddr a2]; []; []])
  /\ shown (receive (k0 Replying (Some [9]) []) (Some (message 7 xid0 base))) = Some (Nothing, true, Some [9], 0, [[]; []; []; []])
  /\ shown (receive (k0 Replying None []) (Some (message 7 [1; 2; 4] base))) = Some (Nothing, true, None, 0, [[]; []; []; []]).
Proof. vm_compute. repeat split. Qed.
(** A failed read. *)
Lemma failed_read : exists k, k_listens k = true /\ receive k None = Undef.
Proof. exists (k0 Replying None []). split; reflexivity. Qed.
(** The message is for another client, whose identifier is longer. *)
Definition longer : list option6 := [mkOpt 1 (cid ++ [6]); mkOpt 2 sid].
Lemma opts_ok l : forallb (fun o => (o_code o <? 65536) && (lenN (o_data o) <? 65532) && forallb (fun c => c <? 256) (o_data o)) l = true -> Forall opt_ok l.
Proof.
  intros H. apply Forall_forall. intros o I. rewrite forallb_forall in H. specialize (H o I). apply andb_true_iff in H as [H H3]. apply andb_true_iff in H as [H1 H2].
  split; [lia|]. split; [lia|]. apply Forall_forall. intros c J. rewrite forallb_forall in H3. specialize (H3 c J). unfold is_byte. lia.
Qed.
Lemma other_client : exists k t xid os o k', lenN xid = 3 /\ Forall opt_ok os /\ with_code 1 os = [o] /\ o_data o <> k_duid k
  /\ receive k (Some (message t xid os)) = Ret (k', Reply).
Proof.
  exists (k0 Replying (Some sid) []), 7, xid0, longer, (mkOpt 1 (cid ++ [6])). eexists. split; [reflexivity|]. split; [apply opts_ok; reflexivity|]. split; [reflexivity|].
  split; [discriminate|]. reflexivity.
Qed.
(** Another server, whose identifier is longer. *)
Lemma other_server : exists k t xid os o s k', lenN xid = 3 /\ Forall opt_ok os /\ for_client k xid os /\ k_server k = Some s /\ with_code 2 os = [o] /\ o_data o <> s
  /\ receive k (Some (message t xid os)) = Ret (k', Reply).
Proof.
  exists (k0 Replying (Some sid) []), 7, xid0, [mkOpt 1 cid; mkOpt 2 (sid ++ [1])], (mkOpt 2 (sid ++ [1])), sid. eexists. split; [reflexivity|]. split; [apply opts_ok; reflexivity|].
  split; [split; [reflexivity|exists (mkOpt 1 cid); split; reflexivity]|]. split; [reflexivity|]. split; [reflexivity|]. split; [discriminate|]. reflexivity.
Qed.
(** A Rapid Commit option, which has no data, is not taken for one. *)
Definition rapid : list option6 := [mkOpt 1 cid; mkOpt 2 sid; mkOpt 14 []].
Lemma rapid_refused : exists k xid os k', lenN xid = 3 /\ Forall opt_ok os /\ for_client k xid os /\ from_server k os /\ k_listens k = true /\ k_phase k = Solicitation
  /\ with_code 14 os = [mkOpt 14 []] /\ receive k (Some (message 7 xid os)) = Ret (k', Nothing).
Proof.
  exists (k0 Solicitation None []), xid0, rapid. eexists. split; [reflexivity|]. split; [apply opts_ok; reflexivity|].
  split; [split; [reflexivity|exists (mkOpt 1 cid); split; reflexivity]|]. split; [exists (mkOpt 2 sid); split; [reflexivity|]; split; discriminate|].
  repeat split.
Qed.
(** A message that is refused names the server all the same; the reply of the right one is then refused. *)
Lemma refused_server : exists k p p2 k1 k2 k3, receive k (Some p) = Ret (k1, Nothing) /\ k_server k = None /\ k_server k1 <> None
  /\ receive k (Some p2) = Ret (k2, Reply) /\ receive k1 (Some p2) = Ret (k3, Nothing).
Proof.
  exists (k0 Rebind None []), (message 2 xid0 [mkOpt 1 cid; mkOpt 2 [6; 6]]), (message 7 xid0 [mkOpt 1 cid; mkOpt 2 sid]). do 3 eexists. repeat split. discriminate.
Qed.
Lemma rebind_ex : shown (receive (k0 Rebind None []) (Some (message 7 xid0 (mkOpt 13 [0; 2] :: base)))) = Some (Reply, false, Some sid, 2, [[]; []; []; []]).
Proof. reflexivity. Qed.
