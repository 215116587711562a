(** Properties C185 .. C191: miracle-dhcp as a program. *)
From Coq Require Import String.
From Verif Require Import Base Text Settings_Model Settings_Spec DhcpMain_Model DhcpMain_Spec DhcpMain_Proofs DhcpMain_Run DhcpMain_If DhcpMain_Cex.
From Verif Require Comm_Model DhcpClient_Model DhcpClient_Spec DhcpClient_Proofs DhcpServer_Model DhcpServer_Spec Groups_Model.
Local Open Scope list_scope.

(** C185. Addresses are accepted exactly if they are four numbers below 256 with
    dots between them, and are kept as they are. *)
Theorem C185_pton : forall s q, inet_pton s = Some q <-> exists a b c d, dotted s a b c d /\ q = [a; b; c; d].
Proof. exact pton_iff. Qed.
Print Assumptions C185_pton.
Theorem C185_address : forall p x t, make_address p x = Some t <->
  is_address t /\ t = match p with Some p => p | None => text "192.168.77" end ++ text "." ++ x.
Proof. exact address_iff. Qed.
Print Assumptions C185_address.
Theorem C185_subnet : forall s t, make_subnet s = Some t <-> is_address t /\ t = s.
Proof. exact subnet_iff. Qed.
Print Assumptions C185_subnet.
Example C185_ex : make_address (Some (text "10.0")) (text "0.1") = Some (text "10.0.0.1") /\ make_address None (text "256") = None
  /\ make_address None (text "01") = None /\ make_address None (text "1 ") = None /\ make_address (Some (text "192.168.100")) (text "1000") = None
  /\ make_subnet (text "255.255.0.0") = Some (text "255.255.0.0") /\ make_subnet (text "24") = None.
Proof. vm_compute. repeat split. Qed.

(** C186. The command line decides the configuration. *)
Theorem C186_line : forall access argv es ops, line dhcp_letters dhcp_names argv es ops ->
  (forall e, In e es -> ~ ending dhcp_finish e) -> ints [OCommFd] es ->
  exists s, dhcp_rules es s /\ (forall f, parse_argv access argv = Ok (Go f) <-> ops = [] /\ access (d_ip s) = true /\ configured s f)
    /\ ((forall f, parse_argv access argv <> Ok (Go f)) -> parse_argv access argv = Ok Refuse).
Proof. exact dhcp_started. Qed.
Print Assumptions C186_line.
Theorem C186_ends : forall access argv es ops pre e post, line dhcp_letters dhcp_names argv es ops ->
  es = pre ++ e :: post -> (forall x, In x pre -> ~ ending dhcp_finish x) -> ints [OCommFd] pre -> ending dhcp_finish e ->
  parse_argv access argv = Ok (match e with GBad => Refuse | _ => Finish end).
Proof. exact dhcp_ended. Qed.
Print Assumptions C186_ends.
Example C186_ex : parse_argv any (map text ["--netdev=p2p0"; "--server"; "--from"; "10"; "--from=20"; "-s"; "x"]%string)
    = Ok (Go (mkCfg (text "p2p0") None (-1) 5 (Some (mkA (text "192.168.77.1") (text "192.168.77.1") (text "192.168.77.1") (text "255.255.255.0") (text "192.168.77.20") (text "192.168.77.199")))))
  /\ parse_argv any (map text ["--netdev=p2p0"; "--dns"; "8"]%string) = Ok Refuse
  /\ parse_argv any (map text ["--netdev=p2p0"; "--server"; "--dns"; "8.8.8.8"]%string) = Ok Refuse
  /\ parse_argv any (map text ["--server"]%string) = Ok Refuse.
Proof. vm_compute. repeat split. Qed.

(** C187. As wifid starts it: the interface, the network of the group, the range
    100 to 199 and the log level arrive; addresses of two groups of a link are
    never the same. *)
Theorem C187_server : forall access ifname n lvl fd ip, lenN ifname <= 114 -> n < 256 -> lvl < 2 ^ 31 -> fd < 2 ^ 31 -> access ip = true ->
  exists argv, server_argv ifname n lvl fd ip = Ok argv /\ parse_argv access argv = Ok (Go (net_config ifname n lvl fd ip)).
Proof. exact server_started. Qed.
Print Assumptions C187_server.
Theorem C187_client : forall access ifname lvl fd ip, lenN ifname <= 114 -> lvl < 2 ^ 31 -> fd < 2 ^ 31 -> access ip = true ->
  exists argv, client_argv ifname lvl fd ip = Ok argv /\ parse_argv access argv = Ok (Go (mkCfg ifname ip (Z.of_N fd) lvl None)).
Proof. exact client_started. Qed.
Print Assumptions C187_client.
Theorem C187_range : forall n a b, n < 256 -> (serves n a b <-> a = value 192 168 n 100 /\ b = value 192 168 n 199).
Proof. exact serves_iff. Qed.
Print Assumptions C187_range.
Theorem C187_leases : forall es s g h a b a' b' me secs opts fuel l x o me' secs' opts' fuel' l' x' o' y y',
  Groups_Model.run Groups_Model.init es = Ret s -> In g (Groups_Model.s_groups s) -> In h (Groups_Model.s_groups s) ->
  Groups_Model.g_go g = true -> Groups_Model.g_go h = true -> Groups_Model.g_id g <> Groups_Model.g_id h ->
  serves (Groups_Model.g_subnet g) a b -> serves (Groups_Model.g_subnet h) a' b' ->
  DhcpServer_Spec.history fuel (DhcpServer_Model.server_new a b me secs opts) l = Ret (x, o) ->
  DhcpServer_Spec.history fuel' (DhcpServer_Model.server_new a' b' me' secs' opts') l' = Ret (x', o') ->
  given_out y o -> given_out y' o' ->
  y <> y' /\ (exists d, 100 <= d <= 199 /\ y = value 192 168 (Groups_Model.g_subnet g) d).
Proof. exact group_leases. Qed.
Print Assumptions C187_leases.
Example C187_ex : fst (run fine (net_config (text "p2p0") 50 5 9 None) [Remote [2; 0; 0; 0; 0; 1] (text "192.168.50.100"); Signal])
  = [Flush true; Add (text "192.168.50.1/255.255.255.0") true;
     Serve 3232248420 3232248519 [(1, text "255.255.255.0"); (3, text "192.168.50.1"); (6, text "192.168.50.1")];
     Tell (text "L:192.168.50.1"); Tell (text "R:2:0:0:0:0:1 192.168.50.100"); Halt; Flush true].
Proof. vm_compute. reflexivity. Qed.
(** A name of 115 bytes would overrun the buffer of 128. *)
Example C187_long : journal (repeat 97 115) = UB.
Proof. exact long_name. Qed.

(** C188. Local groups have networks of their own: not across links. *)
Theorem C188_links_refuted : exists s g argv argv' f f',
  Groups_Model.run Groups_Model.init first_group = Ret s /\ Groups_Model.s_groups s = [g] /\ Groups_Model.g_go g = true
  /\ server_argv (text "p2p-wlan0-0") (Groups_Model.g_subnet g) 5 9 None = Ok argv /\ server_argv (text "p2p-wlan1-0") (Groups_Model.g_subnet g) 5 10 None = Ok argv'
  /\ parse_argv any argv = Ok (Go f) /\ parse_argv any argv' = Ok (Go f')
  /\ f_netdev f <> f_netdev f' /\ f_serve f = f_serve f' /\ f_serve f <> None.
Proof. exact same_net. Qed.
Print Assumptions C188_links_refuted.
Theorem C188_link_partial : forall es s g h ifname ifname' lvl fd ip lvl' fd' ip' access argv argv' f f',
  Groups_Model.run Groups_Model.init es = Ret s -> In g (Groups_Model.s_groups s) -> In h (Groups_Model.s_groups s) ->
  Groups_Model.g_go g = true -> Groups_Model.g_go h = true -> Groups_Model.g_id g <> Groups_Model.g_id h ->
  server_argv ifname (Groups_Model.g_subnet g) lvl fd ip = Ok argv -> server_argv ifname' (Groups_Model.g_subnet h) lvl' fd' ip' = Ok argv' ->
  parse_argv access argv = Ok (Go f) -> parse_argv access argv' = Ok (Go f') ->
  exists a b n m, f_serve f = Some a /\ f_serve f' = Some b /\ a_local a = net n 1 /\ a_local b = net m 1 /\ n <> m /\ n < 256 /\ m < 256.
Proof. exact subnets_of_link. Qed.
Print Assumptions C188_link_partial.

(** C189. The interface has an address exactly while there is a lease: it keeps it
    when the lease runs out. *)
Theorem C189_expired_refuted : exists c o, DhcpClient_Model.run 9 (DhcpClient_Proofs.plain runs_out) DhcpClient_Model.fresh_client = Ret c
  /\ DhcpClient_Spec.deadline (DhcpClient_Model.log c) = None /\ DhcpClient_Model.now c = 65000
  /\ In (40000, DhcpClient_Model.Lost) (DhcpClient_Model.log c)
  /\ run fine client_cfg (heard given_lease (DhcpClient_Model.log c)) = (o, None) /\ holds [] o = [text "192.168.50.100/255.255.255.0"].
Proof. exact stays. Qed.
Print Assumptions C189_expired_refuted.
(** What holds: at every moment the interface has its old addresses, none or one;
    addresses are set only on an empty interface; wifid is told an address only
    while the interface has it; in the end it has none. *)
Theorem C189_one_partial : forall old e f l p q, fst (run e f l) = p ++ q -> holds old p = old \/ holds old p = [] \/ exists a, holds old p = [a].
Proof. exact run_few. Qed.
Print Assumptions C189_one_partial.
Theorem C189_empty_partial : forall old e f l p a b q, fst (run e f l) = p ++ Add a b :: q -> holds old p = [].
Proof. exact run_adds. Qed.
Print Assumptions C189_empty_partial.
Theorem C189_told_partial : forall old e f l p m q, fst (run e f l) = p ++ Tell m :: q ->
  exists a s, holds old p = [a ++ text "/" ++ s] /\ forall y, m = text "L:" ++ y -> y = a.
Proof. exact run_tells. Qed.
Print Assumptions C189_told_partial.
Theorem C189_end_partial : forall old e f l o n, run e f l = (o, Some n) -> e_last e = true -> (exists x, In x o /\ touches x) -> holds old o = [].
Proof. exact run_clean. Qed.
Print Assumptions C189_end_partial.
Theorem C189_last_partial : forall e f l o n, run e f l = (o, Some n) -> (exists x, In x o /\ touches x) -> exists p, o = p ++ [Flush (e_last e)].
Proof. exact run_end. Qed.
Print Assumptions C189_last_partial.
Theorem C189_untouched_partial : forall e f l o r, run e f l = (o, r) -> f_serve f = None ->
  (forall x a b, In (Lease x a b) l -> Comm_Model.l_addr x = None) -> forall z, In z o -> z = Seek \/ z = Halt.
Proof. exact run_still. Qed.
Print Assumptions C189_untouched_partial.
Example C189_ex : run fine client_cfg [Lease (given_lease 0) true true; Lease (given_lease 0) true true;
    Lease (Comm_Model.mkLease (Some (text "10.0.0.2")) [] [] []) true true; Signal]
  = ([Seek; Flush true; Add (text "192.168.50.100/255.255.255.0") true; Tell (text "L:192.168.50.100"); Tell (text "S:255.255.255.0"); Tell (text "G:192.168.50.1");
      Flush true; Add (text "10.0.0.2/24") true; Tell (text "L:10.0.0.2"); Tell (text "S:24"); Halt; Flush true], Some 0).
Proof. vm_compute. reflexivity. Qed.

(** C190. The exit status says if the program failed: no lease and an address that
    cannot be set are 0. *)
Theorem C190_no_lease_refuted : exists o, run fine client_cfg [NoLease] = (o, Some 0) /\ o = [Seek; Halt].
Proof. exact no_lease. Qed.
Print Assumptions C190_no_lease_refuted.
Theorem C190_not_set_refuted : exists o, run fine client_cfg [Lease (given_lease 0) true false] = (o, Some 0) /\ forall m, ~ In (Tell m) o.
Proof. exact not_set. Qed.
Print Assumptions C190_not_set_refuted.
Theorem C190_status_partial : forall e f l o n, proper f -> run e f l = (o, Some n) -> (n <> 0 <-> fails e f).
Proof. exact run_status. Qed.
Print Assumptions C190_status_partial.
Theorem C190_proper_partial : forall access argv f, parse_argv access argv = Ok (Go f) -> proper f.
Proof. exact parse_proper. Qed.
Print Assumptions C190_proper_partial.
Example C190_ex : run (mkEnv true 0 0 14 0 true true) (net_config (text "p2p0") 50 5 9 None) [] = ([Flush true; Add (text "192.168.50.1/255.255.255.0") false; Flush true], Some 14).
Proof. vm_compute. reflexivity. Qed.

(** C191. The server does not lease its own address: it does if the address lies in
    the range. *)
Theorem C191_own_refuted : exists f o a b opts x h s lg y,
  parse_argv any own_words = Ok (Go f) /\ run fine f [] = (o, None) /\ In (Serve a b opts) o /\ f_serve f = Some x /\ dotted (a_local x) 192 168 77 100
  /\ DhcpServer_Spec.history 400 (DhcpServer_Model.server_new a b 0x644DA8C0 3600 []) h = Ret (s, lg) /\ given_out y lg /\ y = value 192 168 77 100.
Proof. exact own_leased. Qed.
Print Assumptions C191_own_refuted.
Theorem C191_own_partial : forall e f l o r p q opts x a b c d fl fh me secs sopts fuel h s lg y,
  run e f l = (o, r) -> In (Serve p q opts) o -> f_serve f = Some x -> dotted (a_local x) a b c d ->
  (exists fa fb fc fd, dotted (a_from x) fa fb fc fd /\ fl = value fa fb fc fd) -> (exists ta tb tc td, dotted (a_to x) ta tb tc td /\ fh = value ta tb tc td) ->
  ~ fl <= value a b c d <= fh ->
  DhcpServer_Spec.history fuel (DhcpServer_Model.server_new p q me secs sopts) h = Ret (s, lg) -> given_out y lg -> y <> value a b c d.
Proof. exact own_not_leased. Qed.
Print Assumptions C191_own_partial.
