(** Proofs about the run of miracle-dhcp. *)
From Coq Require Import String.
From Verif Require Import Base Text Text_Proofs Settings_Model Settings_Spec Settings_Proofs DhcpMain_Model DhcpMain_Spec DhcpMain_Proofs.
From Verif Require Cli_Proofs WpasMsg_Model WpasMsg_Proofs Settings_Player DhcpServer_Model DhcpServer_Spec DhcpServer_Proofs Groups_Model Groups_Spec Groups_Proofs Comm_Model.
Local Open Scope list_scope.

(** ** Started by wifid *)
Lemma in_longs name x : find_exact dhcp_longs name = Some x -> In (name, x) dhcp_longs.
Proof.
  enough (G : forall lt, find_exact lt name = Some x -> In (name, x) lt) by apply G.
  induction lt as [|[m y] lt IH]; cbn [find_exact]; [discriminate|]. destruct (str_eq m name) eqn:E; [|right; auto].
  intros [= <-]. apply Cli_Proofs.str_eq_spec in E. left. congruence.
Qed.
Definition ip_events (ip : option (list byte)) : list gev := match ip with Some p => [GOpt OIp p] | None => [] end.
Lemma with_ip_line ip : line dhcp_shorts dhcp_longs (with_ip ip) (ip_events ip) [].
Proof.
  destruct ip as [p|]; [|constructor]. cbn [with_ip ip_events].
  apply (L_item _ _ [text "--ip-binary"; p] [GOpt OIp p] [] [] [] []); [|constructor].
  apply (I_long _ _ (text "ip-binary") OIp p). now apply in_longs.
Qed.
Lemma long_item name o v : find_exact dhcp_longs (text name) = Some (true, o) -> item dhcp_shorts dhcp_longs [text "--" ++ text name; v] [GOpt o v] [].
Proof. intros H. apply I_long. now apply in_longs. Qed.
Lemma client_line ifname lvl fd ip : line dhcp_shorts dhcp_longs
  ([text "--log-level"; dec lvl; text "--netdev"; ifname; text "--comm-fd"; dec fd] ++ with_ip ip)
  ([GOpt OLogLevel (dec lvl); GOpt ONetdev ifname; GOpt OCommFd (dec fd)] ++ ip_events ip) [].
Proof.
  apply (L_item _ _ [text "--log-level"; dec lvl] [GOpt OLogLevel (dec lvl)] [] _ _ []); [now apply (long_item "log-level")|].
  apply (L_item _ _ [text "--netdev"; ifname] [GOpt ONetdev ifname] [] _ _ []); [now apply (long_item "netdev")|].
  apply (L_item _ _ [text "--comm-fd"; dec fd] [GOpt OCommFd (dec fd)] [] _ _ []); [now apply (long_item "comm-fd")|].
  apply with_ip_line.
Qed.
Lemma server_line ifname n lvl fd ip : line dhcp_shorts dhcp_longs
  ([text "--server"; text "--prefix"; text "192.168." ++ dec n; text "--log-level"; dec lvl; text "--netdev"; ifname; text "--comm-fd"; dec fd] ++ with_ip ip)
  ([GOpt OServer []; GOpt OPrefix (text "192.168." ++ dec n); GOpt OLogLevel (dec lvl); GOpt ONetdev ifname; GOpt OCommFd (dec fd)] ++ ip_events ip) [].
Proof.
  apply (L_item _ _ [text "--server"] [GOpt OServer []] [] _ _ []); [apply (I_flag _ _ (text "server")); now apply in_longs|].
  apply (L_item _ _ [text "--prefix"; text "192.168." ++ dec n] [GOpt OPrefix (text "192.168." ++ dec n)] [] _ _ []); [now apply (long_item "prefix")|].
  apply client_line.
Qed.
Definition kept (ip : option (list byte)) (s : dset) : dset :=
  let '(mkD l d t n i c sv p lo g dn su f o) := s in mkD l d t n (match ip with Some p => Some p | None => i end) c sv p lo g dn su f o.
Lemma rounds_ip ip s : rounds dhcp_opt (ip_events ip) s = Ok (Go (kept ip s)).
Proof. destruct s, ip; reflexivity. Qed.
Definition server_dset (ifname : list byte) (n lvl : N) (fd : Z) (ip : option (list byte)) : dset :=
  mkD lvl false false (Some ifname) ip fd true (Some (text "192.168." ++ dec n)) None None None None None None.
Definition client_dset (ifname : list byte) (lvl : N) (fd : Z) (ip : option (list byte)) : dset :=
  mkD lvl false false (Some ifname) ip fd false None None None None None None None.
Lemma server_rounds ifname n lvl fd ip : rounds dhcp_opt
  ([GOpt OServer []; GOpt OPrefix (text "192.168." ++ dec n); GOpt OLogLevel (dec lvl); GOpt ONetdev ifname; GOpt OCommFd (dec fd)] ++ ip_events ip) d_start
  = do z <- WpasMsg_Model.atoi (dec fd); Ok (Go (server_dset ifname n (level (dec lvl)) z ip)).
Proof.
  unfold d_start. cbn [app rounds dhcp_opt bind]. destruct (WpasMsg_Model.atoi (dec fd)); [|reflexivity]. cbn [bind]. rewrite rounds_ip.
  now destruct ip.
Qed.
Lemma client_rounds ifname lvl fd ip : rounds dhcp_opt
  ([GOpt OLogLevel (dec lvl); GOpt ONetdev ifname; GOpt OCommFd (dec fd)] ++ ip_events ip) d_start
  = do z <- WpasMsg_Model.atoi (dec fd); Ok (Go (client_dset ifname (level (dec lvl)) z ip)).
Proof.
  unfold d_start. cbn [app rounds dhcp_opt bind]. destruct (WpasMsg_Model.atoi (dec fd)); [|reflexivity]. cbn [bind]. rewrite rounds_ip.
  now destruct ip.
Qed.
Lemma dotted_net n x : n < 256 -> x < 256 -> dotted (net n x) 192 168 n x.
Proof. intros A B. repeat split; auto; lia. Qed.
Lemma settle_server access ifname n lvl fd ip : n < 256 ->
  settle access [] (server_dset ifname n lvl fd ip) = if access ip then
    Go (mkCfg ifname ip fd lvl (Some (mkA (net n 1) (net n 1) (net n 1) (text "255.255.255.0") (net n 100) (net n 199)))) else Refuse.
Proof.
  intros A. destruct (access ip) eqn:E; [|unfold settle, server_dset; cbn [d_netdev d_ip]; now rewrite E].
  apply settle_iff. split; [reflexivity|]. split; [exact E|]. unfold configured, server_dset.
  cbn [d_netdev d_ip d_comm d_level d_server d_prefix d_local d_gateway d_dns d_subnet d_from d_to f_netdev f_ip f_comm f_level f_serve a_local a_gateway a_dns a_subnet a_from a_to].
  assert (P : forall x d, x < 256 -> dec x = text d -> is_address (net n x) /\ net n x = (text "192.168." ++ dec n) ++ text "." ++ text d).
  { intros x d X D. split; [exists 192, 168, n, x; now apply dotted_net|]. unfold net. rewrite D, <- app_assoc. reflexivity. }
  unfold part. cbn [d_prefix]. repeat (split; [reflexivity|]).
  split; [now apply P|]. split; [now apply P|]. split; [now apply P|]. split; [|split; now apply P].
  split; [|reflexivity]. exists 255, 255, 255, 0. repeat split.
Qed.
Lemma journal_ok ifname : lenN ifname <= 114 -> journal ifname = Ok (text "miracle-dhcp-" ++ ifname).
Proof. intros H. unfold journal. replace (lenN (text "miracle-dhcp-" ++ ifname) + 1 <=? 128) with true; [reflexivity|]. change (text "miracle-dhcp-") with ([109; 105; 114; 97; 99; 108; 101; 45; 100; 104; 99; 112; 45]). len. lia. Qed.
Lemma level_back n : n < 2 ^ 31 -> level (dec n) = n.
Proof. intros H. unfold level. rewrite (proj1 (Settings_Player.level_number n)); [reflexivity|]. unfold INT_MAX. lia. Qed.
Lemma server_started access ifname n lvl fd ip : lenN ifname <= 114 -> n < 256 -> lvl < 2 ^ 31 -> fd < 2 ^ 31 -> access ip = true ->
  exists argv, server_argv ifname n lvl fd ip = Ok argv /\ parse_argv access argv = Ok (Go (net_config ifname n lvl fd ip)).
Proof.
  intros L A B C E. unfold server_argv. rewrite (journal_ok ifname L). cbn [bind]. eexists. split; [reflexivity|].
  unfold parse_argv. rewrite (getopt_line _ _ dhcp_longs_good dhcp_shorts_good _ _ _ (server_line ifname n lvl fd ip) []).
  rewrite server_rounds, (WpasMsg_Proofs.atoi_back fd C). cbn [bind app]. rewrite level_back by exact B. now rewrite settle_server, E.
Qed.
Lemma client_started access ifname lvl fd ip : lenN ifname <= 114 -> lvl < 2 ^ 31 -> fd < 2 ^ 31 -> access ip = true ->
  exists argv, client_argv ifname lvl fd ip = Ok argv /\ parse_argv access argv = Ok (Go (mkCfg ifname ip (Z.of_N fd) lvl None)).
Proof.
  intros L B C E. unfold client_argv. rewrite (journal_ok ifname L). cbn [bind]. eexists. split; [reflexivity|].
  unfold parse_argv. rewrite (getopt_line _ _ dhcp_longs_good dhcp_shorts_good _ _ _ (client_line ifname lvl fd ip) []).
  rewrite client_rounds, (WpasMsg_Proofs.atoi_back fd C). cbn [bind app]. rewrite level_back by exact B.
  unfold settle, client_dset. cbn [d_netdev d_ip d_comm d_level d_server d_prefix d_local d_gateway d_dns d_subnet d_from d_to]. rewrite E. reflexivity.
Qed.
Lemma long_name : journal (repeat 97 115) = UB.
Proof. vm_compute. reflexivity. Qed.

(** ** What is served *)
Lemma host_value a b c d : host [a; b; c; d] = value a b c d.
Proof. unfold host, value. cbn [fold_left]. lia. Qed.
Lemma set_up_net n : n < 256 ->
  set_up (mkA (net n 1) (net n 1) (net n 1) (text "255.255.255.0") (net n 100) (net n 199))
  = Some (Serve (value 192 168 n 100) (value 192 168 n 199) [(1, text "255.255.255.0"); (3, net n 1); (6, net n 1)]).
Proof.
  intros A. unfold set_up. cbn [a_local a_gateway a_dns a_subnet a_from a_to].
  rewrite (pton_dotted _ _ _ _ _ (dotted_net n 1 A ltac:(lia))), (pton_dotted _ _ _ _ _ (dotted_net n 100 A ltac:(lia))), (pton_dotted _ _ _ _ _ (dotted_net n 199 A ltac:(lia))).
  rewrite !host_value. reflexivity.
Qed.
Lemma no_serve l a b opts : ~ In (Serve a b opts) (fst (server_loop l)).
Proof.
  induction l as [|[x f y| |m ip|] l IH]; cbn [server_loop]; try exact IH; try (intros []).
  destruct (server_loop l) as [o e]. cbn [fst] in *. intros [H|H]; [discriminate|auto].
Qed.
Lemma lease_serve c x f a c' o p q opts : lease_fn c x f a = (c', o) -> ~ In (Serve p q opts) o.
Proof.
  unfold lease_fn. destruct (Comm_Model.lease_fn c x f a) as [c1 ms]. intros [= <- <-] H. apply in_app_or in H as [H|H].
  - destruct (Comm_Model.l_addr x); [|destruct H]. destruct (Comm_Model.same _ _); [destruct H|]. destruct f; cbn [In] in H; intuition discriminate.
  - apply in_map_iff in H as (m & H & _). discriminate.
Qed.
Lemma client_serve l : forall c c' o e a b opts, client_loop c l = (c', o, e) -> ~ In (Serve a b opts) o.
Proof.
  induction l as [|[x f y| |m ip|] l IH]; intros c c' o e a b opts; cbn [client_loop]; try (intros [= <- <- <-] []).
  - destruct (lease_fn c x f y) as [c1 o1] eqn:E. destruct (Comm_Model.c_runs c1).
    + destruct (client_loop c1 l) as [[c2 o2] e2] eqn:E2. intros [= <- <- <-] H. apply in_app_or in H as [H|H].
      * exact (lease_serve _ _ _ _ _ _ _ _ _ E H).
      * exact (IH _ _ _ _ _ _ _ E2 H).
    + intros [= <- <- <-]. exact (lease_serve _ _ _ _ _ _ _ _ _ E).
  - apply IH.
Qed.
Lemma served e f l o r a b opts : run e f l = (o, r) -> In (Serve a b opts) o -> exists x, f_serve f = Some x /\ set_up x = Some (Serve a b opts).
Proof.
  unfold run. intros R I. destruct (e_index e); cbn [negb] in R; [|inversion R; subst; destruct I].
  destruct (e_signals e =? 0); cbn [negb] in R; [|inversion R; subst; destruct I].
  destruct (f_serve f) as [x|].
  - exists x. split; [reflexivity|]. unfold run_server in R. destruct (e_flush e =? 0); cbn [negb] in R; [|inversion R; subst; cbn [In app] in I; intuition discriminate].
    destruct (e_add e =? 0); cbn [negb] in R; [|inversion R; subst; cbn [In app] in I; intuition discriminate].
    destruct (e_new e =? 0); cbn [negb] in R; [|inversion R; subst; cbn [In app] in I; intuition discriminate].
    destruct (set_up x) as [s|]; [|inversion R; subst; cbn [In app] in I; intuition discriminate].
    destruct (e_start e); cbn [negb] in R.
    + destruct (server_loop l) as [o' d] eqn:E.
      pose proof (no_serve l a b opts) as X. rewrite E in X. cbn [fst] in X.
      destruct d; inversion R; subst; cbn [In app] in I; (destruct I as [I|[I|[I|[I|I]]]]; try discriminate; [congruence|]); [|now elim X].
      apply in_app_or in I as [I|I]; [now elim X|]. cbn [In] in I. intuition discriminate.
    + inversion R; subst. cbn [In app] in I. destruct I as [?|[?|[?|[?|[?|[]]]]]]; try discriminate. congruence.
  - unfold run_client in R. destruct (e_new e =? 0); cbn [negb] in R; [|inversion R; subst; destruct I].
    destruct (e_start e); cbn [negb] in R; [|inversion R; subst; cbn [In app] in I; intuition discriminate].
    destruct (client_loop Comm_Model.new_client l) as [[c o'] d] eqn:E. pose proof (client_serve _ _ _ _ _ a b opts E) as X.
    destruct d; inversion R; subst; cbn [In] in I.
    + destruct I as [I|I]; [discriminate|]. apply in_app_or in I as [I|I]; [now elim X|].
      destruct (is_none _); cbn [In] in I; intuition discriminate.
    + destruct I as [I|I]; [discriminate|]. now elim X.
Qed.
Lemma ok_inj {A} (x y : A) : Ok x = Ok y -> x = y.
Proof. congruence. Qed.
Lemma serves_net n a b : n < 256 -> serves n a b -> a = value 192 168 n 100 /\ b = value 192 168 n 199.
Proof.
  intros A (ifname & lvl & fd & ip & access & argv & f & e & l & o & r & opts & H1 & H2 & H3 & H4).
  destruct (served _ _ _ _ _ _ _ _ H3 H4) as (x & F & S).
  unfold server_argv in H1. destruct (journal ifname) as [j|]; [|discriminate]. cbn [bind] in H1. apply ok_inj in H1. subst argv.
  unfold parse_argv in H2.
  rewrite (getopt_line _ _ dhcp_longs_good dhcp_shorts_good _ _ _ (server_line ifname n lvl fd ip) []) in H2.
  rewrite server_rounds in H2. destruct (WpasMsg_Model.atoi (dec fd)) as [z|]; [|discriminate]. cbn [bind app] in H2.
  rewrite settle_server in H2 by exact A. destruct (access ip); [|discriminate]. injection H2 as <-. cbn [f_serve] in F. injection F as <-.
  rewrite set_up_net in S by exact A. injection S as <- <- _. auto.
Qed.
Lemma serves_some n : n < 256 -> serves n (value 192 168 n 100) (value 192 168 n 199).
Proof.
  intros A. destruct (server_started (fun _ => true) (text "p2p-wlan0-0") n 5 9 None) as (argv & H1 & H2);
    [vm_compute; discriminate|exact A|reflexivity|reflexivity|reflexivity|].
  exists (text "p2p-wlan0-0"), 5, 9, None, (fun _ => true), argv, (net_config (text "p2p-wlan0-0") n 5 9 None).
  exists (mkEnv true 0 0 0 0 true true), []. eexists. eexists. exists [(1, text "255.255.255.0"); (3, net n 1); (6, net n 1)].
  split; [exact H1|]. split; [exact H2|]. unfold run, net_config. cbn [e_index e_signals f_serve negb N.eqb]. unfold run_server.
  cbn [e_flush e_add e_new e_start negb N.eqb]. rewrite set_up_net by exact A. cbn [server_loop app]. split; [reflexivity|]. cbn [In]. auto.
Qed.
Lemma serves_iff n a b : n < 256 -> (serves n a b <-> a = value 192 168 n 100 /\ b = value 192 168 n 199).
Proof. intros A. split; [now apply serves_net|]. intros [-> ->]. now apply serves_some. Qed.

(** ** What is leased *)
Lemma leased_in fuel l : forall s s' o y, DhcpServer_Proofs.inv s -> DhcpServer_Model.start_ip s < 2 ^ 32 ->
  DhcpServer_Spec.history fuel s l = Ret (s', o) -> given_out y o -> DhcpServer_Model.start_ip s <= y <= DhcpServer_Model.end_ip s.
Proof.
  induction l as [|e l IH]; intros s s' o y I Hs; cbn [DhcpServer_Spec.history].
  - intros [= <- <-] (t & i & out & [] & _).
  - destruct (DhcpServer_Model.listener_event fuel _ _ s _) as [[[s1 i] out]| |] eqn:E; cbn [obind]; try discriminate.
    pose proof (DhcpServer_Proofs.event_ok _ _ _ _ _ _ _ _ I Hs E) as K.
    assert (I1 : DhcpServer_Proofs.inv s1 /\ DhcpServer_Proofs.same_config s s1).
    { destruct i as [i|]; [split; apply K|]. destruct K as (-> & _). split; [exact I|apply DhcpServer_Proofs.config_refl]. }
    destruct I1 as [I1 (C1 & C2 & C3)].
    destruct (DhcpServer_Spec.history fuel s1 l) as [[s2 o2]| |] eqn:H; cbn [obind]; try discriminate.
    intros [= <- <-] (t & j & out' & [G|G] & G').
    + inversion G; subst. clear G. destruct j as [j|]; [|destruct K as (_ & ->); destruct G' as [[]|[]]].
      destruct K as (_ & _ & T & _ & Ef). inversion Ef as [? [-> |[->| ->]]|y' _ _ R _|y' _ _ R _ _|x _ _ _ _|x _ _ _ _]; subst; cbn [In] in G';
        try (intuition discriminate); destruct R as [_ R]; destruct G' as [[G'|[]]|[G'|[]]]; inversion G'; subst; exact R.
    + rewrite <- C1, <- C2. apply (IH s1 s2 o2 y I1); [now rewrite C1|exact H|]. now exists t, j, out'.
Qed.
Lemma group_leases es s g h a b a' b' me secs opts fuel l x o me' secs' opts' fuel' l' x' o' y y' :
  Groups_Model.run Groups_Model.init es = Ret s -> In g (Groups_Model.s_groups s) -> In h (Groups_Model.s_groups s) ->
  Groups_Model.g_go g = true -> Groups_Model.g_go h = true -> Groups_Model.g_id g <> Groups_Model.g_id h ->
  serves (Groups_Model.g_subnet g) a b -> serves (Groups_Model.g_subnet h) a' b' ->
  DhcpServer_Spec.history fuel (DhcpServer_Model.server_new a b me secs opts) l = Ret (x, o) ->
  DhcpServer_Spec.history fuel' (DhcpServer_Model.server_new a' b' me' secs' opts') l' = Ret (x', o') ->
  given_out y o -> given_out y' o' ->
  y <> y' /\ (exists d, 100 <= d <= 199 /\ y = value 192 168 (Groups_Model.g_subnet g) d).
Proof.
  intros R Ig Ih Gg Gh D Sg Sh H H' Y Y'.
  destruct (Groups_Proofs.subnets es s g R Ig Gg) as [Bg Dg]. destruct (Groups_Proofs.subnets es s h R Ih Gh) as [Bh _].
  specialize (Dg h Ih (not_eq_sym D)).
  destruct (serves_net _ _ _ (proj2 Bg) Sg) as [-> ->]. destruct (serves_net _ _ _ (proj2 Bh) Sh) as [-> ->].
  set (n := Groups_Model.g_subnet g) in *. set (m := Groups_Model.g_subnet h) in *.
  apply (leased_in fuel l) with (y := y) in H; [|apply DhcpServer_Proofs.new_inv|cbn; unfold value; lia|exact Y].
  apply (leased_in fuel' l') with (y := y') in H'; [|apply DhcpServer_Proofs.new_inv|cbn; unfold value; lia|exact Y'].
  cbn [DhcpServer_Model.start_ip DhcpServer_Model.end_ip DhcpServer_Model.server_new] in H, H'. unfold value in *. split.
  - clearbody n m. nia.
  - exists (y - (192 * 2 ^ 24 + 168 * 2 ^ 16 + n * 2 ^ 8)). split; lia.
Qed.
(** The own address is not leased if it is not in the range. *)
Lemma own_not_leased e f l o r p q opts x a b c d fl fh me secs sopts fuel h s lg y :
  run e f l = (o, r) -> In (Serve p q opts) o -> f_serve f = Some x -> dotted (a_local x) a b c d ->
  (exists fa fb fc fd, dotted (a_from x) fa fb fc fd /\ fl = value fa fb fc fd) -> (exists ta tb tc td, dotted (a_to x) ta tb tc td /\ fh = value ta tb tc td) ->
  ~ fl <= value a b c d <= fh ->
  DhcpServer_Spec.history fuel (DhcpServer_Model.server_new p q me secs sopts) h = Ret (s, lg) -> given_out y lg -> y <> value a b c d.
Proof.
  intros R I F D (fa & fb & fc & fd & Df & ->) (ta & tb & tc & td & Dt & ->) N H G.
  destruct (served _ _ _ _ _ _ _ _ R I) as (x' & F' & S). rewrite F in F'. injection F' as <-. unfold set_up in S.
  destruct (inet_pton (a_subnet x)); [|discriminate]. destruct (inet_pton (a_gateway x)); [|discriminate]. destruct (inet_pton (a_dns x)); [|discriminate].
  rewrite (pton_dotted _ _ _ _ _ Df), (pton_dotted _ _ _ _ _ Dt), !host_value in S. injection S as <- <- _.
  apply (leased_in fuel h) with (y := y) in H; [|apply DhcpServer_Proofs.new_inv| |exact G].
  - cbn [DhcpServer_Model.start_ip DhcpServer_Model.end_ip DhcpServer_Model.server_new] in H. intros ->. contradiction.
  - cbn [DhcpServer_Model.start_ip DhcpServer_Model.server_new]. destruct Df as (A & B & C & E & _). unfold value. lia.
Qed.
Lemma subnets_of_link es s g h ifname ifname' lvl fd ip lvl' fd' ip' access argv argv' f f' :
  Groups_Model.run Groups_Model.init es = Ret s -> In g (Groups_Model.s_groups s) -> In h (Groups_Model.s_groups s) ->
  Groups_Model.g_go g = true -> Groups_Model.g_go h = true -> Groups_Model.g_id g <> Groups_Model.g_id h ->
  server_argv ifname (Groups_Model.g_subnet g) lvl fd ip = Ok argv -> server_argv ifname' (Groups_Model.g_subnet h) lvl' fd' ip' = Ok argv' ->
  parse_argv access argv = Ok (Go f) -> parse_argv access argv' = Ok (Go f') ->
  exists a b n m, f_serve f = Some a /\ f_serve f' = Some b /\ a_local a = net n 1 /\ a_local b = net m 1 /\ n <> m /\ n < 256 /\ m < 256.
Proof.
  intros R Ig Ih Gg Gh D A A' P P'.
  destruct (Groups_Proofs.subnets es s g R Ig Gg) as [Bg Dg]. destruct (Groups_Proofs.subnets es s h R Ih Gh) as [Bh _].
  specialize (Dg h Ih (not_eq_sym D)).
  assert (K : forall ifname n lvl fd ip argv f, n < 256 -> server_argv ifname n lvl fd ip = Ok argv -> parse_argv access argv = Ok (Go f) ->
    exists a, f_serve f = Some a /\ a_local a = net n 1).
  { clear. intros ifname n lvl fd ip argv f N H1 H2. unfold server_argv in H1. destruct (journal ifname) as [j|]; [|discriminate]. cbn [bind] in H1. apply ok_inj in H1. subst argv.
    unfold parse_argv in H2. rewrite (getopt_line _ _ dhcp_longs_good dhcp_shorts_good _ _ _ (server_line ifname n lvl fd ip) []) in H2.
    rewrite server_rounds in H2. destruct (WpasMsg_Model.atoi (dec fd)) as [z|]; [|discriminate]. cbn [bind app] in H2.
    rewrite settle_server in H2 by exact N. destruct (access ip); [|discriminate]. injection H2 as <-. cbn [f_serve]. eexists. split; reflexivity. }
  destruct (K _ _ _ _ _ _ _ (proj2 Bg) A P) as (a & Fa & La). destruct (K _ _ _ _ _ _ _ (proj2 Bh) A' P') as (b & Fb & Lb).
  exists a, b, (Groups_Model.g_subnet g), (Groups_Model.g_subnet h). repeat split; auto; tauto.
Qed.
