(** What is expected of miracle-dhcp. *)
From Coq Require Import String.
From Verif Require Import Base Text Settings_Model Settings_Spec DhcpMain_Model.
From Verif Require DhcpServer_Model DhcpServer_Spec.
Local Open Scope list_scope.

(** ** Addresses: four numbers with dots *)
Definition dotted (s : list byte) (a b c d : N) : Prop :=
  a < 256 /\ b < 256 /\ c < 256 /\ d < 256 /\ s = dec a ++ text "." ++ dec b ++ text "." ++ dec c ++ text "." ++ dec d.
Definition is_address (s : list byte) : Prop := exists a b c d, dotted s a b c d.
Definition value (a b c d : N) : N := a * 2 ^ 24 + b * 2 ^ 16 + c * 2 ^ 8 + d.

(** ** The command line, as the help text names it *)
Definition dhcp_names : longs := named
  [("help", flag OHelp); ("version", flag OVersion); ("log-level", valued OLogLevel); ("log-time", flag OLogTime); ("log-date-time", flag OLogDateTime);
   ("netdev", valued ONetdev); ("ip-binary", valued OIp); ("comm-fd", valued OCommFd); ("server", flag OServer); ("prefix", valued OPrefix);
   ("local", valued OLocal); ("gateway", valued OGateway); ("dns", valued ODns); ("subnet", valued OSubnet); ("from", valued OFrom); ("to", valued OTo)]%string.
(** And a letter "s" that is not in the help text. *)
Definition dhcp_letters : shorts := lettered [("h", flag OHelp); ("s", valued OLetterS)]%string.
Definition dhcp_finish : list oid := [OHelp; OVersion].
Definition dhcp_rules (es : list gev) (s : dset) : Prop :=
  decides OLogLevel es level NOTICE (d_level s) /\ switch OLogDateTime es false (d_date s) /\ switch OLogTime es false (d_time s)
  /\ decides ONetdev es Some None (d_netdev s) /\ decides OIp es Some None (d_ip s) /\ decides OCommFd es num_of (-1)%Z (d_comm s)
  /\ switch OServer es false (d_server s)
  /\ decides OPrefix es Some None (d_prefix s) /\ decides OLocal es Some None (d_local s) /\ decides OGateway es Some None (d_gateway s)
  /\ decides ODns es Some None (d_dns s) /\ decides OSubnet es Some None (d_subnet s) /\ decides OFrom es Some None (d_from s)
  /\ decides OTo es Some None (d_to s).
(** An address of the network: the prefix, a dot and the given part, or [d]. *)
Definition part (s : dset) (x : option (list byte)) (d : string) (t : list byte) : Prop :=
  is_address t /\ t = match d_prefix s with Some p => p | None => text "192.168.77" end ++ text "." ++ match x with Some v => v | None => text d end.
Definition configured (s : dset) (f : config) : Prop :=
  d_netdev s = Some (f_netdev f) /\ f_ip f = d_ip s /\ f_comm f = d_comm s /\ f_level f = d_level s
  /\ match f_serve f with
     | None => d_server s = false /\ d_prefix s = None /\ d_local s = None /\ d_gateway s = None /\ d_dns s = None /\ d_subnet s = None
               /\ d_from s = None /\ d_to s = None
     | Some a => d_server s = true /\ part s (d_local s) "1" (a_local a) /\ part s (d_gateway s) "1" (a_gateway a) /\ part s (d_dns s) "1" (a_dns a)
                 /\ (is_address (a_subnet a) /\ a_subnet a = match d_subnet s with Some v => v | None => text "255.255.255.0" end)
                 /\ part s (d_from s) "100" (a_from a) /\ part s (d_to s) "199" (a_to a)
     end.

(** ** As wifid starts it *)
Definition net (n x : N) : list byte := text "192.168." ++ dec n ++ text "." ++ dec x.
Definition net_config (ifname : list byte) (n lvl fd : N) (ip : option (list byte)) : config :=
  mkCfg ifname ip (Z.of_N fd) lvl (Some (mkA (net n 1) (net n 1) (net n 1) (text "255.255.255.0") (net n 100) (net n 199))).
(** A server that wifid starts for a subnet serves this range. *)
Definition serves (n a b : N) : Prop := exists ifname lvl fd ip access argv f e l o r opts,
  server_argv ifname n lvl fd ip = Ok argv /\ parse_argv access argv = Ok (Go f) /\ run e f l = (o, r) /\ In (Serve a b opts) o.

(** ** The interface *)
(** Its addresses after these steps; [old] before. *)
Fixpoint holds (old : list (list byte)) (o : list out) : list (list byte) :=
  match o with
  | [] => old
  | Flush true :: o => holds [] o
  | Add a true :: o => holds (old ++ [a]) o
  | _ :: o => holds old o
  end.
Definition touches (x : out) : Prop := match x with Flush _ | Add _ _ => True | _ => False end.
(** Starting fails. *)
Definition fails (e : env) (f : config) : Prop :=
  e_index e = false \/ e_signals e <> 0 \/ (f_serve f <> None /\ (e_flush e <> 0 \/ e_add e <> 0)) \/ e_new e <> 0 \/ e_start e = false.
(** The addresses are those of a command line. *)
Definition proper (f : config) : Prop := forall a, f_serve f = Some a ->
  is_address (a_local a) /\ is_address (a_gateway a) /\ is_address (a_dns a) /\ is_address (a_subnet a) /\ is_address (a_from a) /\ is_address (a_to a).
(** An address is given to a client in these answers of a server. *)
Definition given_out (y : N) (o : DhcpServer_Spec.log) : Prop :=
  exists t i out, In (t, i, out) o /\ (In (DhcpServer_Model.Offer y) out \/ In (DhcpServer_Model.Ack y) out).
