(** Model of what wifid reads in the messages of wpa_supplicant and of the commands it
    writes, src/wifi/wifid-supplicant.c:848-1016 (what is read), 1018-1447 (what is read),
    1449-1527, 1947-2017. Messages are parsed and put together as in WpasMsg; what the
    events do is in Prov and Groups. Memory can be allocated. *)
From Coq Require Import String.
From Verif Require Import Base Text WpasMsg_Model.
From Verif Require Qstr_Model Prov_Model.
Local Open Scope list_scope.

(** wpas_message_dict_read and _argv_read of a string; wpas_message_read of one. *)
Definition is_text (r : res (value + err)) : res (option (list byte)) :=
  do r <- r; Ok (match r with inl (VString s) => Some s | _ => None end).
Definition entry (m : wmsg) (k : string) : res (option (list byte)) := is_text (dict_read m (text k) TString).
Definition nth_arg (m : wmsg) (i : N) : res (option (list byte)) := is_text (argv_read m i TString).
Definition next_arg (m : wmsg) : res (option (list byte)) := do r <- read_basic m TString; is_text (Ok (snd r)).

(** What a message is about. [Peer]: an event of Prov. *)
Inductive note :=
| Peer (e : Prov_Model.event)
| Group (dev ifname : list byte) (go : bool) | GroupGone (ifname : list byte)
| Joined (dev sta : list byte) (ifname : option (list byte))
| ScanOver | Nothing.

Definition ignored : list (list byte) := map text
  ["CTRL-EVENT-SCAN-STARTED"; "CTRL-EVENT-SCAN-RESULTS"; "CTRL-EVENT-EAP-STARTED"; "CTRL-EVENT-EAP-PROPOSED-METHOD"; "CTRL-EVENT-EAP-FAILURE";
   "CTRL-EVENT-BSS-REMOVED"; "CTRL-EVENT-BSS-ADDED"; "CTRL-EVENT-CONNECTED"; "CTRL-EVENT-DISCONNECTED"; "WPS-PBC-ACTIVE"; "WPS-PBC-DISABLE";
   "WPS-AP-AVAILABLE-PBC"; "WPS-AP-AVAILABLE-AUTH"; "WPS-AP-AVAILABLE-PIN"; "CTRL-EVENT-EAP-STATUS"; "CTRL-EVENT-EAP-METHOD"; "WPS-CRED-RECEIVED";
   "WPS-AP-AVAILABLE"; "WPS-REG-SUCCESS"; "WPS-SUCCESS"; "WPS-ENROLLEE-SEEN"; "P2P-GROUP-FORMATION-SUCCESS"; "AP-ENABLED"; "SME:"; "WPA:"; "Trying";
   "No network configuration found for the current AP"; "Associated"]%string.
(** supplicant_event with what the handlers read, 922-1527. In P2P-GO-NEG-REQUEST the
    number dev_passwd_id is not read. *)
Definition on_event (m : wmsg) : res note :=
  match w_type m, w_name m with
  | WEvent, Some n =>
      let is k := str_eq n (text k) in
      if existsb (str_eq n) ignored then Ok Nothing
      else if is "P2P-FIND-STOPPED"%string then Ok ScanOver
      else if is "P2P-DEVICE-FOUND"%string then do d <- entry m "p2p_dev_addr"; do a <- next_arg m; Ok (Peer (Prov_Model.Found d a))
      else if is "P2P-DEVICE-LOST"%string then do d <- entry m "p2p_dev_addr"; Ok (Peer (Prov_Model.Lost d))
      else if is "P2P-PROV-DISC-PBC-REQ"%string then do d <- entry m "p2p_dev_addr"; Ok (Peer (Prov_Model.PbcReq d))
      else if is "P2P-PROV-DISC-SHOW-PIN"%string then do d <- entry m "p2p_dev_addr"; do p <- nth_arg m 1; Ok (Peer (Prov_Model.ShowPin d p))
      else if is "P2P-PROV-DISC-ENTER-PIN"%string then do d <- entry m "p2p_dev_addr"; Ok (Peer (Prov_Model.EnterPin d))
      else if is "P2P-GO-NEG-SUCCESS"%string then do d <- entry m "peer_dev"; do i <- entry m "peer_iface"; Ok (Peer (Prov_Model.NegSuccess d i))
      else if is "P2P-GO-NEG-REQUEST"%string then do a <- next_arg m; Ok (Peer (Prov_Model.NegRequest a 0))
      else if is "P2P-GROUP-STARTED"%string then
        do d <- entry m "go_dev_addr"; do i <- nth_arg m 0; do g <- nth_arg m 1;
        Ok (match d, i, g with Some d, Some i, Some g => Group d i (str_eq g (text "GO")) | _, _, _ => Nothing end)
      else if is "P2P-GROUP-REMOVED"%string then do i <- nth_arg m 0; Ok (match i with Some i => GroupGone i | None => Nothing end)
      else if is "P2P-GO-NEG-FAILURE"%string then Ok (Peer Prov_Model.NegFailure)
      else if is "P2P-GROUP-FORMATION-FAILURE"%string then Ok (Peer Prov_Model.FormFailure)
      else if is "AP-STA-CONNECTED"%string then
        do d <- entry m "p2p_dev_addr"; do a <- nth_arg m 0;
        Ok (match d, a with Some d, Some a => Joined d a (w_ifname m) | _, _ => Nothing end)
      else if is "AP-STA-DISCONNECTED"%string then do d <- entry m "p2p_dev_addr"; Ok (Peer (Prov_Model.StaDisconnected d))
      else Ok Nothing
  | _, _ => Ok Nothing
  end.
(** A message as it is received. *)
Definition heard (raw : list byte) : res note :=
  do r <- parse false raw; match r with inl m => on_event m | inr _ => Ok Nothing end.
(** supplicant_p2p_peer_fn, 933-944: the reply to P2P_PEER. *)
Definition answered (raw : list byte) : res note :=
  do r <- parse false raw;
  match r with
  | inl m => do f <- is_fail m; if f then Ok Nothing else do a <- next_arg m; Ok (Peer (Prov_Model.Reply a))
  | inr _ => Ok Nothing
  end.

(** ** Names and WFD subelements of peers *)
(** supplicant_parse_peer, 867-913: friendly_name and wfd_subelements after a message. *)
Record label := mkLabel { l_name : option (list byte); l_wfd : option (list byte) }.
Definition or_old (o old : option (list byte)) : option (list byte) := match o with Some _ => o | None => old end.
Definition learn (l : label) (m : wmsg) : res label :=
  do n <- entry m "device_name"; do n <- (match n with Some _ => Ok n | None => entry m "name" end);
  do w <- entry m "wfd_subelems"; do w <- (match w with Some _ => Ok w | None => entry m "wfd_dev_info" end);
  Ok (mkLabel (or_old n (l_name l)) (or_old w (l_wfd l))).
Definition labelled (l : label) (raw : list byte) : res label :=
  do r <- parse false raw; match r with inl m => learn l m | inr _ => Ok l end.

(** ** Commands *)
(** wpas_message_new_request, _append of strings and the text that wpas_call_async sends. *)
Definition command (words : list (list byte)) : option (list byte) :=
  match words with
  | [] => None
  | n :: args =>
      match new_wrequest n with
      | inr _ => None
      | inl m => match wappend m (map (fun t => AString (Some t)) args) with
                 | (_, Some _) => None
                 | (m, None) => match wseal m with
                                | (m, None) => match w_raw m with Some r => Some (takeN (w_rawlen m) r) | None => None end
                                | _ => None
                                end
                 end
      end
  end.
(** supplicant_set_friendly_name, 1947-1978, and supplicant_set_wfd_subelements, 1980-2017;
    [None]: an error. *)
Definition set_name (running : bool) (name : option (list byte)) : option (list byte) :=
  match name with
  | Some (c :: t) => if running then command [text "SET"; text "device_name"; c :: t] else None
  | _ => None
  end.
Definition set_wfd (running : bool) (val : option (list byte)) : option (list byte) :=
  match val with
  | Some v => if running then command ([text "WFD_SUBELEM_SET"; text "0"] ++ match v with [] => [] | _ => [v] end) else None
  | None => None
  end.
