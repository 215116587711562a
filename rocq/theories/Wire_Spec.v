(** What is expected of the messages between wifid and wpa_supplicant. *)
From Coq Require Import String.
From Verif Require Import Base Text Wire_Model.
From Verif Require Prov_Model.
Local Open Scope list_scope.

(** ** Messages as wpa_supplicant writes them *)
(** Words without blanks, quotes and backslashes; addresses have no "=" either. *)
Definition wordy (s : list byte) : Prop := s <> [] /\ Forall (fun c => 33 <= c /\ c <> 34 /\ c <> 39 /\ c <> 92) s.
Definition addr (s : list byte) : Prop := wordy s /\ ~ In 61 s.
(** Anything may follow, after a blank. *)
Definition tail (t : list byte) : Prop := t = [] \/ exists r, t = 32 :: r.
(** wpa_ssid_txt: an SSID as it is printed between quotes. *)
Definition hexd (d : N) : byte := if d <? 10 then 48 + d else 87 + d.
Definition ssid_char (c : byte) : list byte :=
  if c =? 34 then [92; 34] else if c =? 92 then [92; 92] else if c =? 27 then [92; 101] else if c =? 10 then [92; 110]
  else if c =? 13 then [92; 114] else if c =? 9 then [92; 116] else if (32 <=? c) && (c <=? 126) then [c]
  else [92; 120; hexd (c / 16); hexd (c mod 16)].
Definition ssid_txt (s : list byte) : list byte := flat_map ssid_char s.
(** The words between SSID and go_dev_addr: freq, psk or passphrase. *)
Definition detail (w : list byte) : Prop :=
  exists k v, In k ["freq"; "psk"; "passphrase"]%string /\ wordy v /\ (w = text k ++ text "=" ++ v \/ w = text k ++ text "=""" ++ v ++ [34]).
Definition spaced (ws : list (list byte)) : list byte := flat_map (fun w => 32 :: w) ws.

(** Each kind of event, and what wifid should take it for. *)
Inductive reports : list byte -> option (list byte) -> note -> Prop :=
| R_found a d t i : addr a -> addr d -> tail t ->
    reports (text "P2P-DEVICE-FOUND " ++ a ++ text " p2p_dev_addr=" ++ d ++ t) i (Peer (Prov_Model.Found (Some d) (Some a)))
| R_lost d t i : addr d -> tail t -> reports (text "P2P-DEVICE-LOST p2p_dev_addr=" ++ d ++ t) i (Peer (Prov_Model.Lost (Some d)))
| R_pbc a d t i : addr a -> addr d -> tail t ->
    reports (text "P2P-PROV-DISC-PBC-REQ " ++ a ++ text " p2p_dev_addr=" ++ d ++ t) i (Peer (Prov_Model.PbcReq (Some d)))
| R_show a pin d t i : addr a -> addr pin -> addr d -> tail t ->
    reports (text "P2P-PROV-DISC-SHOW-PIN " ++ a ++ text " " ++ pin ++ text " p2p_dev_addr=" ++ d ++ t) i (Peer (Prov_Model.ShowPin (Some d) (Some pin)))
| R_enter a d t i : addr a -> addr d -> tail t ->
    reports (text "P2P-PROV-DISC-ENTER-PIN " ++ a ++ text " p2p_dev_addr=" ++ d ++ t) i (Peer (Prov_Model.EnterPin (Some d)))
| R_request a t i : addr a -> tail t -> reports (text "P2P-GO-NEG-REQUEST " ++ a ++ t) i (Peer (Prov_Model.NegRequest (Some a) 0))
| R_success role freq ht d f t i : addr role -> addr freq -> addr ht -> addr d -> addr f -> tail t ->
    reports (text "P2P-GO-NEG-SUCCESS role=" ++ role ++ text " freq=" ++ freq ++ text " ht40=" ++ ht ++ text " peer_dev=" ++ d ++ text " peer_iface=" ++ f ++ t) i
      (Peer (Prov_Model.NegSuccess (Some d) (Some f)))
| R_refused t i : tail t -> reports (text "P2P-GO-NEG-FAILURE" ++ t) i (Peer Prov_Model.NegFailure)
| R_failed t i : tail t -> reports (text "P2P-GROUP-FORMATION-FAILURE" ++ t) i (Peer Prov_Model.FormFailure)
| R_started ifname (go : bool) ssid ws d t i : addr ifname -> Forall (fun c => c < 256) ssid -> Forall detail ws -> addr d -> tail t ->
    reports (text "P2P-GROUP-STARTED " ++ ifname ++ text (if go then " GO" else " client")%string ++ text " ssid=""" ++ ssid_txt ssid ++ [34] ++ spaced ws ++ text " go_dev_addr=" ++ d ++ t) i
      (Group d ifname go)
| R_removed ifname t i : addr ifname -> tail t -> reports (text "P2P-GROUP-REMOVED " ++ ifname ++ t) i (GroupGone ifname)
| R_joined a d t i : addr a -> addr d -> tail t ->
    reports (text "AP-STA-CONNECTED " ++ a ++ text " p2p_dev_addr=" ++ d ++ t) i (Joined d a i)
| R_left a d t i : addr a -> addr d -> tail t ->
    reports (text "AP-STA-DISCONNECTED " ++ a ++ text " p2p_dev_addr=" ++ d ++ t) i (Peer (Prov_Model.StaDisconnected (Some d)))
| R_over t i : tail t -> reports (text "P2P-FIND-STOPPED" ++ t) i ScanOver.
(** With the interface and the level in front. *)
Definition source (i : option (list byte)) : list byte := match i with Some n => text "IFNAME=" ++ n ++ text " " | None => [] end.
Definition on_wire (i : option (list byte)) (lvl : N) (body : list byte) : list byte := source i ++ text "<" ++ dec lvl ++ text ">" ++ body.
Definition ifname_ok (i : option (list byte)) : Prop := forall n, i = Some n -> ~ In 0 n /\ ~ In 32 n.

(** ** Names *)
(** The event about a device with this name, and the reply to P2P_PEER. *)
Definition found_text (a d ty name : list byte) (ws : list (list byte)) : list byte :=
  text "P2P-DEVICE-FOUND " ++ a ++ text " p2p_dev_addr=" ++ d ++ text " pri_dev_type=" ++ ty ++ text " name='" ++ name ++ text "'" ++ spaced ws.
Definition lines (ls : list (list byte)) : list byte := flat_map (fun l => l ++ [10]) ls.
Definition line (l : list byte) : Prop := ~ In 10 l /\ ~ In 0 l.
(** A word or line with a key, and the first one of a list. *)
Definition keyed (k : string) (w v : list byte) : Prop := w = text k ++ 61 :: v.
Definition first_keyed (k : string) (ws : list (list byte)) (o : option (list byte)) : Prop :=
  match o with
  | Some v => exists l w r, ws = l ++ w :: r /\ keyed k w v /\ forall x y, In x l -> ~ keyed k x y
  | None => forall x y, In x ws -> ~ keyed k x y
  end.
(** One of two keys, the first if it is there; [old] if none is. *)
Definition either (k k' : string) (ws : list (list byte)) (old o : option (list byte)) : Prop :=
  exists a b, first_keyed k ws a /\ first_keyed k' ws b /\ o = match a, b with Some v, _ => Some v | None, Some v => Some v | None, None => old end.

(** ** Commands as wpa_supplicant reads them: it knows no quotes *)
(** SET: a variable, a blank, the value up to the end. *)
Definition sets (s var val : list byte) : Prop := ~ In 32 var /\ s = text "SET " ++ var ++ 32 :: val.
(** Words between single blanks. *)
Definition words (s : list byte) (ws : list (list byte)) : Prop :=
  Forall (fun w => ~ In 32 w) ws /\ exists w r, ws = w :: r /\ s = w ++ spaced r.
(** Bytes that are sent as they are. *)
Definition bare (c : byte) : Prop := ~ In c [32; 9; 10; 11; 34; 92].
(** What comes from outside: addresses and PINs that are words. *)
Definition tidy (e : Prov_Model.event) : Prop :=
  match e with
  | Prov_Model.Found (Some d) _ => wordy d
  | Prov_Model.ShowPin _ (Some t) => wordy t
  | Prov_Model.Connect _ _ pin _ => pin = [] \/ wordy pin
  | _ => True
  end.
