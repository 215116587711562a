(** The messages of a DHCP client as RFC 2131 lays them out, and clients and servers
    understanding each other. *)
From Coq Require Import Permutation.
From Verif Require Import Base DhcpOpt_Model DhcpOpt_Spec DhcpServer_Model DhcpServer_Spec.
From Verif Require Import DhcpClient_Model DhcpTalk_Model.

(** A configuration made by some calls; the values to send come in any order. *)
Definition configured_by (mac : list byte) (l : list call) (k : config) : Prop :=
  let k0 := fold_left configure l (new_config mac) in
  lenN mac = 6 /\ k_mac k = mac /\ k_reqs k = k_reqs k0 /\ Permutation (k_sends k0) (k_sends k).
(** The requested options are real option codes. *)
Definition real_codes (l : list call) : Prop :=
  forall code, In (SetRequest code) l -> 1 <= code <= 254.

(** ** Messages *)
Definition message_type (e : event) : option N :=
  match e with Discover _ => Some 1 | Request _ _ _ _ => Some 3 | Release _ _ => Some 7 | _ => None end.
(** What a message says: the address asked for, the server meant, the address in use. *)
Definition asked_for (e : event) : option N :=
  match e with Discover r => if r =? 0 then None else Some r | Request req _ _ _ => req | _ => None end.
Definition meant (e : event) : option N :=
  match e with Request _ s _ _ => s | Release s _ => Some s | _ => None end.
Definition in_use (e : event) : N :=
  match e with Request _ _ (Some a) _ => a | Release _ a => a | _ => 0 end.
Definition unicast (e : event) : bool := match e with Request _ _ _ u => u | Release _ _ => true | _ => false end.

(** The seconds since the start of the attempt, at most 65535. *)
Definition seconds (e : event) (elapsed : N) : N :=
  match e with Release _ _ => 0 | _ => N.min elapsed 65535 end.
(** op, htype, hlen, hops; xid; secs; flags; ciaddr; yiaddr, siaddr and giaddr; chaddr; sname
    and file; cookie. *)
Definition client_header (mac xid : list byte) (secs flags : N) (ci : list byte) : list byte :=
  [1; 1; 6; 0] ++ xid ++ be16 secs ++ [flags; 0] ++ ci ++ repeat 0 12 ++ mac ++ repeat 0 10 ++ repeat 0 192 ++ [0x63; 0x82; 0x53; 0x63].
Definition given {A} (code : N) (f : A -> list byte) (v : option A) : list opt :=
  match v with Some v => [(code, f v)] | None => [] end.
(** A value is left out if the packet has no room for it. *)
Definition with_room (os : list opt) (x : opt) : list opt :=
  if lenN (encs os) + lenN (enc x) + 1 <=? 307 then os ++ [x] else os.
Definition message_options (k : config) (e : event) : list opt :=
  given 53 (fun t => [t]) (message_type e) ++ given 50 be32 (asked_for e) ++ given 54 be32 (meant e)
  ++ match e with Release _ _ => [] | _ => [(57, be16 576)] ++ match k_reqs k with [] => [] | l => [(55, l)] end end.
Definition all_options (k : config) (e : event) : list opt :=
  match e with Release _ _ => message_options k e | _ => fold_left with_room (k_sends k) (message_options k e) end.
(** The message as sent: 548 bytes. *)
Definition message (k : config) (xid : list byte) (elapsed : N) (e : event) : list byte :=
  takeN 548 (packet_with (client_header (k_mac k) xid (seconds e elapsed) (if unicast e then 0 else 128) (be32 (in_use e)))
    (all_options k e)).

(** ** Understanding *)
(** A 32-bit number with its bytes in the other direction. *)
Definition swap32 (v : N) : N := v mod 256 * 2 ^ 24 + v / 2 ^ 8 mod 256 * 2 ^ 16 + v / 2 ^ 16 mod 256 * 2 ^ 8 + v / 2 ^ 24.
(** What the client is to read of an answer. *)
Definition answer_read (s : server) (m : msg) : packet :=
  Packet true (Some (reply_type m)) (Some (server_nip s))
    (match m with Offer _ | Ack _ => Some (secs s) | _ => None end) (reply_addr m).
(** The last thing that happened to a client. *)
Definition latest (c : client) : option event := match rev (log c) with (_, e) :: _ => Some e | [] => None end.
(** A request to extend, or a release, of the address held. *)
Definition about_own (e : event) (s : server) (x : DhcpServer_Model.lease) : Prop :=
  (exists u, e = Request None None (Some (nip x)) u) \/ e = Release (server_nip s) (nip x).
