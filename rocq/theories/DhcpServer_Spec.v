(** The lease table as a set of leases, histories of packets, and the packets
    of clients. *)
From Verif Require Import Base DhcpOpt_Model DhcpOpt_Spec DhcpServer_Model.

(** A lease the server lists. *)
Definition has (s : server) (x : lease) : Prop :=
  exists id, In id (leases s) /\ heap s id = Some x.
(** A lease found by the address index. *)
Definition indexed (s : server) (a : N) (x : lease) : Prop :=
  exists id, hash_lookup (index s) a = Some id /\ heap s id = Some x.

(** Addresses and clients are unique, all leases lie in the range and belong to
    real clients, and the index is exactly the list. *)
Record table_ok (s : server) : Prop := {
  t_nodup : NoDup (leases s);
  t_live : forall id, In id (leases s) -> exists x, heap s id = Some x;
  t_nip : forall id1 id2 x y, In id1 (leases s) -> In id2 (leases s) ->
    heap s id1 = Some x -> heap s id2 = Some y -> nip x = nip y -> id1 = id2;
  t_mac : forall id1 id2 x y, In id1 (leases s) -> In id2 (leases s) ->
    heap s id1 = Some x -> heap s id2 = Some y -> mac x = mac y -> id1 = id2;
  t_range : forall x, has s x -> start_ip s <= nip x <= end_ip s /\ nip x <> 0;
  t_client : forall x, has s x -> mac x <> [255; 255; 255; 255; 255; 255] /\ mac x <> [0; 0; 0; 0; 0; 0];
  t_index : forall a x, indexed s a x <-> has s x /\ nip x = a;
  t_index_live : forall a id, hash_lookup (index s) a = Some id -> In id (leases s) }.

(** A received packet: does memory last, the time, the bytes. *)
Record event := mkEvent { e_mem : bool; e_now : N; e_bytes : list byte }.
(** One that was understood, and the answers. *)
Definition log : Type := list (N * option input * list msg).
Fixpoint history (fuel : nat) (s : server) (l : list event) : oc (server * log) :=
  match l with
  | [] => Ret (s, [])
  | e :: l =>
      let* (s, i, out) := listener_event fuel (e_mem e) (e_now e) s (e_bytes e) in
      let* (s, o) := history fuel s l in
      Ret (s, (e_now e, i, out) :: o)
  end.

(** The server after some history. *)
Definition reachable (s : server) : Prop :=
  exists a b me secs opts fuel l o, a < 2 ^ 32 /\ b < 2 ^ 32 /\
    history fuel (server_new a b me secs opts) l = Ret (s, o).

(** The packet of a client: type, hardware address, own address, options. *)
Definition client_packet (type : N) (m : list byte) (ci : list byte) (os : list (N * list byte)) : list byte :=
  [1; 1; 6; 0; 1; 2; 3; 4; 0; 0; 0; 0] ++ ci ++ repeat 0 12 ++ m ++ repeat 0 202
  ++ [0x63; 0x82; 0x53; 0x63] ++ [53; 1; type]
  ++ flat_map (fun o => fst o :: lenN (snd o) :: snd o) os ++ [255] ++ repeat 0 200.

(** The understood packet [i], handled at [now] in state [s], does not touch the
    address [a] held by client [m]: the holder sends no discover, decline or
    release; other clients do not request the address without a lease of their
    own, and discover names it only while its lease runs; addresses are picked
    while it runs or while another one is free. *)
Definition free_address (s : server) : Prop :=
  exists y, start_ip s <= y <= end_ip s /\ y mod 256 <> 0 /\ y mod 256 <> 255
  /\ forall x, has s x -> nip x <> y.
Definition leaves_alone (s : server) (now a : N) (m : list byte) (i : input) : Prop :=
  if eq_bytes (chaddr i) m then type i <> 1 /\ type i <> 4 /\ type i <> 7
  else (exists x, has s x /\ mac x = chaddr i) \/
       (type i = 3 -> match req_ip i with
                      | Some v => if v =? 0 then ciaddr i <> a else v <> a
                      | None => ciaddr i <> a
                      end)
       /\ (type i = 1 -> (exists x, has s x /\ nip x = a /\ now <= expire x)
                         \/ req_ip i <> Some a /\ free_address s).
(** A history all of whose packets do so. *)
Fixpoint quiet (fuel : nat) (s : server) (a : N) (m : list byte) (l : list event) : Prop :=
  match l with
  | [] => True
  | e :: l =>
      match listener_event fuel (e_mem e) (e_now e) s (e_bytes e) with
      | Ret (s', i, _) =>
          match i with Some i => leaves_alone s (e_now e) a m i | None => True end
          /\ quiet fuel s' a m l
      | _ => True
      end
  end.
(** Answers to other clients than [m] do not offer or acknowledge [a]. *)
Definition not_given (a : N) (m : list byte) (o : log) : Prop :=
  forall t i out, In (t, Some i, out) o -> chaddr i <> m -> ~ In (Offer a) out /\ ~ In (Ack a) out.

(** ** The server as a set of leases *)
(** A client gets an address: every other lease of the client or of the address
    is gone. *)
Definition put (T : lease -> Prop) (x : lease) : lease -> Prop :=
  fun z => z = x \/ T z /\ mac z <> mac x /\ nip z <> nip x.
(** The address a request asks for. *)
Definition requested (i : input) : N :=
  match req_ip i with Some v => if v =? 0 then ciaddr i else v | None => ciaddr i end.
Definition in_range (s : server) (y : N) : Prop := y <> 0 /\ start_ip s <= y <= end_ip s.
Definition real_client (m : list byte) : Prop :=
  m <> [255; 255; 255; 255; 255; 255] /\ m <> [0; 0; 0; 0; 0; 0].
Definition holds (T : lease -> Prop) (m : list byte) : Prop := exists x, T x /\ mac x = m.

(** The address offered: the client's, the one it names if that is free or
    expired, one nobody has, or one whose lease has expired. *)
Inductive chosen (s : server) (now : N) (T : lease -> Prop) (i : input) (y : N) : Prop :=
| ChooseOwn x : T x -> mac x = chaddr i -> nip x = y -> chosen s now T i y
| ChooseNamed : ~ holds T (chaddr i) -> req_ip i = Some y ->
    (forall x, T x -> nip x = y -> expire x < now) -> chosen s now T i y
| ChooseFree : ~ holds T (chaddr i) -> y mod 256 <> 0 -> y mod 256 <> 255 ->
    (forall x, T x -> nip x <> y) -> chosen s now T i y
| ChooseExpired x : ~ holds T (chaddr i) -> T x -> nip x = y -> expire x < now ->
    (forall z, start_ip s <= z <= end_ip s -> z mod 256 <> 0 -> z mod 256 <> 255 ->
       exists w, T w /\ nip w = z) -> chosen s now T i y.

(** One packet: the new set of leases and the answers. *)
Inductive effect (s : server) (now : N) (T : lease -> Prop) (i : input) : (lease -> Prop) -> list msg -> Prop :=
| EfNothing out : (out = [] \/ out = [Nak] \/ out = [InformAck]) -> effect s now T i T out
| EfOffer y : type i = 1 -> chosen s now T i y -> in_range s y -> real_client (chaddr i) ->
    effect s now T i (put T (mkLease 300 y (chaddr i))) [Offer y]
| EfAck y : type i = 3 -> y = requested i -> in_range s y -> real_client (chaddr i) ->
    (forall x, T x -> mac x = chaddr i -> nip x = y) ->
    effect s now T i (put T (mkLease (now + secs s) y (chaddr i))) [Ack y]
| EfDecline x : type i = 4 -> T x -> mac x = chaddr i -> req_ip i = Some (nip x) ->
    effect s now T i (fun z => T z /\ mac z <> chaddr i) []
| EfRelease x : type i = 7 -> T x -> mac x = chaddr i -> ciaddr i = nip x ->
    effect s now T i (fun z => z = mkLease (now mod 2 ^ 32) (nip x) (chaddr i) \/ T z /\ mac z <> chaddr i) [].

(** ** Sent packets *)
(** The header of an answer to the client packet [c]: transaction id, flags, own
    and relay address and hardware address are the client's. *)
Definition reply_header (c : list byte) (y : N) : list byte :=
  [2; 1; 6; 0] ++ takeN 4 (dropN 4 c) ++ [0; 0] ++ takeN 2 (dropN 10 c) ++ takeN 4 (dropN 12 c) ++ be32 y
  ++ [0; 0; 0; 0] ++ takeN 4 (dropN 24 c) ++ takeN 16 (dropN 28 c) ++ repeat 0 192 ++ [0x63; 0x82; 0x53; 0x63].
Definition reply_type (m : msg) : N := match m with Offer _ => 2 | Ack _ => 5 | Nak => 6 | InformAck => 5 end.
Definition reply_addr (m : msg) : N := match m with Offer y | Ack y => y | _ => 0 end.
Definition configured (s : server) : list opt := map (fun o => (fst o, be32 (snd o))) (opts s).
Definition reply_options (s : server) (m : msg) : list opt :=
  [(53, [reply_type m]); (54, be32 (server_nip s))]
  ++ match m with
     | Offer _ | Ack _ => (51, be32 (secs s)) :: configured s
     | Nak => []
     | InformAck => configured s
     end.
(** The bytes of an address as stored by the kernel. *)
Definition stored_bytes (v : N) : list byte := rev (be32 v).
(** g_dhcp_server_set_option accepts three codes; the hash table has each once. *)
Definition config_ok (s : server) : Prop :=
  (length (opts s) <= 3)%nat /\ Forall (fun o => In (fst o) [1; 3; 6]) (opts s).

(** ** Received packets *)
(** The packet buffer after receiving [got]. *)
Definition received (got : list byte) : list byte := takeN 628 (got ++ repeat 0 628).
Definition received_len (got : list byte) : N := N.min 628 (lenN got).
(** Server id and requested address, if present, have at least three data bytes
    (the fourth one read then still lies in the buffer). *)
Definition addresses_long (got : list byte) : Prop :=
  forall code o l, code = 50 \/ code = 54 ->
    get_option 400 (received got) (received_len got) code = Ok (Some (Some o)) ->
    nthN (received got) (o - 1) = Some l -> 3 <= l.
