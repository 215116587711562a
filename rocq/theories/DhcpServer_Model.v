(** Model of the DHCP server, src/dhcp/server.c:74-298,421-762. Leases are heap
    objects named by numbers; the list and the index hold those names, so that a
    freed or doubly listed lease is visible. 32-bit addresses are numbers in
    host order except where said. The machine is little-endian. *)
From Verif Require Import Base DhcpOpt_Model.

(** struct dhcp_lease, src/dhcp/server.c:75-79. *)
Record lease := mkLease { expire : N; nip : N; mac : list byte }.

(** struct _GDHCPServer, src/dhcp/server.c:52-73: the fields the packet handler
    uses. [server_nip] is the address as stored, in network order read as a
    number. [index] is nip_lease_hash; [opts] is option_hash in the order of its
    iteration, with the addresses the values stand for. *)
Record server := mkServer {
  start_ip : N; end_ip : N; server_nip : N; secs : N; opts : list (N * N);
  leases : list N; index : list (N * N); heap : N -> option lease; next_id : N }.
Definition set_leases (s : server) l := mkServer (start_ip s) (end_ip s) (server_nip s) (secs s) (opts s)
  l (index s) (heap s) (next_id s).
Definition set_index (s : server) i := mkServer (start_ip s) (end_ip s) (server_nip s) (secs s) (opts s)
  (leases s) i (heap s) (next_id s).
Definition set_heap (s : server) h := mkServer (start_ip s) (end_ip s) (server_nip s) (secs s) (opts s)
  (leases s) (index s) h (next_id s).
Definition set_next (s : server) n := mkServer (start_ip s) (end_ip s) (server_nip s) (secs s) (opts s)
  (leases s) (index s) (heap s) n.
(** g_dhcp_server_new, src/dhcp/server.c:352-418, then set_ip_range (880-897),
    set_lease_time and set_option. *)
Definition server_new (a b nip secs : N) (opts : list (N * N)) : server :=
  mkServer a b nip secs opts [] [] (fun _ => None) 1.

Definition ETH_ALEN : N := 6.
Definition OFFER_TIME : N := 300.
Definition two32 : N := 2 ^ 32.
Definition wrap32 (n : N) : N := n mod two32.

Fixpoint eq_bytes (a b : list byte) : bool :=
  match a, b with
  | [], [] => true
  | x :: a, y :: b => (x =? y) && eq_bytes a b
  | _, _ => false
  end.

Definition deref (s : server) (id : N) : oc lease :=
  match heap s id with Some l => Ret l | None => Undef end.
Definition upd (h : N -> option lease) (id : N) (v : option lease) : N -> option lease :=
  fun i => if i =? id then v else h i.

(** g_list_remove: the first occurrence. *)
Fixpoint list_remove (l : list N) (id : N) : list N :=
  match l with
  | [] => []
  | x :: l => if x =? id then l else x :: list_remove l id
  end.
(** g_hash_table_lookup, _remove and _insert on nip_lease_hash. *)
Definition hash_lookup (i : list (N * N)) (k : N) : option N :=
  option_map snd (find (fun e => fst e =? k) i).
Definition hash_remove (i : list (N * N)) (k : N) : list (N * N) :=
  filter (fun e => negb (fst e =? k)) i.
Definition hash_insert (i : list (N * N)) (k v : N) : list (N * N) := (k, v) :: hash_remove i k.

(** find_lease_by_mac, src/dhcp/server.c:97-110. *)
Fixpoint find_mac (s : server) (l : list N) (m : list byte) : oc (option N) :=
  match l with
  | [] => Ret None
  | id :: l =>
      let* x := deref s id in
      if eq_bytes (mac x) m then Ret (Some id) else find_mac s l m
  end.
Definition find_lease_by_mac (s : server) (m : list byte) : oc (option N) := find_mac s (leases s) m.

(** remove_lease, src/dhcp/server.c:112-120. *)
Definition remove_lease (s : server) (id : N) : oc server :=
  let* x := deref s id in
  let s := set_leases s (list_remove (leases s) id) in
  let s := set_index s (hash_remove (index s) (nip x)) in
  Ret (set_heap s (upd (heap s) id None)).

Definition bcast : list byte := [255; 255; 255; 255; 255; 255].
Definition any : list byte := [0; 0; 0; 0; 0; 0].

(** get_lease, src/dhcp/server.c:123-183; [y] is ntohl(yiaddr); [mem]: does
    g_try_new0 succeed. *)
Definition get_lease (mem : bool) (s : server) (y : N) (m : list byte) : oc (server * option N) :=
  if y =? 0 then Ret (s, None)
  else if y <? start_ip s then Ret (s, None)
  else if end_ip s <? y then Ret (s, None)
  else if eq_bytes m bcast then Ret (s, None)
  else if eq_bytes m any then Ret (s, None)
  else
    let* lm := find_lease_by_mac s m in
    match hash_lookup (index s) y with
    | Some ln =>
        let s := set_leases s (list_remove (leases s) ln) in
        let s := set_index s (hash_remove (index s) y) in
        match lm with
        | None => Ret (s, Some ln)
        | Some lm =>
            if negb (ln =? lm) then
              let* s := remove_lease s lm in Ret (s, Some ln)
            else Ret (s, Some ln)
        end
    | None =>
        match lm with
        | Some lm =>
            let s := set_leases s (list_remove (leases s) lm) in
            let* x := deref s lm in
            let s := set_index s (hash_remove (index s) (nip x)) in
            Ret (s, Some lm)
        | None =>
            if mem then
              Ret (set_next (set_heap s (upd (heap s) (next_id s) (Some (mkLease 0 0 any)))) (next_id s + 1),
                   Some (next_id s))
            else Ret (s, None)
        end
    end.

(** compare_expire, src/dhcp/server.c:185-191: the difference of two time_t is
    returned as a 32-bit int. *)
Definition to_int (z : Z) : Z := ((z + 2 ^ 31) mod 2 ^ 32 - 2 ^ 31)%Z.
Definition compare_expire (a b : lease) : Z := to_int (Z.of_N (expire b) - Z.of_N (expire a)).
(** g_list_insert_sorted: before the first element that does not compare
    smaller. *)
Fixpoint insert_sorted (s : server) (l : list N) (id : N) (x : lease) : oc (list N) :=
  match l with
  | [] => Ret [id]
  | j :: r =>
      let* y := deref s j in
      if (0 <? compare_expire x y)%Z then
        let* r := insert_sorted s r id x in Ret (j :: r)
      else Ret (id :: l)
  end.

(** add_lease, src/dhcp/server.c:193-220; [now] is time(NULL), the same during
    the handling of one packet. *)
Definition add_lease (mem : bool) (now : N) (s : server) (exp : N) (m : list byte) (y : N)
  : oc (server * option N) :=
  let* (s, r) := get_lease mem s y m in
  match r with
  | None => Ret (s, None)
  | Some id =>
      let x := mkLease (if exp =? 0 then now + secs s else exp) y m in
      let* _ := deref s id in
      let s := set_heap s (upd (heap s) id (Some x)) in
      let* l := insert_sorted s (leases s) id x in
      let s := set_leases s l in
      Ret (set_index s (hash_insert (index s) y id), Some id)
  end.

(** is_expired_lease, src/dhcp/server.c:236-242. *)
Definition is_expired (now : N) (x : lease) : bool := expire x <? now.

(** The loop of find_free_or_expired_nip, src/dhcp/server.c:251-266; arp_check
    always answers true. *)
Fixpoint find_free (fuel : nat) (s : server) (ip : N) : oc (option N) :=
  match fuel with
  | O => Endless
  | S fuel =>
      if end_ip s <? ip then Ret None
      else if N.land ip 255 =? 0 then find_free fuel s (wrap32 (ip + 1))
      else if N.land ip 255 =? 255 then find_free fuel s (wrap32 (ip + 1))
      else match hash_lookup (index s) ip with
           | Some _ => find_free fuel s (wrap32 (ip + 1))
           | None => Ret (Some ip)
           end
  end.
Fixpoint last_id (l : list N) : option N :=
  match l with [] => None | [x] => Some x | _ :: l => last_id l end.
(** find_free_or_expired_nip, src/dhcp/server.c:244-284. *)
Definition find_nip (fuel : nat) (now : N) (s : server) : oc N :=
  let* r := find_free fuel s (start_ip s) in
  match r with
  | Some ip => Ret ip
  | None =>
      match last_id (leases s) with
      | None => Ret 0
      | Some id =>
          let* x := deref s id in
          Ret (if is_expired now x then nip x else 0)
      end
  end.

(** lease_set_expire, src/dhcp/server.c:286-295; [exp] is a uint32_t. *)
Definition lease_set_expire (s : server) (id exp : N) : oc server :=
  let s := set_leases s (list_remove (leases s) id) in
  let* x := deref s id in
  let x := mkLease exp (nip x) (mac x) in
  let s := set_heap s (upd (heap s) id (Some x)) in
  let* l := insert_sorted s (leases s) id x in
  Ret (set_leases s l).

(** ** Packets *)
(** What the handler takes from a packet. [ciaddr] is the field as loaded: in
    network order. *)
Record input := mkInput {
  type : N; server_id : option N; req_ip : option N; ciaddr : N; chaddr : list byte }.
(** What it sends: the kind of message and yiaddr in host order. *)
Inductive msg := Offer (y : N) | Ack (y : N) | Nak | InformAck.

(** check_requested_nip, src/dhcp/server.c:494-516. *)
Definition check_requested_nip (now : N) (s : server) (req : N) : oc bool :=
  if req =? 0 then Ret false
  else if req <? start_ip s then Ret false
  else if end_ip s <? req then Ret false
  else match hash_lookup (index s) req with
       | None => Ret true
       | Some id => let* x := deref s id in Ret (is_expired now x)
       end.

(** send_offer, src/dhcp/server.c:541-582. *)
Definition send_offer (fuel : nat) (mem : bool) (now : N) (s : server) (i : input) (l : option N) (req : N)
  : oc (server * list msg) :=
  let* y := match l with
            | Some id => let* x := deref s id in Ret (nip x)
            | None =>
                let* b := check_requested_nip now s req in
                if b then Ret req else find_nip fuel now s
            end in
  if y =? 0 then Ret (s, [])
  else
    let* (s, r) := add_lease mem now s OFFER_TIME (chaddr i) y in
    match r with
    | None => Ret (s, [])
    | Some _ => Ret (s, [Offer y])
    end.

(** send_ACK, src/dhcp/server.c:598-626: the packet is sent before the lease is
    renewed. *)
Definition send_ack (mem : bool) (now : N) (s : server) (i : input) (dest : N) : oc (server * list msg) :=
  let* (s, _) := add_lease mem now s 0 (chaddr i) dest in
  Ret (s, [Ack dest]).

(** The part of listener_event after the options were read,
    src/dhcp/server.c:690-761. *)
Definition handle (fuel : nat) (mem : bool) (now : N) (s : server) (i : input) : oc (server * list msg) :=
  let req := match req_ip i with Some v => v | None => 0 end in
  let* l := find_lease_by_mac s (chaddr i) in
  if type i =? 1 then send_offer fuel mem now s i l req
  else if type i =? 3 then
    let req := if req =? 0 then ciaddr i else req in
    if req =? 0 then Ret (s, [])
    else
      let* (s, l) := match l with
                     | None => add_lease mem now s OFFER_TIME (chaddr i) req
                     | Some id => Ret (s, Some id)
                     end in
      match l with
      | None => Ret (s, [Nak])
      | Some id =>
          let* x := deref s id in
          if req =? nip x then send_ack mem now s i (nip x)
          else match server_id i with
               | Some _ => Ret (s, [Nak])
               | None => Ret (s, [])
               end
      end
  else if type i =? 4 then
    match server_id i, req_ip i, l with
    | Some _, Some _, Some id =>
        let* x := deref s id in
        if req =? nip x then let* s := remove_lease s id in Ret (s, []) else Ret (s, [])
    | _, _, _ => Ret (s, [])
    end
  else if type i =? 7 then
    match server_id i, l with
    | Some _, Some id =>
        let* x := deref s id in
        if ciaddr i =? nip x then
          let* s := lease_set_expire s id (wrap32 now) in Ret (s, [])
        else Ret (s, [])
    | _, _ => Ret (s, [])
    end
  else if type i =? 8 then Ret (s, [InformAck])
  else Ret (s, []).

(** ** Reading the packet *)
Definition byte_at (p : list byte) (i : N) : oc N :=
  match nthN p i with Some b => Ret b | None => Undef end.
(** get_be32, src/dhcp/unaligned.h:57-60. *)
Definition get_be32 (p : list byte) (i : N) : oc N :=
  let* a := byte_at p i in let* b := byte_at p (i + 1) in
  let* c := byte_at p (i + 2) in let* d := byte_at p (i + 3) in
  Ret (a * 2 ^ 24 + b * 2 ^ 16 + c * 256 + d).
(** A uint32_t field of the header. *)
Definition get_le32 (p : list byte) (i : N) : oc N :=
  let* a := byte_at p i in let* b := byte_at p (i + 1) in
  let* c := byte_at p (i + 2) in let* d := byte_at p (i + 3) in
  Ret (d * 2 ^ 24 + c * 2 ^ 16 + b * 256 + a).

(** check_packet_type, src/dhcp/server.c:421-443; 0: not a request. *)
Definition check_packet_type (fuel : nat) (p : list byte) (plen : N) : oc N :=
  let* hlen := byte_at p 2 in
  if negb (hlen =? ETH_ALEN) then Ret 0
  else
    let* op := byte_at p 0 in
    if negb (op =? 1) then Ret 0
    else
      let* o := lift (get_option fuel p plen MESSAGE_TYPE) in
      match o with
      | None => Ret 0
      | Some i => let* t := byte_at p i in Ret (if (t <? 1) || (8 <? t) then 0 else t)
      end.

(** dhcp_recv_l3_packet, src/dhcp/common.c:386-400, and the reads of
    listener_event, src/dhcp/server.c:670-690. [got] are the bytes received (at
    most the size of the packet); the rest is zero. [None]: ignored. *)
Definition decode (fuel : nat) (s : server) (got : list byte) : oc (option input) :=
  let p := takeN PACKET (got ++ repeat 0 (N.to_nat PACKET)) in
  let plen := N.min PACKET (lenN got) in
  if negb (eq_bytes (takeN 4 (dropN 236 p)) [0x63; 0x82; 0x53; 0x63]) then Ret None
  else
    let* t := check_packet_type fuel p plen in
    if t =? 0 then Ret None
    else
      let* o := lift (get_option fuel p plen 0x36) in
      let* sid := match o with
                  | None => Ret None
                  | Some i => let* v := get_be32 p i in Ret (Some v)
                  end in
      if match sid with Some v => negb (v =? server_nip s) | None => false end then Ret None
      else
        let* o := lift (get_option fuel p plen 0x32) in
        let* req := match o with
                    | None => Ret None
                    | Some i => let* v := get_be32 p i in Ret (Some v)
                    end in
        let* ci := get_le32 p 12 in
        Ret (Some (mkInput t sid req ci (takeN ETH_ALEN (dropN 28 p)))).

(** listener_event, src/dhcp/server.c:653-762. *)
Definition listener_event (fuel : nat) (mem : bool) (now : N) (s : server) (got : list byte)
  : oc (server * option input * list msg) :=
  let* r := decode fuel s got in
  match r with
  | None => Ret (s, None, [])
  | Some i => let* (s, out) := handle fuel mem now s i in Ret (s, Some i, out)
  end.

(** ** Sending *)
(** init_packet, src/dhcp/server.c:445-460, with the fields of the client's
    packet [c], and the options of each message. [yiaddr] is in host order. *)
Definition render (s : server) (c : list byte) (m : msg) : res (option (list byte)) :=
  let '(ty, y, more) :=
    match m with
    | Offer y => (2, y, [AddU32 0x33 (secs s)] ++ map (fun o => AddU32 (fst o) (snd o)) (opts s))
    | Ack y => (5, y, [AddU32 0x33 (secs s)] ++ map (fun o => AddU32 (fst o) (snd o)) (opts s))
    | Nak => (6, 0, [])
    | InformAck => (5, 0, map (fun o => AddU32 (fst o) (snd o)) (opts s))
    end in
  do r <- init_header ty;
  match r with
  | None => Ok None
  | Some p =>
      do xid <- mem_read c 4 4; do p <- mem_write p 4 xid;
      do ch <- mem_read c 28 16; do p <- mem_write p 28 ch;
      do fl <- mem_read c 10 2; do p <- mem_write p 10 fl;
      do gw <- mem_read c 24 4; do p <- mem_write p 24 gw;
      do ci <- mem_read c 12 4; do p <- mem_write p 12 ci;
      do p <- mem_write p 16 [y / 2 ^ 24; y / 2 ^ 16 mod 256; y / 2 ^ 8 mod 256; y mod 256];
      add_ops p (AddU32 0x36 (server_nip s) :: more)
  end.
