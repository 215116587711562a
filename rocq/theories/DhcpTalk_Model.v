(** Model of the packets of the IPv4 DHCP client as bytes, src/dhcp/client.c:176-208, 409-514,
    2989-3077, of what it reads of an answer (1461-1490, 1600-1616, 2290-2365), and of one
    exchange with the server of the same program. Memory for options is never short. The
    table of values to send is in the order of its iteration. *)
From Verif Require Import Base DhcpOpt_Model DhcpRaw_Model DhcpServer_Model.
From Verif Require Import DhcpClient_Model.

(** ** Configuration *)
(** mac_address, request_list and send_value_hash. *)
Record config := Config { k_mac : list byte; k_reqs : list N; k_sends : list (N * list byte) }.
Definition new_config (mac : list byte) : config := Config mac [] [].
(** g_dhcp_client_set_request, clear_requests, clear_values, set_id and set_send. *)
Inductive call := SetRequest (code : N) | ClearRequests | ClearValues | SetId | SetSend (code : N) (text : list byte).
Definition put_value (code : N) (d : list byte) (l : list (N * list byte)) : list (N * list byte) :=
  filter (fun o => negb (fst o =? code)) l ++ [(code, d)].
Definition configure (k : config) (o : call) : config :=
  match o with
  | SetRequest code =>
      if existsb (N.eqb code) (k_reqs k) then k else Config (k_mac k) (code :: k_reqs k) (k_sends k)
  | ClearRequests => Config (k_mac k) [] (k_sends k)
  | ClearValues => Config (k_mac k) (k_reqs k) []
  | SetId => Config (k_mac k) (k_reqs k) (put_value 61 (1 :: k_mac k) (k_sends k))
  | SetSend code t =>
      if code =? 12 then Config (k_mac k) (k_reqs k) (put_value 12 (takeN 255 t) (k_sends k)) else k
  end.

(** ** Sending *)
Definition andthen {A B} (r : res (option A)) (f : A -> res (option B)) : res (option B) :=
  do x <- r; match x with Some p => f p | None => Ok None end.
(** dhcp_attempt_secs, lines 429-433: the elapsed time, possibly negative, as 16 bits. *)
Definition attempt_secs (elapsed : Z) : N := Z.to_N (Z.min elapsed 65535 mod 65536).
(** init_packet, lines 176-186. *)
Definition init_packet (k : config) (type : N) : res (option (list byte)) :=
  andthen (init_header type) (fun p => do p <- mem_write p 28 (k_mac k); Ok (Some p)).
(** add_request_options, lines 188-208: codes and length are cut to a byte, there is no
    check for room. *)
Definition add_requests (codes : list N) (p : list byte) : res (option (list byte)) :=
  andthen (end_option (dropN HDR p)) (fun e =>
    do p <- mem_write p (HDR + e + 2) (map (fun c => c mod 256) codes);
    match codes with
    | [] => Ok (Some p)
    | _ =>
        do p <- mem_write p (HDR + e) [55];
        do p <- mem_write p (HDR + e + 1) [lenN codes mod 256];
        do p <- mem_write p (HDR + e + 2 + lenN codes) [END];
        Ok (Some p)
    end).
Definition opt_u32 (code : N) (v : option N) : list addop := match v with Some v => [AddU32 code v] | None => [] end.
(** The common part of send_discover and send_request, lines 441-456 and 467-484. *)
Definition body (k : config) (xid : list byte) (elapsed : Z) (type : N) (ops : list addop) : res (option (list byte)) :=
  andthen (init_packet k type) (fun p =>
  do p <- mem_write p 4 xid;
  do p <- mem_write p 8 (be16 (attempt_secs elapsed));
  andthen (add_ops p (ops ++ [AddU16 0x39 576])) (fun p =>
  andthen (add_requests (k_reqs k) p) (fun p =>
  add_ops p (map (fun o => AddBinary (fst o) (snd o)) (k_sends k))))).
Definition net32 (v : N) : list byte := [v / 2 ^ 24; v / 2 ^ 16 mod 256; v / 2 ^ 8 mod 256; v mod 256].
(** send_discover, send_request and send_release, lines 435-514, as the packets of the
    events of the client. [xid]: its four bytes. *)
Definition render_event (k : config) (xid : list byte) (elapsed : Z) (e : event) : res (option (list byte)) :=
  match e with
  | Discover r => body k xid elapsed 1 (if r =? 0 then [] else [AddU32 0x32 r])
  | Request req srv ci _ =>
      andthen (body k xid elapsed 3 (opt_u32 0x32 req ++ opt_u32 0x36 srv)) (fun p =>
      match ci with None => Ok (Some p) | Some a => do p <- mem_write p 12 (net32 a); Ok (Some p) end)
  | Release s a =>
      andthen (init_packet k 7) (fun p =>
      do p <- mem_write p 4 xid; do p <- mem_write p 12 (net32 a); add_ops p [AddU32 0x36 s])
  | _ => Ok None
  end.
(** The UDP payload: dhcp_send_raw_packet sets the broadcast flag, dhcp_send_kernel_packet
    (src/dhcp/common.c:589-633) does not; both send 548 bytes. *)
Definition payload (e : event) (p : list byte) : list byte :=
  takeN 548 (match e with Request _ _ _ true | Release _ _ => p | _ => set_broadcast p end).
(** The address a packet is sent to, as bytes; [c]: the client. *)
Definition destination (c : client) (e : event) : list byte :=
  match e with
  | Request _ _ _ true => net32 (server_ip c)
  | Release s _ => net32 s
  | _ => [255; 255; 255; 255]
  end.

(** ** Reading *)
(** check_package_owner, lines 1461-1490, and the fields and options the client looks at;
    all are read here at once. [p]: the packet buffer, of which [plen] bytes were received. *)
Definition read_u32 (fuel : nat) (p : list byte) (plen code : N) : oc (option N) :=
  let* o := lift (get_option fuel p plen code) in
  match o with None => Ret None | Some i => let* v := get_be32 p i in Ret (Some v) end.
Definition read_packet (fuel : nat) (k : config) (xid p : list byte) (plen : N) : oc packet :=
  let* hlen := byte_at p 2 in
  if negb (eq_bytes (takeN 4 (dropN 4 p)) xid) || negb (hlen =? 6) || negb (eq_bytes (takeN 6 (dropN 28 p)) (k_mac k))
  then Ret (Packet false None None None 0)
  else
    let* y := get_be32 p 16 in
    let* o := lift (get_option fuel p plen MESSAGE_TYPE) in
    match o with
    | None => Ret (Packet true None None None y)
    | Some i =>
        let* t := byte_at p i in
        let* s := read_u32 fuel p plen 0x36 in
        let* l := read_u32 fuel p plen 0x33 in
        Ret (Packet true (Some t) s l y)
    end.

(** ** An exchange *)
(** The packet of an event reaches the server, which handles it at time [now] and sends its
    answers (send_packet_to_client, src/dhcp/server.c:518-539); these reach the client, in a
    packet buffer with the bytes [rest] after those received. *)
Fixpoint answers (fuel : nat) (k : config) (xid : list byte) (s : server) (got rest : list byte) (out : list msg) : oc (list packet) :=
  match out with
  | [] => Ret []
  | m :: out =>
      let* r := lift (render s (takeN PACKET (got ++ repeat 0 (N.to_nat PACKET))) m) in
      let* x := read_packet fuel k xid (takeN 548 (set_broadcast r) ++ rest) 548 in
      let* l := answers fuel k xid s got rest out in
      Ret (x :: l)
  end.
Definition exchange (fuel : nat) (mem : bool) (now : N) (s : server) (k : config) (xid : list byte) (elapsed : Z)
  (e : event) (rest : list byte) : oc (server * list packet) :=
  let* p := lift (render_event k xid elapsed e) in
  let* (s', _, out) := listener_event fuel mem now s (payload e p) in
  let* l := answers fuel k xid s' (payload e p) rest out in
  Ret (s', l).
