(** Model of what a DHCPv6 client sends: src/dhcp/client.c:216-274, 295-407, 592-712,
    713-1117, 2664-2762 (DHCPv6), 2987-2998 and 3079-3121, src/dhcp/common.c:371-384.
    The client is of type G_DHCP_IPV6. Reading bytes that were not given or not
    written, and writing past an array, is undefined. Memory can be allocated but for
    0 bytes, for which g_try_malloc returns NULL; debug output is left out. Texts of
    addresses are their 16 bytes, or nothing if inet_pton refuses them. *)
From Coq Require Import ZArith.
From Verif Require Import Base.
Local Open Scope N_scope.

Definition rd (m : list byte) (n : N) : oc (list byte) := if n <=? lenN m then Ret (takeN n m) else Undef.
Definition wr (m : list byte) (off : N) (d : list byte) : oc (list byte) := match mem_write m off d with Ok m => Ret m | UB => Undef end.
Definition zeros (n : N) : list byte := repeat 0 (N.to_nat n).
Definition put16 (n : N) : list byte := [n / 256 mod 256; n mod 256].
Definition put32 (n : N) : list byte := [n / 16777216 mod 256; n / 65536 mod 256; n / 256 mod 256; n mod 256].
Definition or_zero (t : option N) : N := match t with Some t => t | None => 0 end.
Definition EINVAL : N := 22.
Definition ENOMEM : N := 12.

(** iaid, ia_na, request_list, send_value_hash, duid, server_duid, retransmit, xid,
    start_time in seconds and microseconds. *)
Record client := mkClient { c_iaid : N; c_na : list byte; c_requests : list N; c_sends : list (N * list byte); c_duid : option (list byte);
  c_server : option (list byte); c_again : bool; c_xid : N; c_start : Z * Z }.
Definition with_iaid (i : N) (c : client) : client := mkClient i (c_na c) (c_requests c) (c_sends c) (c_duid c) (c_server c) (c_again c) (c_xid c) (c_start c).
Definition with_na (a : list byte) (c : client) : client := mkClient (c_iaid c) a (c_requests c) (c_sends c) (c_duid c) (c_server c) (c_again c) (c_xid c) (c_start c).
Definition with_requests (l : list N) (c : client) : client := mkClient (c_iaid c) (c_na c) l (c_sends c) (c_duid c) (c_server c) (c_again c) (c_xid c) (c_start c).
Definition with_sends (l : list (N * list byte)) (c : client) : client := mkClient (c_iaid c) (c_na c) (c_requests c) l (c_duid c) (c_server c) (c_again c) (c_xid c) (c_start c).
Definition with_xid (x : N) (t : Z * Z) (c : client) : client := mkClient (c_iaid c) (c_na c) (c_requests c) (c_sends c) (c_duid c) (c_server c) (c_again c) x t.

(** g_dhcp_client_set_request, 2987-2998. *)
Definition set_request (code : N) (c : client) : client := if existsb (N.eqb code) (c_requests c) then c else with_requests (code :: c_requests c) c.
(** g_dhcpv6_client_set_send with alloc_dhcpv6_option, 3079-3121; [len] is passed as
    uint16_t. *)
Definition set_send (code : N) (value : list byte) (len : N) (c : client) : oc client :=
  let len := len mod 65536 in
  let* v := rd value len in
  Ret (with_sends ((code, put16 code ++ put16 len ++ v) :: filter (fun x => negb (fst x =? code)) (c_sends c)) c).

(** ** Identifiers *)
(** g_dhcpv6_create_duid, 640-680; [hw]: the hardware type, [mac]: what
    get_interface_mac_address finds, if it does. Gives the result and *duid. *)
Definition create_duid (duid_type hw : N) (now : Z) (mac : option (list byte)) : oc (N * option (list byte)) :=
  let t := Z.to_N ((now - 946684800) mod 4294967296)%Z in
  match duid_type with
  | 1 => match mac with Some m => Ret (0, Some ([0; 1; 0; hw mod 256] ++ put32 t ++ takeN 6 m)) | None => Undef end
  | 2 => Ret (EINVAL, None)
  | 3 => match mac with Some m => Ret (0, Some ([0; 3; 0; hw mod 256] ++ takeN 6 m)) | None => Undef end
  | _ => Ret (0, None)
  end.
Definition get32 (l : list byte) : N := fold_left (fun n b => 256 * n + b) l 0.
(** put_iaid with g_dhcpv6_client_create_iaid, 793-803 and 859-873. *)
Definition put_iaid (mac : option (list byte)) (c : client) : oc (client * list byte) :=
  if c_iaid c =? 0 then
    match mac with
    | Some m => let b := takeN 4 (dropN 2 m) in Ret (with_iaid (get32 b) c, b)
    | None => Undef
    end
  else Ret (c, put32 (c_iaid c)).

(** ** Options *)
(** create_iaaddr and append_iaaddr, 828-857. *)
Definition iaaddr (a : list byte) : list byte := [0; 5; 0; 24] ++ takeN 16 a ++ zeros 8.
(** g_dhcpv6_client_set_ia, 875-951; [ia_na]: None is NULL, Some None a text that is no
    address. *)
Definition set_ia (mac : option (list byte)) (code : N) (t1 t2 : option N) (add : bool) (ia_na : option (option (list byte))) (c : client) : oc (client * N) :=
  if code =? 4 then
    let* x := put_iaid mac c in
    let* c := set_send 4 (snd x) 4 (set_request 4 (fst x)) in Ret (c, 0)
  else if code =? 3 then
    let c := set_request 3 c in
    let a := match ia_na with Some a => a | None => if existsb (fun b => negb (b =? 0)) (c_na c) then Some (c_na c) else None end in
    match (if add then a else None) with
    | Some a =>
        let c := match ia_na with Some _ => with_na a c | None => c end in
        let* x := put_iaid mac c in
        let* c := set_send 3 (snd x ++ put32 (or_zero t1) ++ put32 (or_zero t2) ++ iaaddr (c_na c)) 40 (fst x) in Ret (c, 0)
    | None =>
        let* x := put_iaid mac c in
        let* c := set_send 3 (snd x ++ zeros 8) 12 (fst x) in Ret (c, 0)
    end
  else Ret (c, EINVAL).
(** The loop of g_dhcpv6_client_set_ias, 985-989. *)
Fixpoint append_all (l : list (option (list byte))) (pos : N) (m : list byte) : oc (list byte) :=
  match l with
  | [] => Ret m
  | None :: _ => Ret m
  | Some a :: l => let* m := wr m pos (iaaddr a) in append_all l (pos + 28) m
  end.
(** g_dhcpv6_client_set_ias, 953-1012. *)
Definition set_ias (mac : option (list byte)) (code : N) (t1 t2 : option N) (l : list (option (list byte))) (c : client) : oc (client * N) :=
  match l with
  | [] => Ret (c, EINVAL)
  | _ =>
      let c := set_request code c in
      if negb ((code =? 4) || (code =? 3)) then Ret (c, EINVAL)
      else
        let len := if code =? 4 then 4 else 12 in
        let total := len + lenN l * 28 in
        if 2147483648 <=? total then Undef
        else
          let* x := put_iaid mac c in
          let* m := wr (zeros total) 0 (snd x) in
          let* m := append_all l len m in
          let* m := (if code =? 3 then let* m := wr m 4 (put32 (or_zero t1)) in wr m 8 (put32 (or_zero t2)) else Ret m) in
          let* c := set_send code m total (fst x) in Ret (c, 0)
  end.
(** g_dhcpv6_client_set_pd, 713-775; prefixes with their lengths. *)
Fixpoint put_prefixes (l : list (N * list byte)) (len : N) (m : list byte) : oc (option (N * list byte)) :=
  match l with
  | [] => Ret (Some (len, m))
  | (plen, a) :: l =>
      if 1452 <=? len + 29 then Ret None
      else let* m := wr m len (put16 26 ++ put16 25 ++ zeros 8 ++ [plen mod 256] ++ takeN 16 a) in put_prefixes l (len + 29) m
  end.
Definition set_pd (t1 t2 : option N) (l : list (N * list byte)) (c : client) : oc (client * N) :=
  let c := set_request 25 c in
  let* m := wr (zeros 1452) 0 (put32 (c_iaid c)) in
  let* m := (match t1 with Some t => wr m 4 (put32 t) | None => Ret m end) in
  let* m := (match t2 with Some t => wr m 8 (put32 t) | None => Ret m end) in
  let* x := put_prefixes l 12 m in
  match x with
  | None => Ret (c, EINVAL)
  | Some (len, m) => let* c := set_send 25 m len c in Ret (c, 0)
  end.
(** g_dhcpv6_client_set_oro, 1014-1037. *)
Definition set_oro (l : list N) (c : client) : oc (client * N) :=
  match l with
  | [] => Ret (c, ENOMEM)
  | _ => if 2147483648 <=? 2 * lenN l then Ret (c, ENOMEM) else let* c := set_send 6 (concat (map put16 l)) (2 * lenN l) c in Ret (c, 0)
  end.

(** ** Messages *)
(** Writing at *ptr_buf, the end of what was written, in buf[MAX_DHCPV6_PKT_SIZE]. *)
Definition emit (b d : list byte) : oc (list byte) := if lenN b + lenN d <=? 1500 then Ret (b ++ d) else Undef.
Definition fits (b : list byte) (len : N) : bool := lenN b + (4 + len) <=? 1496.
(** get_time_diff, 263-274, in int32_t, and the value of the option, 351-362. *)
Definition int32 (z : Z) : Z := ((z + 2147483648) mod 4294967296 - 2147483648)%Z.
Definition time_diff (start now : Z * Z) : Z := int32 (int32 ((fst now - fst start) * 100) + (snd now - snd start) ÷ 10000)%Z.
Definition elapsed (c : client) (now : Z * Z) : N :=
  if c_again c then let d := time_diff (c_start c) now in if ((d <? 0) || (65535 <? d))%Z then 65535 else Z.to_N d else 0.
(** add_dhcpv6_request_options, 295-407. *)
Fixpoint add_requests (c : client) (time : N) (l : list N) (b : list byte) : oc (list byte) :=
  match l with
  | [] => Ret b
  | code :: l =>
      let put d := if fits b (lenN d) then let* b := emit b (put16 (code mod 65536) ++ put16 (lenN d) ++ d) in add_requests c time l b else Ret b in
      match code mod 65536 with
      | 1 => match c_duid c with Some d => put d | None => Ret b end
      | 2 => match c_server c with Some d => put d | None => add_requests c time l b end
      | 14 => put []
      | 8 => put (put16 time)
      | _ => add_requests c time l b
      end
  end.
(** add_dhcpv6_binary_option, 216-231, for each value in the order of the table. *)
Fixpoint add_sends (l : list (list byte)) (b : list byte) : oc (list byte) :=
  match l with
  | [] => Ret b
  | o :: l =>
      let* h := rd o 4 in
      let len := get32 (dropN 2 h) in
      if fits b len then let* d := rd o (4 + len) in let* b := emit b d in add_sends l b else add_sends l b
  end.
(** send_dhcpv6_msg, 1039-1078, with dhcpv6_init_header; [id]: what random returns, [order]:
    the order of the table. *)
Definition xid3 (x : N) : list byte := [x / 65536 mod 256; x / 256 mod 256; x mod 256].
Definition send_msg (type id : N) (now : Z * Z) (order : list (list byte) -> list (list byte)) (c : client) : oc (client * list byte) :=
  let c := if c_again c then c else with_xid (get32 (xid3 id)) now c in
  let c := set_request 8 c in
  let* b := emit [] (type mod 256 :: xid3 (c_xid c)) in
  let* b := add_requests c (elapsed c now) (c_requests c) b in
  let* b := add_sends (order (map snd (c_sends c))) b in
  Ret (c, b).

(** ** Starting *)
(** The callbacks that can be set, and the types of messages, src/dhcp/common.h:121-133. *)
Inductive kind := Information | Solicit | Request | Confirm | Renew | Rebind | Release | Decline.
Definition message_type (k : kind) : N :=
  match k with Solicit => 1 | Request => 3 | Confirm => 4 | Renew => 5 | Rebind => 6 | Release => 8 | Decline => 9 | Information => 11 end.
(** g_dhcp_client_start, 2673-2761: the first callback that is set says what is sent. *)
Definition start (set : kind -> bool) : option kind := find set [Information; Solicit; Request; Confirm; Renew; Rebind; Release; Decline].
Definition first_msg (set : kind -> bool) (id : N) (now : Z * Z) (order : list (list byte) -> list (list byte)) (c : client) : oc (client * option (list byte)) :=
  match start set with
  | None => Ret (c, None)
  | Some k => let* x := send_msg (message_type k) id now order c in Ret (fst x, Some (snd x))
  end.
(** listener_event, 2507-2563: whose callback is called for a reply. *)
Definition tells (set : kind -> bool) : option kind := find set [Information; Request; Renew; Rebind; Release; Decline; Confirm].
