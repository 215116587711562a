(** Model of what a DHCPv6 client reads: src/dhcp/common.c:162-236 and 402-414,
    src/dhcp/client.c:1461-1474, 1881-2188 and the DHCPv6 part of listener_event,
    2229-2573. A pointer into a packet is the list of the bytes that were received
    from there on; reading more than was received (uninitialised bytes of the buffer,
    or past it) is undefined. get_uint32 shifts an int, which gcc defines. Memory can
    be allocated; texts of addresses are their 16 bytes; debug output is left out. *)
From Verif Require Import Base.

Definition rd (m : list byte) (n : N) : oc (list byte) := if n <=? lenN m then Ret (takeN n m) else Undef.
Definition be (l : list byte) : N := fold_left (fun n c => 256 * n + c) l 0.

(** ** Options *)
(** dhcpv6_get_option, src/dhcp/common.c:162-211: where the value begins and its length; how
    many there are. *)
Fixpoint opt_loop (fuel : nat) (m : list byte) (rem code : N) (found : option (list byte * N)) (count : N) : oc (option (list byte * N) * N) :=
  match fuel with
  | O => Endless
  | S fuel =>
      match m with
      | a :: b :: c :: d :: rest =>
          let opt_len := be [c; d] in
          let len := (opt_len + 4) mod 65536 in
          if len <? 4 then Ret (None, 0)
          else if rem <? len then Ret (found, count)
          else
            let rem := rem - len in
            let '(found, count) := if be [a; b] =? code then (Some (rest, opt_len), count + 1) else (found, count) in
            if rem =? 0 then Ret (found, count) else opt_loop fuel (dropN len m) rem code found count
      | _ => Undef
      end
  end.
Definition get_option (p : list byte) (code : N) : oc (option (list byte * N) * N) :=
  if lenN p <=? 4 then Ret (None, 0) else opt_loop (S (length p)) (dropN 4 p) (lenN p - 4) code None 0.
(** dhcpv6_get_sub_option, src/dhcp/common.c:213-236. *)
Definition get_sub_option (m : list byte) (max_len : N) : oc (option (N * N * list byte)) :=
  if max_len <=? 4 then Ret None
  else match m with
       | a :: b :: c :: d :: rest => if max_len - 4 <? be [c; d] then Ret None else Ret (Some (be [a; b], be [c; d], rest))
       | _ => Undef
       end.

(** ** Values *)
Inductive value := VAddr (a : list byte) | VPrefix (a : list byte) (plen preferred valid : N) | VName (s : list byte).
(** The members of the client that depend on leases. *)
Record bindings := mkBind { b_iaid : N; b_T1 : N; b_T2 : N; b_expire : N; b_na : list byte; b_ta : list byte }.
(** The variables of the loop of get_addresses. *)
Record ia := mkIa { i_st : N; i_addr : list byte; i_pref : N; i_valid : N; i_count : N; i_list : list value; i_prefixes : N; i_short : N; i_status : N }.
(** g_strndup: characters up to the NUL, [n] at most. *)
Fixpoint strndup (n : nat) (m : list byte) : oc (list byte) :=
  match n with
  | O => Ret []
  | S n => match m with [] => Undef | c :: m => if c =? 0 then Ret [] else let* s := strndup n m in Ret (c :: s) end
  end.
(** The switch in get_addresses, src/dhcp/client.c:1975-2022. *)
Definition ia_switch (code len : N) (o : list byte) (x : ia) : oc ia :=
  if code =? 5 then
    let* b := rd o 24 in
    Ret (mkIa (i_st x) (takeN 16 b) (be (takeN 4 (dropN 16 b))) (be (dropN 20 b)) (i_count x + 1) (i_list x) (i_prefixes x) (i_short x) (i_status x))
  else if code =? 13 then
    let* b := rd o 2 in
    let* _ := (if 2 <? len then strndup (N.to_nat (len - 2)) (dropN 2 o) else Ret []) in
    Ret (mkIa (be b) (i_addr x) (i_pref x) (i_valid x) (i_count x) (i_list x) (i_prefixes x) (i_short x) (be b))
  else if code =? 26 then
    let* b := rd o 25 in
    let preferred := be (takeN 4 b) in
    let valid := be (takeN 4 (dropN 4 b)) in
    let addr := dropN 9 b in
    if preferred <? valid then
      Ret (mkIa (i_st x) addr preferred valid (i_count x) (VPrefix addr (be (takeN 1 (dropN 8 b))) preferred valid :: i_list x) (i_prefixes x + 1)
                (if valid <? i_short x then valid else i_short x) (i_status x))
    else Ret (mkIa (i_st x) addr preferred valid (i_count x) (i_list x) (i_prefixes x) (i_short x) (i_status x))
  else Ret x.
Fixpoint ia_loop (fuel : nat) (m : list byte) (pos len max_len : N) (x : ia) : oc ia :=
  match fuel with
  | O => Endless
  | S fuel =>
      let* s := get_sub_option m max_len in
      match s with
      | None => Ret x
      | Some (code, olen, o) =>
          if len <=? pos then Ret x
          else
            let* x := ia_switch code olen o x in
            let pos := pos + 4 + olen in
            if pos <? len then ia_loop fuel (dropN (4 + olen) m) pos len max_len x else Ret x
      end
  end.
(** get_addresses, src/dhcp/client.c:1917-2071: the list, the client, *status. *)
Definition get_addresses (b : bindings) (code len : N) (m : list byte) (status : N) : oc (list value * bindings * N) :=
  if len <? 4 then Ret ([], b, status)
  else
    let* h := rd m 4 in
    if negb (b_iaid b =? be h) then Ret ([], b, status)
    else
      let na := (code =? 3) || (code =? 25) in
      let* t := (if na then let* t := rd m 12 in Ret (be (takeN 4 (dropN 4 t)), be (dropN 8 t)) else Ret (0, 0)) in
      let '(T1, T2) := t in
      if na && (T2 <? T1) then Ret ([], b, status)
      else
        let pos := if na then 12 else 4 in
        if len <=? pos then Ret ([], b, status)
        else
          let* x := ia_loop (S (N.to_nat len)) (dropN pos m) pos len (len - pos) (mkIa 0 [] 0 0 0 [] 0 0 status) in
          let one := (0 <? i_count x) && (i_st x =? 0) in
          if one && (i_valid x <? i_pref x) then Ret ([], b, i_status x)
          else
            let '(l, b) :=
              if one then
                (i_list x ++ [VAddr (i_addr x)],
                 mkBind (b_iaid b) T1 T2 (if b_expire b <? i_valid x then i_valid x else b_expire b)
                        (if code =? 3 then i_addr x else b_na b) (if code =? 3 then b_ta b else i_addr x))
              else (i_list x, b) in
            let '(l, b) :=
              if (0 <? i_prefixes x) && (0 <? lenN l) then (rev l, mkBind (b_iaid b) T1 T2 (i_short x) (b_na b) (b_ta b)) else (l, b) in
            Ret (l, b, i_status x).

(** get_domains, src/dhcp/client.c:2073-2100. NS_MAXDNAME is 1025; the last byte of
    dns_name is never written. *)
Fixpoint strncpy (n : nat) (m : list byte) : oc (list byte) :=
  match n with
  | O => Ret []
  | S n => match m with [] => Undef | c :: m => if c =? 0 then Ret (repeat 0 (S n)) else let* s := strncpy n m in Ret (c :: s) end
  end.
Fixpoint walk (fuel : nat) (buf : list byte) (i : N) : oc (list byte * N) :=
  match fuel with
  | O => Endless
  | S fuel =>
      match nthN buf i with
      | None => Undef
      | Some j => if j =? 0 then Ret (buf, i) else walk fuel (takeN i buf ++ 46 :: dropN (i + 1) buf) (i + j + 1)
      end
  end.
Fixpoint cstr (m : list byte) : oc (list byte) :=
  match m with [] => Undef | c :: m => if c =? 0 then Ret [] else let* s := cstr m in Ret (c :: s) end.
Fixpoint domains (fuel : nat) (m : list byte) (pos maxlen : N) : oc (list value) :=
  match fuel with
  | O => Endless
  | S fuel =>
      if pos <? maxlen then
        let* buf := strncpy (N.to_nat 1025) m in
        let* w := walk (N.to_nat 1026) buf 0 in
        let '(buf, i) := w in
        let* s := cstr (dropN 1 buf) in
        let* l := domains fuel (dropN (i + 1) m) (pos + i + 1) maxlen in
        Ret (VName s :: l)
      else Ret []
  end.
Definition get_domains (len : N) (m : list byte) : oc (list value) :=
  if len <? 3 then Ret [] else domains (S (N.to_nat len)) m 0 len.
(** get_dhcpv6_option_value_list, src/dhcp/client.c:2102-2153. *)
Fixpoint servers (n : nat) (m : list byte) : oc (list value) :=
  match n with O => Ret [] | S n => let* a := rd m 16 in let* l := servers n (dropN 16 m) in Ret (VAddr a :: l) end.
Definition value_list (b : bindings) (code len : N) (m : list byte) (status : N) : oc (list value * bindings * N) :=
  if (code =? 23) || (code =? 31) then
    if negb (len mod 16 =? 0) then Ret ([], b, status) else let* l := servers (N.to_nat (len / 16)) m in Ret (l, b, status)
  else if (code =? 3) || (code =? 4) || (code =? 25) then get_addresses b code len m status
  else if code =? 24 then let* l := get_domains len m in Ret (l, b, status)
  else Ret ([], b, status).
(** get_dhcpv6_request, src/dhcp/client.c:2155-2188; the table of values, where no
    value is the empty list. *)
Fixpoint get_request (codes : list N) (p : list byte) (b : bindings) (status : N) (t : N -> list value) : oc (bindings * N * (N -> list value)) :=
  match codes with
  | [] => Ret (b, status, t)
  | code :: codes =>
      let* f := get_option p code in
      match fst f with
      | None => get_request codes p b status (fun c => if c =? code then [] else t c)
      | Some (m, len) =>
          let* r := value_list b code len m status in
          let '(l, b, status) := r in
          get_request codes p b status (fun c => if c =? code then l else t c)
      end
  end.

(** ** Messages *)
(** INFORMATION_REQ, REQUEST, RENEW, RELEASE, CONFIRM and DECLINE are [Replying]. *)
Inductive phase := Solicitation | Rebind | Replying.
Record client := mkClient {
  k_phase : phase; k_xid : N; k_duid : list byte; k_server : option (list byte); k_requests : list N;
  k_bind : bindings; k_status : N; k_values : N -> list value; k_listens : bool }.
(** What the user is told: nothing, an advertisement, a reply. *)
Inductive told := Nothing | Advertise | Reply.
Definition with_server (s : list byte) (k : client) : client :=
  mkClient (k_phase k) (k_xid k) (k_duid k) (Some s) (k_requests k) (k_bind k) (k_status k) (k_values k) (k_listens k).
Definition with_status (st : N) (k : client) : client :=
  mkClient (k_phase k) (k_xid k) (k_duid k) (k_server k) (k_requests k) (k_bind k) st (k_values k) (k_listens k).
(** switch_listening_mode(L_NONE). *)
Definition deaf (k : client) : client :=
  mkClient (k_phase k) (k_xid k) (k_duid k) (k_server k) (k_requests k) (k_bind k) (k_status k) (k_values k) false.
Definition take_request (p : list byte) (k : client) : oc client :=
  let* r := get_request (k_requests k) p (k_bind k) (k_status k) (k_values k) in
  let '(b, st, t) := r in
  Ret (mkClient (k_phase k) (k_xid k) (k_duid k) (k_server k) (k_requests k) b st t (k_listens k)).
Definition same_bytes (a b : list byte) : bool := if list_eq_dec N.eq_dec a b then true else false.
(** memcmp(known, m, known_len) == 0. *)
Definition memcmp (known m : list byte) : oc bool := let* x := rd m (lenN known) in Ret (same_bytes known x).

(** The cases REBIND to DECLINE, src/dhcp/client.c:2455-2573. The callback is always set;
    the second look at the server of a CONFIRM is left out. *)
Definition reply_case (p : list byte) (k : client) : oc (client * told) :=
  if negb (nth 0 p 0 =? 7) then Ret (k, Nothing)
  else
    let* f := get_option p 2 in
    match f with
    | (Some (m, len), count) =>
        if negb (count =? 1) || (len =? 0) then Ret (k, Nothing)
        else
          let* same := (match k_server k with Some s => if 0 <? lenN s then memcmp s m else Ret true | None => Ret true end) in
          if negb same then Ret (k, Nothing)
          else let* k := take_request p (deaf k) in Ret (k, Reply)
    | _ => Ret (k, Nothing)
    end.
(** REBIND takes the server of the message if it knows none, 2455-2474. *)
Definition rebind_case (p : list byte) (k : client) : oc client :=
  let* f := get_option p 2 in
  match f, k_server k with
  | (Some (m, len), count), None => if count =? 1 then let* s := rd m len in Ret (with_server s k) else Ret k
  | _, _ => Ret k
  end.
(** SOLICITATION, 2395-2454. *)
Definition solicit_case (p : list byte) (k : client) : oc (client * told) :=
  let t := nth 0 p 0 in
  if negb ((t =? 7) || (t =? 2)) then Ret (k, Nothing)
  else
    let* f := get_option p 2 in
    match f with
    | (Some (m, len), count) =>
        if negb (count =? 1) || (len =? 0) then Ret (k, Nothing)
        else
          let* s := rd m len in
          let k := with_server s k in
          let* rapid := (if t =? 7 then
                           let* f := get_option p 14 in
                           Ret (match f with (Some (_, len), count) => negb (len =? 0) && (count =? 1) | _ => false end)
                         else Ret true) in
          if negb rapid then Ret (k, Nothing)
          else
            let k := deaf k in
            let* k := (if k_status k =? 0 then take_request p k else Ret k) in
            Ret (k, if t =? 2 then Advertise else Reply)
    | _ => Ret (k, Nothing)
    end.
(** listener_event with a packet, or with a failed read; 2229-2573. *)
Definition receive (k : client) (r : option (list byte)) : oc (client * told) :=
  if negb (k_listens k) then Ret (k, Nothing)
  else
    let k := with_status 0 k in
    match r with
    | None => Undef (* packet6 is NULL *)
    | Some p =>
        let* h := rd p 4 in
        if negb (be (dropN 1 h) =? k_xid k) then Ret (k, Nothing)
        else
          let* f := get_option p 1 in
          match fst f with
          | None => Ret (k, Nothing)
          | Some (m, len) =>
              if len =? 0 then Ret (k, Nothing)
              else
                let* same := memcmp (k_duid k) m in
                if negb same then Ret (k, Nothing)
                else
                  let* f := get_option p 13 in
                  let* k := (match fst f with
                             | Some (m, len) =>
                                 if len =? 0 then Ret k
                                 else
                                   let* b := rd m 2 in
                                   let* _ := (if negb (be b =? 0) && (2 <? len) then strndup (N.to_nat (len - 2)) (dropN 2 m) else Ret []) in
                                   Ret (with_status (be b) k)
                             | None => Ret k
                             end) in
                  match k_phase k with
                  | Solicitation => solicit_case p k
                  | Rebind => let* k := rebind_case p k in reply_case p k
                  | Replying => reply_case p k
                  end
          end
    end.
