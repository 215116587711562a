(** Model of MAC addresses in text, src/shared/util.h:135-145, of the messages of
    miracle-dhcp, src/dhcp/dhcp.c:98-139, 281-377 and 670-697, with ether_ntoa as used in
    src/dhcp/server.c:622-625, and of what wifid makes of them,
    src/wifi/wifid-supplicant.c:130-141 and 231-338. Texts are lists of characters
    without the terminator. Memory can be allocated and messages are not lost. *)
From Coq Require Import String.
From Verif Require Import Base Text.

Definition is_space (c : byte) : bool := (c =? 32) || ((9 <=? c) && (c <=? 13)).
Definition hex_val (c : byte) : option N :=
  if (48 <=? c) && (c <=? 57) then Some (c - 48)
  else if (97 <=? c) && (c <=? 102) then Some (c - 87)
  else if (65 <=? c) && (c <=? 70) then Some (c - 55)
  else None.
Fixpoint skip_space (s : list byte) : list byte :=
  match s with c :: t => if is_space c then skip_space t else s | [] => [] end.
(** %2hhx of sscanf: white space is skipped, a sign counts as one of the two characters,
    "0x" is a 0. The value and what is left. *)
Definition scan_hex (s : list byte) : option (N * list byte) :=
  match skip_space s with
  | [] => None
  | c :: t =>
      if (c =? 45) || (c =? 43) then
        match t with
        | [] => None
        | d :: t =>
            match hex_val d with
            | None => None
            | Some a => Some ((if c =? 45 then 256 - a else a) mod 256, t)
            end
        end
      else
        match hex_val c with
        | None => None
        | Some a =>
            match t with
            | [] => Some (a, [])
            | d :: t' =>
                if (c =? 48) && ((d =? 120) || (d =? 88)) then Some (0, t')
                else match hex_val d with None => Some (a, t) | Some b => Some (16 * a + b, t') end
            end
        end
  end.
(** sscanf of [n] numbers with ':' between them; all are 0 before. *)
Fixpoint scan_mac (n : nat) (s : list byte) : list N :=
  match n with
  | O => []
  | S n =>
      match scan_hex s with
      | None => repeat 0 (S n)
      | Some (x, s) =>
          x :: match s with c :: s => if c =? 58 then scan_mac n s else repeat 0 n | [] => repeat 0 n end
      end
  end.
Definition digit (d : N) : byte := if d <? 10 then 48 + d else 87 + d.
Fixpoint join (l : list (list byte)) : list byte :=
  match l with [] => [] | [x] => x | x :: l => x ++ 58 :: join l end.
(** reformat_mac, src/shared/util.h:137-145; MAC_STRLEN is 18. *)
Definition reformat_mac (src : list byte) : res (list byte) :=
  let out := join (map (fun x => [digit (x / 16); digit (x mod 16)]) (scan_mac 6 src)) in
  if lenN out + 1 <=? 18 then Ok out else UB.
(** ether_ntoa: %x of each byte. *)
Definition ether_ntoa (mac : list N) : list byte :=
  join (map (fun x => if x <? 16 then [digit x] else [digit (x / 16); digit (x mod 16)]) mac).

(** ** miracle-dhcp *)
(** A lease as the client tells it: the address and the values of three options. *)
Record lease := mkLease { l_addr : option (list byte); l_subnet : list (list byte); l_dns : list (list byte); l_router : list (list byte) }.
(** struct manager, src/dhcp/dhcp.c:84-96: client_addr; if the main loop runs. *)
Record client := mkClient { c_addr : option (list byte); c_runs : bool }.
Definition new_client : client := mkClient None true.
Definition same (a : option (list byte)) (b : list byte) : bool :=
  match a with Some a => if list_eq_dec N.eq_dec a b then true else false | None => false end.
(** client_lease_fn, src/dhcp/dhcp.c:281-356; [flush] and [add]: setting the address of the
    interface succeeds. The messages sent. *)
Definition lease_fn (c : client) (l : lease) (flush add : bool) : client * list (list byte) :=
  match l_addr l with
  | None => (mkClient (c_addr c) false, [])
  | Some addr =>
      let subnet := match l_subnet l with s :: _ => s | [] => text "24" end in
      let a := addr ++ 47 :: subnet in
      if same (c_addr c) a then (c, [])
      else if negb flush then (mkClient (Some a) false, [])
      else if negb add then (mkClient (Some a) false, [])
      else
        (mkClient (Some a) (c_runs c),
         [text "L:" ++ addr; text "S:" ++ subnet]
         ++ match l_dns l with d :: _ => [text "D:" ++ d] | [] => [] end
         ++ match l_router l with g :: _ => [text "G:" ++ g] | [] => [] end)
  end.
Fixpoint leases (c : client) (ls : list (lease * (bool * bool))) : client * list (list byte) :=
  match ls with
  | [] => (c, [])
  | (l, (f, a)) :: ls =>
      if c_runs c then let '(c, m) := lease_fn c l f a in let '(c, n) := leases c ls in (c, m ++ n) else (c, [])
  end.
(** The server: manager_run, src/dhcp/dhcp.c:692, and server_event_fn, 373-377. *)
Definition server_up (local : list byte) : list byte := text "L:" ++ local.
Definition server_event (mac : list N) (ip : list byte) : list byte := text "R:" ++ ether_ntoa mac ++ text " " ++ ip.

(** ** wifid *)
(** A peer of the link: p2p_mac; sta_mac; if it is in the group and if it is g->sp;
    remote_addr; if it was reported connected. *)
Record peer := mkPeer { q_mac : list byte; q_sta : option (list byte); q_in : bool; q_owner : bool; q_remote : option (list byte); q_conn : bool }.
(** A group: local_addr, and the peers in the order of the table. *)
Record grp := mkGrp { g_local : option (list byte); g_peers : list peer }.
Definition set_remote (a : list byte) (p : peer) : peer := mkPeer (q_mac p) (q_sta p) (q_in p) (q_owner p) (Some a) (q_conn p).
Definition set_conn (p : peer) : peer := mkPeer (q_mac p) (q_sta p) (q_in p) (q_owner p) (q_remote p) true.
Definition set_in (p : peer) : peer := mkPeer (q_mac p) (q_sta p) true (q_owner p) (q_remote p) (q_conn p).
Fixpoint first (f : peer -> bool) (u : peer -> peer) (l : list peer) : list peer :=
  match l with [] => [] | p :: l => if f p then u p :: l else p :: first f u l end.
Fixpoint cstr (s : list byte) : list byte := match s with [] => [] | c :: t => if c =? 0 then [] else c :: cstr t end.
Definition eq_text (a b : list byte) : bool := if list_eq_dec N.eq_dec a b then true else false.
(** find_peer_by_any_mac, src/wifi/wifid-supplicant.c:130-141. *)
Definition has_mac (mac : list byte) (p : peer) : bool :=
  eq_text (q_mac p) mac || match q_sta p with Some s => eq_text s mac | None => false end.
(** strchr of a space: before and after. *)
Fixpoint split_space (s : list byte) : option (list byte * list byte) :=
  match s with
  | [] => None
  | c :: t => if c =? 32 then Some ([], t) else match split_space t with Some (a, b) => Some (c :: a, b) | None => None end
  end.
Definition get (b : list byte) (i : N) : res byte := match nth_error b (N.to_nat i) with Some c => Ok c | None => UB end.
(** Reports of src/wifi/wifid-supplicant.c:318-331. *)
Definition report (g : grp) : grp :=
  match g_local g with
  | None => g
  | Some _ =>
      let done p := match q_remote p with Some _ => set_conn p | None => p end in
      if existsb q_owner (g_peers g) then mkGrp (g_local g) (first q_owner done (g_peers g))
      else mkGrp (g_local g) (map (fun p => if q_in p then done p else p) (g_peers g))
  end.
(** supplicant_group_comm_fn, src/wifi/wifid-supplicant.c:231-338, for a message; the buffer
    holds 511 characters and a terminator. [None]: the group is freed. *)
Definition comm_fn (g : grp) (msg : list byte) : res (option grp) :=
  match msg with
  | [] => Ok None
  | _ =>
      let buf := takeN 511 msg ++ [0] in
      let l := lenN (takeN 511 msg) in
      do skip <- (if l <? 3 then Ok true
                  else do c <- get buf 1; if negb (c =? 58) then Ok true else do d <- get buf 2; Ok (d =? 0));
      if skip then Ok (Some g)
      else
        let t := cstr (dropN 2 buf) in
        do k <- get buf 0;
        do g <- (if k =? 76 then Ok (mkGrp (Some t) (g_peers g))
                 else if k =? 71 then Ok (mkGrp (g_local g) (first q_owner (set_remote t) (g_peers g)))
                 else if k =? 82 then
                   match split_space t with
                   | Some ((_ :: _) as m, (_ :: _) as ip) =>
                       do mac <- reformat_mac m;
                       Ok (mkGrp (g_local g) (first (has_mac mac) (set_remote ip) (g_peers g)))
                   | _ => Ok g
                   end
                 else Ok g);
        Ok (Some (report g))
  end.
(** A message, or a peer joins the group: supplicant_peer_set_group,
    src/wifi/wifid-supplicant.c:614-626. *)
Inductive event := Msg (m : list byte) | Join (mac : list byte).
Definition step (g : grp) (e : event) : res (option grp) :=
  match e with
  | Msg m => comm_fn g m
  | Join mac => Ok (Some (mkGrp (g_local g) (first (fun p => eq_text (q_mac p) mac) set_in (g_peers g))))
  end.
Fixpoint run (g : grp) (es : list event) : res (option grp) :=
  match es with
  | [] => Ok (Some g)
  | e :: es => do o <- step g e; match o with None => Ok None | Some g => run g es end
  end.
