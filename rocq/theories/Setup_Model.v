(** Model of the setup requests to a supplicant process,
    src/wifi/wifid-supplicant.c:1529-1923 and 2346-2384. Requests can be allocated
    and queued; the process layer (spawning, timers, attaching) is not modelled:
    [Started] stands for the call of supplicant_started after the connection was
    attached, [Failed] for supplicant_failed. Replies come in the order of the
    requests (C28). Requests without callback are left out. *)
From Verif Require Import Base.

(** The setup requests by their callbacks: supplicant_status_fn,
    supplicant_p2p_set_disallow_freq_fn, supplicant_init_p2p_peer_fn,
    supplicant_set_wifi_display_fn. *)
Inductive kind := KStatus | KFreq | KPeer | KDisplay.
(** The setup members of struct supplicant, src/wifi/wifid-supplicant.c:76-101, and
    the unanswered requests. *)
Record setup := mkSetup { u_cnt : N; u_p2p : bool; u_wfd : bool; u_run : bool; u_wait : list kind }.
Definition fresh : setup := mkSetup 0 false false false [].

(** What matters of a reply: the P2P state of a STATUS is present and not
    DISABLED; it has a wifi_display entry; it is OK; a P2P_PEER reply is the end of
    the list, an entry or not readable. *)
Inductive peer_reply := PEnd | PMore | PBad.
Record answer := mkAnswer { a_p2p : bool; a_wfd : bool; a_ok : bool; a_peer : peer_reply }.

Definition set_cnt (u : setup) (n : N) : setup := mkSetup n (u_p2p u) (u_wfd u) (u_run u) (u_wait u).
Definition set_wait (u : setup) (l : list kind) : setup := mkSetup (u_cnt u) (u_p2p u) (u_wfd u) (u_run u) l.
Definition set_wfd (u : setup) (b : bool) : setup := mkSetup (u_cnt u) (u_p2p u) b (u_run u) (u_wait u).
Definition set_p2p (u : setup) (b : bool) : setup := mkSetup (u_cnt u) b (u_wfd u) (u_run u) (u_wait u).
(** ++s->setup_cnt and a request; --s->setup_cnt of a size_t. *)
Definition request (u : setup) (k : kind) : setup := set_wait (set_cnt u (wrap64 (u_cnt u + 1))) (u_wait u ++ [k]).
Definition answered (u : setup) : setup := set_cnt u (wrap64 (u_cnt u + (two64 - 1))).

(** supplicant_try_ready, src/wifi/wifid-supplicant.c:1529-1548. *)
Definition try_ready (u : setup) : setup :=
  if u_run u then u
  else if 0 <? u_cnt u then u
  else let u := if u_p2p u then u else set_wfd u false in mkSetup (u_cnt u) (u_p2p u) (u_wfd u) true (u_wait u).
(** supplicant_status_fn, src/wifi/wifid-supplicant.c:1703-1862. *)
Definition status_fn (u : setup) (a : answer) : setup :=
  let u := answered u in
  let u := if a_p2p a then request (request (set_p2p u true) KFreq) KPeer else u in
  let u := if a_wfd a && u_p2p u then request (set_wfd u true) KDisplay else u in
  try_ready u.
(** supplicant_p2p_set_disallow_freq_fn, src/wifi/wifid-supplicant.c:1550-1564. *)
Definition freq_fn (u : setup) (a : answer) : setup := try_ready (answered u).
(** supplicant_init_p2p_peer_fn, src/wifi/wifid-supplicant.c:1566-1640. *)
Definition peer_fn (u : setup) (a : answer) : setup :=
  let u := answered u in
  try_ready (match a_peer a with PMore => request u KPeer | _ => u end).
(** supplicant_set_wifi_display_fn, src/wifi/wifid-supplicant.c:1642-1701. *)
Definition display_fn (u : setup) (a : answer) : setup :=
  let u := answered u in
  try_ready (if a_ok a then u else set_wfd u false).
(** supplicant_started, src/wifi/wifid-supplicant.c:1864-1899. *)
Definition started (u : setup) : setup := try_ready (request u KStatus).
(** supplicant_failed and supplicant_stopped,
    src/wifi/wifid-supplicant.c:2346-2384 and 1901-1923: the connection is closed
    with its requests. *)
Definition failed (u : setup) : setup := mkSetup (u_cnt u) (u_p2p u) (u_wfd u) false [].

Inductive event := Started | Reply (a : answer) | Failed.
Definition step (u : setup) (e : event) : setup :=
  match e with
  | Started => started u
  | Failed => failed u
  | Reply a =>
      match u_wait u with
      | [] => u
      | k :: l =>
          let u := set_wait u l in
          match k with
          | KStatus => status_fn u a
          | KFreq => freq_fn u a
          | KPeer => peer_fn u a
          | KDisplay => display_fn u a
          end
      end
  end.
Definition run (u : setup) (es : list event) : setup := fold_left step es u.
