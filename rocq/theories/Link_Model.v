(** Model of the links of miracle-wifid: udev events, the choice which links exist
    and which are managed, and the names they give to their wpa_supplicant. The
    setup requests are those of Setup_Model; processes are started and lost at the
    will of the environment (Super_Model says when). *)
From Coq Require Import String.
From Verif Require Import Base Text Setup_Model.
Local Open Scope list_scope.

(** What reaches a wpa_supplicant without a callback: SET device_name,
    WFD_SUBELEM_SET 0. *)
Inductive cmd := CName (s : list byte) | CSub (s : list byte).
(** A running process: its -i argument, the device_name of its configuration, and
    what it was told since. *)
Record proc := mkProc { p_arg : list byte; p_conf : list byte; p_cmds : list cmd }.
(** struct link with its supplicant, wifid.h:165-188, wifid-supplicant.c:76-101:
    [l_at] is the name of the interface in the paths global_ctrl and dev_ctrl,
    [l_conf] the device_name in the file conf_path, [l_up] that supplicant_started
    was called for the process. *)
Record lnk := mkL {
  l_ix : N; l_ifname : list byte; l_public : bool; l_managed : bool; l_name : option (list byte); l_wfd : option (list byte);
  l_su : setup; l_at : option (list byte); l_conf : list byte; l_proc : option proc; l_up : bool }.
(** Host name (never empty), --interface, --lazy-managed, RELY_UDEV. *)
Record mgr := mkMgr { m_host : option (list byte); m_iface : option (list byte); m_lazy : bool; m_rely : bool }.
Definition or {A} (x : option A) (d : A) : A := match x with Some a => a | None => d end.

Fixpoint find (ls : list lnk) (i : N) : option lnk :=
  match ls with [] => None | l :: ls => if l_ix l =? i then Some l else find ls i end.
Definition put (l : lnk) (ls : list lnk) : list lnk := map (fun x => if l_ix x =? l_ix l then l else x) ls.
Definition drop (i : N) (ls : list lnk) : list lnk := filter (fun x => negb (l_ix x =? i)) ls.
Definition upd (i : N) (f : lnk -> lnk) (ls : list lnk) : list lnk := match find ls i with Some l => put (f l) ls | None => ls end.

Definition with_name (n : list byte) (l : lnk) : lnk :=
  mkL (l_ix l) (l_ifname l) (l_public l) (l_managed l) (Some n) (l_wfd l) (l_su l) (l_at l) (l_conf l) (l_proc l) (l_up l).
Definition with_wfd (v : list byte) (l : lnk) : lnk :=
  mkL (l_ix l) (l_ifname l) (l_public l) (l_managed l) (l_name l) (Some v) (l_su l) (l_at l) (l_conf l) (l_proc l) (l_up l).
Definition with_su (u : setup) (l : lnk) : lnk :=
  mkL (l_ix l) (l_ifname l) (l_public l) (l_managed l) (l_name l) (l_wfd l) u (l_at l) (l_conf l) (l_proc l) (l_up l).
Definition with_proc (p : option proc) (up : bool) (l : lnk) : lnk :=
  mkL (l_ix l) (l_ifname l) (l_public l) (l_managed l) (l_name l) (l_wfd l) (l_su l) (l_at l) (l_conf l) p up.
Definition tell (c : cmd) (l : lnk) : lnk :=
  match l_proc l with
  | Some p => with_proc (Some (mkProc (p_arg p) (p_conf p) (p_cmds p ++ [c]))) (l_up l) l
  | None => l
  end.

(** link_set_friendly_name, wifid-link.c:264-289. *)
Definition set_name (n : list byte) (l : lnk) : lnk :=
  match n with
  | [] => l
  | _ => with_name n (if u_run (l_su l) then tell (CName n) l else l)
  end.
(** link_set_wfd_subelements, wifid-link.c:299-327. *)
Definition set_wfd_sub (v : list byte) (l : lnk) : lnk :=
  if l_managed l then with_wfd v (if u_run (l_su l) then tell (CSub v) l else l) else l.
(** supplicant_start, wifid-supplicant.c:2657-2711, where [ok] says that all calls
    succeed, and supplicant_stop, 2713-2752. *)
Definition start_supplicant (l : lnk) : lnk :=
  let conf := or (l_name l) (text "unknown") in
  mkL (l_ix l) (l_ifname l) (l_public l) (l_managed l) (l_name l) (l_wfd l) (l_su l) (Some (l_ifname l)) conf (Some (mkProc (l_ifname l) conf [])) false.
Definition stop_supplicant (l : lnk) : lnk :=
  mkL (l_ix l) (l_ifname l) (l_public l) (l_managed l) (l_name l) (l_wfd l) (failed (l_su l)) None [] None false.
(** link_set_managed, wifid-link.c:214-238. *)
Definition set_managed (ok : bool) (b : bool) (l : lnk) : lnk :=
  if Bool.eqb (l_managed l) b then l
  else if b && negb ok then stop_supplicant l
  else let l := if b then start_supplicant l else stop_supplicant l in
       mkL (l_ix l) (l_ifname l) (l_public l) b (l_name l) (l_wfd l) (l_su l) (l_at l) (l_conf l) (l_proc l) (l_up l).
(** link_renamed, wifid-link.c:240-262. *)
Definition renamed (n : list byte) (l : lnk) : lnk :=
  mkL (l_ix l) n (l_public l) (l_managed l) (l_name l) (l_wfd l) (l_su l) (l_at l) (l_conf l) (l_proc l) (l_up l).
(** link_supplicant_started, wifid-link.c:367-375. *)
Definition supplicant_up (c : mgr) (l : lnk) : lnk :=
  if l_public l then l
  else match m_host c with Some h => if l_managed l then set_name h l else l | None => l end.

Inductive act := Remove | Move | Other.
Inductive event :=
| EUdev (a : act) (i : N) (name : option (list byte)) (tag ok : bool)
| ESetManaged (i : N) (b ok : bool) | EName (i : N) (s : list byte) | EWfd (i : N) (s : list byte)
| EUp (i : N) | EReply (i : N) (a : answer) | EFail (i : N) | ESpawn (i : N).

(** The name is the one of --interface, if there is one: a NULL pointer is undefined
    for strcmp. *)
Definition chosen (c : mgr) (name : option (list byte)) : res bool :=
  match m_iface c with
  | None => Ok true
  | Some w => match name with Some n => Ok (str_eq w n) | None => UB end
  end.
Definition p2p_name (n : list byte) : bool := str_eq (takeN 4 n) (text "p2p-").
(** manager_add_udev_link, wifid.c:84-134, with link_new, wifid-link.c:56-107. *)
Definition add_link (c : mgr) (i : N) (name : option (list byte)) (tag ok : bool) (ls : list lnk) : res (list lnk) :=
  match name with
  | None => Ok ls
  | Some n =>
      do same <- chosen c name;
      if negb same then Ok ls
      else if p2p_name n then Ok ls
      else
        let l := mkL i n true false None None fresh None [] None false in
        let l := match m_host c with Some h => if l_managed l then set_name h l else l | None => l end in
        do managed <- (if m_rely c then Ok (tag && negb (m_lazy c)) else do b <- chosen c name; Ok (b && negb (m_lazy c)));
        Ok (ls ++ [if managed then set_managed ok true l else l])
  end.
(** manager_udev_fn, wifid.c:136-189. *)
Definition udev (c : mgr) (a : act) (i : N) (name : option (list byte)) (tag ok : bool) (ls : list lnk) : res (list lnk) :=
  if i =? 0 then Ok ls
  else
    match find ls i with
    | None => match a with Remove => Ok ls | _ => add_link c i name tag ok ls end
    | Some l =>
        match a with
        | Remove => Ok (drop i ls)
        | _ =>
            let l := match a, name with Move, Some n => renamed n l | _, _ => l end in
            if m_rely c then Ok (put (set_managed ok (tag && negb (m_lazy c)) l) ls)
            else do b <- chosen c name;
                 Ok (put (if b && negb (m_lazy c) then set_managed ok true l else l) ls)
        end
    end.
(** A reply to the first setup request: wifid-supplicant.c:1703-1862, 1642-1701. *)
Definition reply (c : mgr) (a : answer) (l : lnk) : lnk :=
  match u_wait (l_su l) with
  | [] => l
  | k :: _ =>
      let u := l_su l in
      let u' := step u (Reply a) in
      let l := match k with
               | KStatus => if a_p2p a then tell (CName (or (l_name l) (text "Miracle"))) l else l
               | KDisplay => if a_ok a && u_wfd u then tell (CSub (or (l_wfd l) [])) l else l
               | _ => l
               end in
      let l := with_su u' l in
      if negb (u_run u) && u_run u' then supplicant_up c l else l
  end.
Definition step_link (c : mgr) (e : event) (ls : list lnk) : res (list lnk) :=
  match e with
  | EUdev a i name tag ok => udev c a i name tag ok ls
  | ESetManaged i b ok => Ok (upd i (set_managed ok b) ls)
  | EName i s => Ok (upd i (set_name s) ls)
  | EWfd i s => Ok (upd i (set_wfd_sub s) ls)
  | EUp i => Ok (upd i (fun l => match l_proc l with
                                 | Some _ => if l_up l then l else with_su (started (l_su l)) (with_proc (l_proc l) true l)
                                 | None => l end) ls)
  | EReply i a => Ok (upd i (fun l => match l_proc l with Some _ => reply c a l | None => l end) ls)
  | EFail i => Ok (upd i (fun l => match l_proc l with Some _ => with_su (failed (l_su l)) (with_proc None false l) | None => l end) ls)
  | ESpawn i => Ok (upd i (fun l => match l_at l, l_proc l with
                                    | Some _, None => with_proc (Some (mkProc (l_ifname l) (l_conf l) [])) false l
                                    | _, _ => l end) ls)
  end.
Fixpoint run_links (c : mgr) (es : list event) (ls : list lnk) : res (list lnk) :=
  match es with [] => Ok ls | e :: es => do ls <- step_link c e ls; run_links c es ls end.
