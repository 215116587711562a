(** What should hold of the links of miracle-wifid. *)
From Coq Require Import String.
From Verif Require Import Base Text Setup_Model Link_Model.
Local Open Scope list_scope.

(** ** Which links exist *)
Definition acceptable (c : mgr) (n : list byte) : Prop :=
  (forall r, n <> text "p2p-" ++ r) /\ (forall w, m_iface c = Some w -> w = n).
Definition removes (i : N) (e : event) : Prop := exists name tag ok, e = EUdev Remove i name tag ok.
(** A device was seen with an acceptable name and was not removed since. *)
Definition seen (c : mgr) (i : N) (es : list event) : Prop :=
  exists pre a n tag ok post, es = pre ++ EUdev a i (Some n) tag ok :: post /\ a <> Remove /\ acceptable c n /\ forall e, In e post -> ~ removes i e.
Definition has_link (i : N) (ls : list lnk) : Prop := exists l, In l ls /\ l_ix l = i.
(** Every udev event has the name of its interface. *)
Definition named (es : list event) : Prop := forall a i name tag ok, In (EUdev a i name tag ok) es -> name <> None.
(** With --interface all links have that name. *)
Definition only_chosen (c : mgr) (ls : list lnk) : Prop := forall w l, m_iface c = Some w -> In l ls -> l_ifname l = w.
Definition moves (es : list event) : Prop := exists i name tag ok, In (EUdev Move i name tag ok) es.

(** ** Managed links *)
Definition managed (i : N) (ls : list lnk) : Prop := exists l, In l ls /\ l_ix l = i /\ l_managed l = true.
Definition wants (i : N) (es : list event) : Prop := exists ok, In (ESetManaged i true ok) es.
(** The last word of the user about the link: unmanaged. *)
Definition unwanted (i : N) (es : list event) : Prop :=
  exists pre ok post, es = pre ++ ESetManaged i false ok :: post /\ (forall b ok, ~ In (ESetManaged i b ok) post).

(** What may change whether a link is managed. *)
Definition user_or_udev (i : N) (e : event) : Prop :=
  (exists b ok, e = ESetManaged i b ok) \/ (exists a name tag ok, e = EUdev a i name tag ok).

(** ** Names *)
(** The last device name and subelements a process was told. *)
Fixpoint told_name (cs : list cmd) : option (list byte) :=
  match cs with
  | [] => None
  | CName s :: cs => match told_name cs with Some t => Some t | None => Some s end
  | CSub _ :: cs => told_name cs
  end.
Fixpoint told_sub (cs : list cmd) : option (list byte) :=
  match cs with
  | [] => None
  | CSub s :: cs => match told_sub cs with Some t => Some t | None => Some s end
  | CName _ :: cs => told_sub cs
  end.
(** The last name and subelements a process was told are those of its link. *)
Definition name_right (ls : list lnk) : Prop := forall l p t, In l ls -> l_proc l = Some p -> told_name (p_cmds p) = Some t -> t = or (l_name l) (text "Miracle").
Definition sub_right (ls : list lnk) : Prop := forall l p t, In l ls -> l_proc l = Some p -> told_sub (p_cmds p) = Some t -> t = or (l_wfd l) [].
(** The link is told a name while its process has one and is not ready. *)
Definition in_window (told : list cmd -> option (list byte)) (i : N) (ls : list lnk) : Prop :=
  exists l p, find ls i = Some l /\ l_proc l = Some p /\ told (p_cmds p) <> None /\ u_run (l_su l) = false.
Definition timely (e : event) (ls : list lnk) : Prop :=
  match e with EName i _ => ~ in_window told_name i ls | EWfd i _ => ~ in_window told_sub i ls | _ => True end.
Fixpoint all_timely (c : mgr) (es : list event) (ls : list lnk) : Prop :=
  match es with [] => True | e :: es => timely e ls /\ forall ls', step_link c e ls = Ok ls' -> all_timely c es ls' end.
(** The name of the machine reaches the links. *)
Definition announces_host (c : mgr) (ls : list lnk) : Prop :=
  forall l h, In l ls -> m_host c = Some h -> u_run (l_su l) = true -> l_name l <> None.
(** The process listens where wifid looks for it. *)
Definition same_path (ls : list lnk) : Prop := forall l p, In l ls -> l_proc l = Some p -> l_at l = Some (p_arg p).
(** A link that is not managed has no process. *)
Definition quiet (ls : list lnk) : Prop := forall l, In l ls -> l_managed l = false -> l_proc l = None /\ u_run (l_su l) = false /\ l_at l = None.
(** Names come from the user. *)
Definition from_user (es : list event) (ls : list lnk) : Prop :=
  forall l, In l ls -> (forall n, l_name l = Some n -> In (EName (l_ix l) n) es) /\ (forall v, l_wfd l = Some v -> In (EWfd (l_ix l) v) es).
