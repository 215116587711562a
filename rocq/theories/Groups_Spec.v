(** What is expected of P2P groups. *)
From Verif Require Import Base Groups_Model.

(** Members of a group, and those that do not own it. *)
Definition in_group (gid : N) (p : peer) : bool := match p_g p with Some m => m =? gid | None => false end.
Definition members (gid : N) (ps : list peer) : N := lenN (filter (in_group gid) ps).
Definition owns (g : group) (p : peer) : bool := match g_sp g with Some o => o =? p_id p | None => false end.
Definition others (g : group) (ps : list peer) : N := lenN (filter (fun p => in_group (g_id g) p && negb (owns g p)) ps).

(** Every group that a peer refers to exists. *)
Definition no_dangling (s : st) : Prop := forall p gid, In p (s_peers s) -> p_g p = Some gid -> exists g, In g (s_groups s) /\ g_id g = gid.
(** The owner that a group refers to does not exist any more. *)
Definition owner_gone (s : st) (g : group) : Prop := exists o, g_sp g = Some o /\ forall p, In p (s_peers s) -> p_id p <> o.
(** Tearing down [g] drops its last user while it is already being freed. *)
Definition torn_twice (s : st) (g : group) : Prop := 0 < g_users g /\ g_users g <= others g (s_peers s).
(** The events with undefined behaviour. *)
Definition bad (s : st) (e : event) : Prop :=
  match e with
  | Removed ifn => exists g, In g (s_groups s) /\ g_if g = ifn /\ torn_twice s g
  | DhcpExit id => exists g, In g (s_groups s) /\ g_id g = id /\ torn_twice s g
  | DhcpLine id l => exists g, In g (s_groups s) /\ g_id g = id /\ owner_gone s g /\ (l = G \/ l = L \/ g_local g = true)
  | _ => False
  end.
(** [g] is gone, its members left, the rest is as before. *)
Definition torn_down (s s' : st) (g : group) : Prop :=
  (forall h, In h (s_groups s') <-> In h (s_groups s) /\ g_id h <> g_id g)
  /\ (forall p, In p (s_peers s') <-> exists q, In q (s_peers s) /\
        p = if in_group (g_id g) q then mkPeer (p_id q) (p_mac q) None false false else q).
(** A subnet that no group has. *)
Definition free_subnet (s : st) (n : N) : Prop := 50 <= n < 256 /\ forall g, In g (s_groups s) -> g_subnet g <> n.
(** The owner of the group that sends a line is in that group. *)
Definition owners_in (es : list event) : Prop := forall es1 id l es2 s g o, es = es1 ++ DhcpLine id l :: es2 -> run init es1 = Ret s ->
  In g (s_groups s) -> g_id g = id -> g_sp g = Some o -> exists p, In p (s_peers s) /\ p_id p = o /\ p_g p = Some id.
