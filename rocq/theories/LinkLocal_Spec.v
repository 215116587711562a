(** What a link-local address client (RFC 3927) owes to its user and to the network. *)
From Verif Require Import Base LinkLocal_Model.

(** ** Reachable clients *)
Definition rule := env -> op -> client -> Prop.
Inductive runs (P : rule) : client -> Prop :=
| runs_new : runs P fresh_client
| runs_step c e o : runs P c -> P e o c -> runs P (step e o c).
(** 169.254.1.0 to 169.254.254.255 *)
Definition link_local (ip : N) : Prop := 0xa9fe0100 <= ip <= 0xa9fefeff.
(** ipv4ll_random_ip is link-local (theorem C53), the socket can be opened and does not
    fail. *)
Definition sockets : rule := fun e o _ => link_local (e_ip e) /\ e_sock e = true /\ o <> OError.
(** Timers run when due. *)
Definition in_time : rule := fun _ o c =>
  match o with OWait ms => Forall (fun s => now c + ms <= s_due s) (srcs c) | _ => True end.
Definition both (P Q : rule) : rule := fun e o c => P e o c /\ Q e o c.
Definition caught_up (c : client) : Prop := Forall (fun s => now c < s_due s) (srcs c).

(** ** Reading a history *)
Definition history := list (N * event).
(** An ARP packet naming the address; one whose sender uses it. *)
Definition names (ip o s g : N) : bool := ((o =? 1) || (o =? 2)) && ((s =? ip) || (g =? ip)).
Definition uses (ip o s : N) : bool := ((o =? 1) || (o =? 2)) && (s =? ip).
(** The address tried or held, the last time the client had to begin from scratch, the
    address held, the last announcement since then, packets naming the address tried, and
    whether the client is to find an address. *)
Record view := View {
  cand : option N; since : N; held : option N; defence : option N; hits : N; on : bool }.
Definition look (v : view) (x : N * event) : view :=
  let (t, e) := x in
  match e with
  | Start => View None t None None (hits v) true
  | Stop => View None t None None (hits v) false
  | Probe ip => View (Some ip) (since v) (held v) (defence v) (hits v) (on v)
  | Announce _ => View (cand v) (since v) (held v) (Some t) (hits v) (on v)
  | Available ip => View (cand v) (since v) (Some ip) None (hits v) (on v)
  | Lost => View None t None None (hits v) (on v)
  | NoLease => View (cand v) (since v) (held v) (defence v) (hits v) false
  | Wire o s g =>
      match cand v with
      | Some ip =>
          if names ip o s g then
            match held v with
            | Some _ => View (cand v) (since v) (held v) (defence v) (hits v + 1) (on v)
            | None => View None t None (defence v) (hits v + 1) (on v)
            end
          else v
      | None => v
      end
  end.
Definition seen (h : history) : view := fold_left look h (View None 0 None None 0 false).

(** ** Claiming an address *)
(** After [n] of the five packets (three probes, two announcements) for [ip], the last at
    [t], and nobody else named the address since the first. *)
Inductive claiming (ip : N) : N -> N -> history -> Prop :=
| claim_first t h : claiming ip 1 t (h ++ [(t, Probe ip)])
| claim_quiet n t h t' o s g : claiming ip n t h -> names ip o s g = false ->
    claiming ip n t (h ++ [(t', Wire o s g)])
| claim_probe n t h t' : claiming ip n t h -> n < 3 -> t + 1000 <= t' ->
    claiming ip (n + 1) t' (h ++ [(t', Probe ip)])
| claim_announce n t h t' : claiming ip n t h -> 3 <= n < 5 -> t + 2000 <= t' ->
    claiming ip (n + 1) t' (h ++ [(t', Announce ip)]).
Definition claimed (h : history) : Prop :=
  forall h1 t ip h2, h = h1 ++ (t, Available ip) :: h2 ->
    link_local ip /\ exists t5, claiming ip 5 t5 h1 /\ t5 + 2000 <= t.

(** ** Losing it *)
(** Only when somebody uses the address within ten seconds after it was defended. *)
Definition lost_rightly (h : history) : Prop :=
  forall h1 t h2, h = h1 ++ (t, Lost) :: h2 ->
    exists h0 o g ip t', h1 = h0 ++ [(t, Wire o ip g)] /\ (o = 1 \/ o = 2) /\
      held (seen h0) = Some ip /\ defence (seen h0) = Some t' /\ t <= t' + 10000.

(** What the client does, apart from what others do. *)
Definition own (x : N * event) : bool := match snd x with Wire _ _ _ => false | _ => true end.
Definition call (o : op) : bool := match o with OStart | OStop => true | _ => false end.
(** Histories as lists of operations. *)
Fixpoint obeys (P : rule) (os : list (env * op)) (c : client) : Prop :=
  match os with
  | [] => True
  | (e, o) :: os => P e o c /\ obeys P os (step e o c)
  end.
Definition is_avail (x : N * event) : bool := match snd x with Available _ => true | _ => false end.
Definition gave_up (x : N * event) : bool := match snd x with NoLease => true | _ => false end.
Definition started (x : N * event) : bool := match snd x with Start => true | _ => false end.
(** Somebody else uses the address. *)
Definition used (ip : N) (x : N * event) : bool := match snd x with Wire o s _ => uses ip o s | _ => false end.
