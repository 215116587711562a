(** What is expected of the requests for a lease that is held. *)
From Verif Require Import Base DhcpClient_Model DhcpClient_Spec.

(** The lease the user was told of: when, for which address and how many seconds, and
    when it was last renewed by a request to the server and to everybody. *)
Record held := Held { h_at : N; h_ip : N; h_len : N; h_renew : option N; h_rebind : option N }.
Definition held_step (v : option held) (e : N * event) : option held :=
  match snd e with
  | Available ip l => Some (Held (fst e) ip l None None)
  | Lost | Stop => None
  | Request _ _ (Some _) u =>
      match v with
      | Some v => Some (if u then Held (h_at v) (h_ip v) (h_len v) (Some (fst e)) (h_rebind v)
                        else Held (h_at v) (h_ip v) (h_len v) (h_renew v) (Some (fst e)))
      | None => None
      end
  | _ => v
  end.
Definition lease_of (h : history) : option held := fold_left held_step h None.
(** Half and seven eighths of the time. *)
Definition half (v : held) : N := h_at v + h_len v / 2 * 1000.
Definition seven_eighths (v : held) : N := h_at v + h_len v * 7 / 8 * 1000.

(** Every event fits the lease held before it. *)
Definition every (P : option held -> N * event -> Prop) (h : history) : Prop :=
  forall h1 e h2, h = h1 ++ e :: h2 -> P (lease_of h1) e.
(** A request with a client address is for a lease that is held, to the server after half
    of the time and to everybody after seven eighths of it. *)
Definition on_time (v : option held) (e : N * event) : Prop :=
  match snd e with
  | Request asked server (Some _) u =>
      asked = None /\ server = None /\ exists v', v = Some v' /\ (if u then half v' else seven_eighths v') <= fst e
  | _ => True
  end.
(** Two requests to the same destination are a minute apart, as RFC 2131 section 4.4.5 asks. *)
Definition spaced (small : N) (v : option held) (e : N * event) : Prop :=
  match snd e, v with
  | Request _ _ (Some _) u, Some v =>
      h_len v < small -> forall t, (if u then h_renew v else h_rebind v) = Some t -> t + 60000 <= fst e
  | _, _ => True
  end.
(** Renewed and released is the address the user was told. *)
Definition same_address (v : option held) (e : N * event) : Prop :=
  match snd e with
  | Request _ _ (Some a) _ | Release _ a => exists v', v = Some v' /\ h_ip v' = a
  | _ => True
  end.
(** The address last requested. *)
Definition asked_step (x : option N) (e : N * event) : option N :=
  match snd e with
  | Request (Some a) _ _ _ | Request None _ (Some a) _ => Some a
  | _ => x
  end.
Definition asked (h : history) : option N := fold_left asked_step h None.
(** Servers acknowledge the address requested. *)
Definition honest : rule := fun c _ _ o =>
  match o with
  | ORecv p => p_type p = Some 5 -> asked (log c) = Some (p_yiaddr p)
  | _ => True
  end.
