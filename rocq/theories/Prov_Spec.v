(** What is expected of connecting to peers. *)
From Coq Require Import String.
From Verif Require Import Base Text Comm_Model Comm_Spec Prov_Model.
Local Open Scope list_scope.

(** Addresses as wpa_supplicant writes them. *)
Definition address (t : list byte) : Prop := exists m, is_mac m /\ t = canon m.
Definition address_if (t : option (list byte)) : Prop := match t with Some t => address t | None => True end.
(** Events of wpa_supplicant name devices by their addresses. *)
Definition proper (e : event) : Prop :=
  match e with
  | Found d a => address_if d /\ address_if a
  | Reply a | Lost a | PbcReq a | ShowPin a _ | EnterPin a | NegRequest a _ | NegSuccess a _ | StaConnected a _ _ | StaDisconnected a => address_if a
  | _ => True
  end.
(** The device was found or reported, and not lost since. *)
Definition tells (mac : list byte) (e : event) : Prop := (exists a, e = Found (Some mac) a) \/ e = Reply (Some mac).
Definition there (h : list event) (mac : list byte) : Prop :=
  exists h1 e h2, h = h1 ++ e :: h2 /\ tells mac e /\ ~ In (Lost (Some mac)) h2 /\ ~ In Stopped h2.
(** P2P-DEVICE-FOUND comes from the device itself. *)
Definition direct (e : event) : Prop := match e with Found d a => d = a | _ => True end.

(** What one peer asked for last: the method, with the PIN it wants shown. [None]: the peer
    is not known. *)
Definition ask : Type := option (list byte * option (list byte)).
Record view := mkView { v_run : bool; v_ask : option ask }.
Definition mine (mac : list byte) (t : option (list byte)) : bool := match t with Some t => if list_eq_dec N.eq_dec t mac then true else false | None => false end.
Definition asks (mac : list byte) (t : option (list byte)) (w : ask) (v : view) : view :=
  if mine mac t then mkView (v_run v) (match v_ask v with Some _ => Some w | None => None end) else v.
Definition arrives (mac : list byte) (t : option (list byte)) (v : view) : view :=
  if mine mac t then mkView (v_run v) (match v_ask v with Some w => Some w | None => Some None end) else v.
Definition sees (mac : list byte) (v : view) (e : event) : view :=
  match e with
  | Found (Some _) a | Reply a => arrives mac a v
  | Lost a => if mine mac a then mkView (v_run v) None else v
  | PbcReq a => asks mac a (Some (text "pbc", None)) v
  | ShowPin a (Some t) => asks mac a (Some (text "display", Some t)) v
  | EnterPin a => asks mac a (Some (text "pin", None)) v
  | NegRequest a _ => if mine mac a then mkView (v_run v) (match v_ask v with Some None => Some (Some (text "pbc", None)) | w => w end) else v
  | Disconnect a => if v_run v then asks mac (Some a) None v else v
  | Ready _ => mkView true (v_ask v)
  | Stopped => mkView false None
  | _ => v
  end.
Definition view_of (mac : list byte) (h : list event) : view := fold_left (sees mac) h (mkView false None).

(** What Connect asks wpa_supplicant for: [None] is an invalid call. The caller may leave
    the method (as "" or "auto") and the PIN (as "") to what the peer asked for. *)
Inductive method_is (w : ask) : list byte -> list byte -> Prop :=
| MGiven t : t <> [] -> t <> text "auto" -> method_is w t t
| MAsked t m pin : t = [] \/ t = text "auto" -> w = Some (m, pin) -> method_is w t m
| MDefault t : t = [] \/ t = text "auto" -> w = None -> method_is w t (text "pbc").
Inductive pin_is (w : ask) : list byte -> option (list byte) -> Prop :=
| NGiven t : t <> [] -> pin_is w t (Some t)
| NShown m p : w = Some (m, Some p) -> p <> [] -> pin_is w [] (Some p)
| NNone : (forall m p, w = Some (m, Some p) -> p = []) -> pin_is w [] None.
Inductive request (mac method : list byte) : option (list byte) -> option (list (list byte)) -> Prop :=
| RPbc pin : method = text "pbc" -> request mac method pin (Some [text "P2P_CONNECT"; mac; text "pbc"])
| RPin p : In method [text "display"; text "pin"; text "keypad"] -> request mac method (Some p) (Some [text "P2P_CONNECT"; mac; p; method])
| RNoPin : In method [text "display"; text "pin"; text "keypad"] -> request mac method None None
| RUnknown pin : ~ In method [text "pbc"; text "display"; text "pin"; text "keypad"] -> request mac method pin None.

(** What ends an attempt to connect to a device. *)
Definition ends (mac : list byte) (e : event) : Prop :=
  match e with
  | Lost (Some a) | StaDisconnected (Some a) => a = mac
  | NegFailure | FormFailure | Stopped | StartScan _ => True
  | _ => False
  end.
(** An attempt was made and nothing of that happened since. *)
Definition tried (h : list event) (mac : list byte) : Prop :=
  exists h1 prov pin h2 s1 o1 s2 o2, h = h1 ++ Connect mac prov pin 0 :: h2 /\ run init h1 = Ret (s1, o1) /\ step s1 (Connect mac prov pin 0) = Ret (s2, o2)
    /\ (exists w, In (Send w) o2) /\ Forall (fun e => ~ ends mac e) h2.
(** Numbers of requests to connect to a device and of failures told. *)
Definition count (f : out -> bool) (o : list out) : N := lenN (filter f o).
Definition is_request (mac : list byte) (o : out) : bool :=
  match o with Send (c :: m :: _) => (if list_eq_dec N.eq_dec c (text "P2P_CONNECT") then true else false) && (if list_eq_dec N.eq_dec m mac then true else false) | _ => false end.
Definition is_failure (mac : list byte) (o : out) : bool := match o with Failed m _ => if list_eq_dec N.eq_dec m mac then true else false | _ => false end.
(** What a user takes for an attempt that is going on: it was asked for, and neither has it
    failed nor did the device leave nor did the user disconnect. *)
Definition over (mac : list byte) (e : event) : Prop :=
  match e with
  | Lost (Some a) | StaDisconnected (Some a) => a = mac
  | Disconnect a => a = mac
  | NegFailure | FormFailure | Stopped => True
  | _ => False
  end.
Definition going (h : list event) (mac : list byte) : Prop :=
  exists h1 prov pin h2 s1 o1 s2 o2, h = h1 ++ Connect mac prov pin 0 :: h2 /\ run init h1 = Ret (s1, o1) /\ step s1 (Connect mac prov pin 0) = Ret (s2, o2)
    /\ (exists w, In (Send w) o2) /\ Forall (fun e => ~ over mac e) h2.
(** The device an attempt is recorded for. *)
Definition pend (s : st) : option (list byte) := match s_pending s with Some id => match at_id s id with Some p => Some (p_mac p) | None => None end | None => None end.

(** ** A client that follows the signals *)
(** [None]: the device is not on the bus; else what is known of whether it is connected.
    A device comes with its properties, which the client may or may not read. *)
Definition known : Type := option (option bool).
Definition same (a b : list byte) : bool := if list_eq_dec N.eq_dec a b then true else false.
(** [None]: the signal makes no sense. *)
Definition hears (mac : list byte) (w : known) (o : out) : option known :=
  match o with
  | Added m => if same m mac then match w with None => Some (Some None) | Some _ => None end else Some w
  | Removed m => if same m mac then match w with Some (Some true) | None => None | Some _ => Some None end else Some w
  | Connected m b =>
      if same m mac then
        match w with
        | None => None
        | Some (Some c) => if Bool.eqb b c then None else Some (Some (Some b))
        | Some None => Some (Some (Some b))
        end
      else Some w
  | Asked m _ _ | Wanted m _ _ | Failed m _ => if same m mac then match w with Some _ => Some w | None => None end else Some w
  | Send _ | Returns _ | NoObject => Some w
  end.
Fixpoint follow (mac : list byte) (w : known) (l : list out) : option known :=
  match l with [] => Some w | o :: l => match hears mac w o with Some w => follow mac w l | None => None end end.
Definition knows (w : known) (v : option bool) : Prop :=
  match w, v with None, None => True | Some k, Some c => k = None \/ k = Some c | _, _ => False end.
Definition on_bus (s : st) (mac : list byte) : option bool := match object s mac with Some p => Some (p_conn p) | None => None end.

(** Whether wpa_supplicant runs, and with P2P. *)
Definition runs (h : list event) : option bool :=
  fold_left (fun r e => match e with Ready p2p => match r with Some _ => r | None => Some p2p end | Stopped => None | _ => r end) h None.
