(** Model of wpa_supplicant control messages, src/shared/wpas.c:115-832. Memory
    allocation succeeds. A C string is the list of its bytes before the
    terminating 0. Peers are not modelled beyond whether one is set. *)
From Coq Require Import String.
From Verif Require Import Base Text Qstr_Model Split_Model.
From Verif Require Export RtspMsg_Model.
Local Open Scope list_scope.

Inductive wtype := WUnknown | WEvent | WRequest | WReply.
(** struct wpas_message, src/shared/wpas.c:52-80, without the queue members. The
    argument vector holds the name, if there is one, in front. *)
Record wmsg := mkWmsg {
  w_type : wtype; w_name : option (list byte); w_level : N; w_argv : list (list byte); w_iter : N;
  w_raw : option (list byte); w_rawlen : N; w_ifname : option (list byte); w_sealed : bool; w_peer : bool }.

(** wpas_message_new, src/shared/wpas.c:118-151, and the type set by its callers. *)
Definition wnew (ty : wtype) (name : option (list byte)) (level : N) : wmsg :=
  match name with
  | Some n => mkWmsg ty name level [n] 1 None 0 None false false
  | None => mkWmsg ty None level [] 0 None 0 None false false
  end.
(** wpas_message_new_event, _new_request and _new_reply,
    src/shared/wpas.c:153-212. *)
Definition new_event (name : list byte) (level : N) : wmsg + err :=
  match name with [] => inr EINVAL | _ => inl (wnew WEvent (Some name) level) end.
Definition new_wrequest (name : list byte) : wmsg + err :=
  match name with [] => inr EINVAL | _ => inl (wnew WRequest (Some name) 0) end.
Definition new_wreply : wmsg := wnew WReply None 0.

(** ** Numbers *)
(** "%" PRId32 and "%" PRIu32. *)
Definition dec_z (z : Z) : list byte :=
  match z with Zneg p => 45 :: dec (Npos p) | _ => dec (Z.to_N z) end.
(** isspace in the C locale. *)
Definition space (c : byte) : bool := (c =? 32) || (9 <=? c) && (c <=? 13).
Fixpoint skip_space (s : list byte) : list byte :=
  match s with c :: t => if space c then skip_space t else s | [] => [] end.
Definition is_digit (c : byte) : bool := (48 <=? c) && (c <=? 57).
Fixpoint digits (s : list byte) (acc : N) : N :=
  match s with c :: t => if is_digit c then digits t (acc * 10 + (c - 48)) else acc | [] => acc end.
(** The number strtol finds at the start of a string, base 10: sign and value;
    [None] if there is no digit. *)
Definition scan (s : list byte) : option (bool * N) :=
  let s := skip_space s in
  let '(neg, s) := match s with
                   | c :: t => if c =? 45 then (true, t) else if c =? 43 then (false, t) else (false, s)
                   | [] => (false, []) end in
  match s with
  | c :: _ => if is_digit c then Some (neg, digits s 0) else None
  | [] => None
  end.
Definition signed (x : bool * N) : Z := if fst x then (- Z.of_N (snd x))%Z else Z.of_N (snd x).
Definition int_ok (z : Z) : bool := ((- 2 ^ 31 <=? z) && (z <? 2 ^ 31))%Z.
(** atoi: undefined if the value is no int. *)
Definition atoi (s : list byte) : res Z :=
  match scan s with
  | None => Ok 0%Z
  | Some x => if int_ok (signed x) then Ok (signed x) else UB
  end.
(** sscanf with SCNd32 and SCNu32: undefined if the value does not fit
    (C11 7.21.6.2p10); [None]: not 1. *)
Definition scan_i32 (s : list byte) : res (option Z) :=
  match scan s with
  | None => Ok None
  | Some x => if int_ok (signed x) then Ok (Some (signed x)) else UB
  end.
Definition scan_u32 (s : list byte) : res (option N) :=
  match scan s with
  | None => Ok None
  | Some (neg, n) => if 2 ^ 32 <=? n then UB else Ok (Some (if neg then (2 ^ 32 - n) mod 2 ^ 32 else n))
  end.

(** ** Appending *)
(** A type character with its argument. [AString None] and missing parts of a
    dict entry are NULL pointers. *)
Inductive arg :=
| AString (s : option (list byte)) | AInt32 (z : Z) | AUint32 (n : N)
| ADict (k v : option (list byte)) | AOther.
Definition arg_text (a : arg) : option (list byte) :=
  match a with
  | AString s => s
  | AInt32 z => Some (dec_z z)
  | AUint32 n => Some (dec n)
  | ADict (Some k) (Some v) => Some (k ++ [61] ++ v)
  | ADict _ _ => None
  | AOther => None
  end.
Definition w_push (m : wmsg) (t : list byte) : wmsg :=
  mkWmsg (w_type m) (w_name m) (w_level m) (w_argv m ++ [t]) (w_iter m) (w_raw m) (w_rawlen m) (w_ifname m) (w_sealed m) (w_peer m).
(** wpas_message_appendv_basic, src/shared/wpas.c:386-449. *)
Definition wappend_basic (m : wmsg) (a : arg) : wmsg * option err :=
  if w_sealed m then (m, Some EBUSY)
  else match arg_text a with Some t => (w_push m t, None) | None => (m, Some EINVAL) end.
(** wpas_message_appendv, src/shared/wpas.c:463-486. *)
Fixpoint wappend_loop (m : wmsg) (l : list arg) : wmsg * option err :=
  match l with
  | [] => (m, None)
  | a :: l => match wappend_basic m a with
              | (m, None) => wappend_loop m l
              | (m, Some e) => (m, Some e)
              end
  end.
Definition wappend (m : wmsg) (l : list arg) : wmsg * option err :=
  if w_sealed m then (m, Some EBUSY) else wappend_loop m l.

(** wpas_message_seal, src/shared/wpas.c:488-519. The length of the joined line is
    an int, see join_buf. *)
Definition wseal (m : wmsg) : wmsg * option err :=
  if w_sealed m then (m, None)
  else
    let str := join (w_argv m) in
    if 2 ^ 31 <=? lenN str then (m, Some ENOMEM)
    else
      let raw := match w_type m with WEvent => text "<" ++ dec (w_level m) ++ text ">" ++ str | _ => str end in
      (mkWmsg (w_type m) (w_name m) (w_level m) (w_argv m) (w_iter m) (Some raw) (lenN str) (w_ifname m) true (w_peer m), None).

(** ** Reading *)
Inductive rtype := TString | TInt32 | TUint32 | TDict | TOther.
Inductive value := VString (s : list byte) | VInt32 (z : Z) | VUint32 (n : N).
Definition parse_num (t : rtype) (s : list byte) : res (value + err) :=
  match t with
  | TInt32 => do r <- scan_i32 s; Ok (match r with Some z => inl (VInt32 z) | None => inr EINVAL end)
  | TUint32 => do r <- scan_u32 s; Ok (match r with Some n => inl (VUint32 n) | None => inr EINVAL end)
  | _ => Ok (inr EINVAL)
  end.
Definition w_step (m : wmsg) : wmsg :=
  mkWmsg (w_type m) (w_name m) (w_level m) (w_argv m) (w_iter m + 1) (w_raw m) (w_rawlen m) (w_ifname m) (w_sealed m) (w_peer m).
(** The switch of wpas_message_read_basic, src/shared/wpas.c:528-551. *)
Definition read_entry (t : rtype) (e : list byte) : res (value + err) :=
  match t with
  | TString => Ok (inl (VString e))
  | TDict => match break_at 61 e with
             | (_, Some (_ :: v)) => Ok (inl (VString v))
             | _ => Ok (inr EINVAL)
             end
  | _ => parse_num t e
  end.
(** wpas_message_read_basic, src/shared/wpas.c:521-554. *)
Definition read_basic (m : wmsg) (t : rtype) : res (wmsg * (value + err)) :=
  match nthN (w_argv m) (w_iter m) with
  | None => Ok (m, inr EINVAL)
  | Some e =>
      do r <- read_entry t e;
      match r with
      | inl v => Ok (w_step m, inl v)
      | inr e => Ok (m, inr e)
      end
  end.
(** wpas_message_read, src/shared/wpas.c:556-578: the values read, and the error
    that stopped it. *)
Fixpoint read_all (m : wmsg) (ts : list rtype) : res (wmsg * list value * option err) :=
  match ts with
  | [] => Ok (m, [], None)
  | t :: ts =>
      do r <- read_basic m t;
      match r with
      | (m, inr e) => Ok (m, [], Some e)
      | (m, inl v) =>
          do r <- read_all m ts;
          let '(m, vs, e) := r in Ok (m, v :: vs, e)
      end
  end.
(** wpas_message_skip_basic and _skip, src/shared/wpas.c:580-628. *)
Definition skip_basic (m : wmsg) (t : rtype) : res (wmsg * option err) :=
  do r <- read_basic m t; Ok (fst r, match snd r with inl _ => None | inr e => Some e end).
Fixpoint skip_all (m : wmsg) (ts : list rtype) : res (wmsg * option err) :=
  match ts with
  | [] => Ok (m, None)
  | t :: ts => do r <- skip_basic m t;
               match r with (m, None) => skip_all m ts | (m, Some e) => Ok (m, Some e) end
  end.
(** wpas_message_rewind, src/shared/wpas.c:630-636. *)
Definition first_arg (m : wmsg) : N := match w_name m with Some _ => 1 | None => 0 end.
Definition rewind (m : wmsg) : wmsg :=
  mkWmsg (w_type m) (w_name m) (w_level m) (w_argv m) (first_arg m) (w_raw m) (w_rawlen m) (w_ifname m) (w_sealed m) (w_peer m).
(** wpas_message_argv_read, src/shared/wpas.c:638-673. The position is an
    unsigned int. *)
Definition argv_read (m : wmsg) (pos : N) (t : rtype) : res (value + err) :=
  let pos' := match w_name m with Some _ => (pos + 1) mod 2 ^ 32 | None => pos end in
  if match w_name m with Some _ => pos' =? 0 | None => false end then Ok (inr EINVAL)
  else match nthN (w_argv m) pos' with
       | None => Ok (inr EINVAL)
       | Some e => match t with
                   | TString => Ok (inl (VString e))
                   | _ => parse_num t e
                   end
       end.
(** wpas_message_dict_read, src/shared/wpas.c:675-717. *)
Fixpoint dict_loop (l : list (list byte)) (name : list byte) (t : rtype) : res (value + err) :=
  match l with
  | [] => Ok (inr ENOENT)
  | e :: l =>
      match break_at 61 e with
      | (k, Some (_ :: v)) =>
          if str_eq k name then
            match t with
            | TString => Ok (inl (VString v))
            | _ => parse_num t v
            end
          else dict_loop l name t
      | _ => dict_loop l name t
      end
  end.
Definition dict_read (m : wmsg) (name : list byte) (t : rtype) : res (value + err) :=
  dict_loop (dropN (first_arg m) (w_argv m)) name t.

(** ** Parsing *)
(** The C string at the front of a buffer that is followed by a 0. *)
Fixpoint cstr (s : list byte) : list byte :=
  match s with [] => [] | c :: t => if c =? 0 then [] else c :: cstr t end.
(** Up to the first space: strchrnul(s, ' '). *)
Fixpoint word (s : list byte) : list byte :=
  match s with [] => [] | c :: t => if c =? 32 then [] else c :: word t end.
(** shl_startswith(raw, "IFNAME="), src/shared/shl_util.h:44-50. *)
Definition has_ifname (raw : list byte) : bool := str_eq (takeN 7 (cstr raw)) (text "IFNAME=").
(** The prefix, src/shared/wpas.c:752-760: the name and what follows. *)
Definition split_ifname (raw : list byte) : option (list byte) * list byte :=
  if has_ifname raw then
    let name := word (dropN 7 (cstr raw)) in
    let rest := dropN (7 + lenN name) raw in
    (Some name, match rest with c :: t => if c =? 0 then rest else t | [] => [] end)
  else (None, raw).
Definition finish (m : wmsg) (raw : list byte) (len : N) (ifname : option (list byte)) : wmsg :=
  mkWmsg (w_type m) (w_name m) (w_level m) (w_argv m) (w_iter m) (Some (cstr raw)) len ifname true true.
(** wpas__parse_args, src/shared/wpas.c:719-732, on a fresh message: the tokens
    are C strings. *)
Definition parse_args (m : wmsg) (l : list (list byte)) : wmsg * option err :=
  wappend_loop m (map (fun t => AString (Some (cstr t))) l).
Definition or_err (x : wmsg * option err) : wmsg + err :=
  match x with (m, None) => inl m | (_, Some e) => inr e end.
(** wpas__parse_message, src/shared/wpas.c:734-832, [raw] being the received
    bytes. *)
Definition parse (server : bool) (raw : list byte) : res (wmsg + err) :=
  let '(ifname, body) := split_ifname raw in
  let is_event := match body with c :: _ => c =? 60 | [] => false end in
  let done r := Ok (match r with inl m => inl (finish m raw (lenN body) ifname) | inr e => inr e end) in
  let unknown := inl (wnew WUnknown (Some []) 0) in
  if server || is_event then
    let args := tokenize body in
    if server then
      match args with
      | (c :: n) :: args =>
          match new_wrequest (c :: n) with
          | inr e => done (inr e)
          | inl m => done (or_err (parse_args m args))
          end
      | _ => done unknown
      end
    else
      match args with
      | [] => UB
      | a :: args =>
          match break_at 62 a with
          | (before, Some (_ :: name)) =>
              match name with
              | [] => done unknown
              | _ =>
                  do level <- atoi (dropN 1 before);
                  match new_event name (Z.to_N (level mod 2 ^ 32)%Z) with
                  | inr e => done (inr e)
                  | inl m => done (or_err (parse_args m args))
                  end
              end
          | _ => done unknown
          end
      end
  else
    match strsplit body (text (String (Ascii.ascii_of_nat 10) "")) with
    | None => done (inr ENOMEM)
    | Some (args, _) => done (or_err (parse_args new_wreply args))
    end.

(** wpas_message_is_ok and _is_fail, src/shared/wpas.c:275-283. A reply that is
    not sealed has no text. *)
Definition raw_is (m : wmsg) (s : list byte) : res bool :=
  match w_type m, w_raw m with
  | WReply, Some r => Ok (str_eq r s)
  | WReply, None => UB
  | _, _ => Ok false
  end.
Definition is_ok (m : wmsg) : res bool := raw_is m (text "OK" ++ [10]).
Definition is_fail (m : wmsg) : res bool := raw_is m (text "FAIL" ++ [10]).
