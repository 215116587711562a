(** Model of reading several values of an RTSP message, src/shared/rtsp.c:1588-1694:
    rtsp_message_readv, rtsp_message_skip, rtsp_message_rewind and what gives the body and
    the text of a message, for messages as in RtspMsg_Model. *)
From Verif Require Import Base Text RtspMsg_Model.
Local Open Scope list_scope.

(** The loop of rtsp_message_readv, 1600-1609: the values of all types. *)
Fixpoint read_loop (m : message) (ops : list rop) : res (message * (list (list byte) + err)) :=
  match ops with
  | [] => Ok (m, inl [])
  | o :: ops =>
      do x <- read_basic m o;
      match x with
      | (m, inl v) => do y <- read_loop m ops; Ok (match y with (m, inl l) => (m, inl (v :: l)) | e => e end)
      | (m, inr e) =>
          let m := if m_iter_body m then exit_body m else m in
          let m := if no_ptr (m_iter_header m) then m else exit_header m in
          Ok (m, inr e)
      end
  end.
(** rtsp_message_readv; [None]: types is NULL. *)
Definition readv (m : message) (types : option (list rop)) : res (message * (list (list byte) + err)) :=
  rguard m (match types with None => Ok (m, inl []) | Some ops => read_loop m ops end).

(** rtsp_message_skip_basic, 1615-1618: all arguments are NULL, also the name of a header,
    which shl_isempty takes as an empty one. *)
Definition nameless (o : rop) : rop := match o with REnter _ => REnter [] | o => o end.
Fixpoint skip_loop (m : message) (ops : list rop) : res (message * option err) :=
  match ops with
  | [] => Ok (m, None)
  | o :: ops =>
      do x <- read_basic m (nameless o);
      match x with (m, inl _) => skip_loop m ops | (m, inr e) => Ok (m, Some e) end
  end.
(** rtsp_message_skip, 1620-1638. *)
Definition skip (m : message) (types : option (list rop)) : res (message * option err) :=
  if is_data m then Ok (m, Some EINVAL)
  else if negb (m_sealed m) then Ok (m, Some EBUSY)
  else match types with None => Ok (m, None) | Some ops => skip_loop m ops end.
(** rtsp_message_rewind, 1640-1654. *)
Definition rewind (m : message) (complete : bool) : message * option err :=
  if is_data m then (m, Some EINVAL)
  else if negb (m_sealed m) then (m, Some EBUSY)
  else (if complete then set_iter m false None 0 else set_iter m (m_iter_body m) (m_iter_header m) 0, None).
(** rtsp_message_get_body and _get_body_size, 1656-1674, rtsp_message_get_raw and
    _get_raw_size, 1676-1694: the bytes, or none. *)
Definition get_body (m : message) : option (list byte) := if is_data m then None else if m_sealed m then m_body m else None.
Definition get_raw (m : message) : option (list byte) := if m_sealed m then m_raw m else None.
