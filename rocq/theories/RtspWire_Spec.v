(** Streams of RTSP messages and interleaved data packets. *)
From Verif Require Import Base Text RtspMsg_Model RtspMsg_Spec RtspParser_Model RtspParser_Spec.

(** What one side sends: described messages and data packets. *)
Inductive item :=
| Msg (f : first_line) (cookie : N) (hs bs : list field)
| Pkt (channel : N) (payload : list byte).
Definition wire_of (i : item) : list byte :=
  match i with
  | Msg f cookie hs bs => wire f cookie hs bs
  | Pkt channel payload => [36; channel; lenN payload / 256; lenN payload mod 256] ++ payload
  end.
Definition good_item (i : item) : Prop :=
  match i with
  | Msg f cookie hs bs => good_message f cookie hs bs
  | Pkt channel payload => channel < 256 /\ 0 < lenN payload < 65536
  end.
(** What the other side is given for it; the cookies of messages are marked as the
    remote side's. *)
Definition arrives (i : item) (m : message) : Prop :=
  m_sealed m = true /\ m_used m = true /\
  match i with
  | Msg f cookie hs bs => contents m f cookie hs bs /\ m_cookie m = with_flag cookie
  | Pkt channel payload => m_start m = Data channel payload /\ m_raw m = Some (wire_of i)
  end.
(** Sent: the message built for it. *)
Definition sent (i : item) : option message :=
  match i with
  | Msg f cookie hs bs => build f cookie hs bs
  | Pkt channel payload =>
      match new_data channel payload with
      | inl m => match seal 0 m with Ok (_, m, None) => Some m | _ => None end
      | inr _ => None
      end
  end.
(** A parser between messages. *)
Definition ready (d : parser) : Prop := d_m d = None /\ d_buf d = [] /\ d_buflen d = 0 /\ d_state d = SNew.
