From Coq Require Import String.
From Verif Require Import Base Text RtspMsg_Model RtspMsg_Spec RtspRead_Model RtspRead_Spec RtspRead_Proofs.
Local Open Scope list_scope.

(** A sealed message with two headers of one name and a body. *)
Definition sample : message :=
  match new_request (text "SETUP") (text "rtsp://host/stream") with
  | inl m => match append m [BOpen (text "Session"); BToken (text "12"); BToken (text "x y"); BClose; BOpen (text "session"); BToken (text "13"); BClose;
                             BBody; BOpen (text "wfd_idr"); BToken (text "on"); BClose; BBodyEnd] with
             | Ok (m, None) => match seal 6 m with Ok (_, m, None) => m | _ => msg_new (Unknown []) end
             | _ => msg_new (Unknown [])
             end
  | inr _ => msg_new (Unknown [])
  end.
Lemma sample_top : stands sample top.
Proof. apply sealed_top; vm_compute; reflexivity. Qed.
(** Skipping over a header fails where reading it succeeds. *)
Lemma skip_differs : exists m m' vs name, stands m top /\ readv m (Some [REnter name; RString; RExit]) = Ok (m', inl vs)
  /\ skip m (Some [REnter name; RString; RExit]) = Ok (m, Some EINVAL).
Proof.
  destruct (readv sample (Some [REnter (text "Session"); RString; RExit])) as [[m' [vs|e]]|] eqn:E.
  - exists sample, m', vs, (text "Session"). split; [exact sample_top|]. split; [exact E|]. exact (skip_enter _ _ _ _ sample_top).
  - exfalso. assert (X : match readv sample (Some [REnter (text "Session"); RString; RExit]) with Ok (_, inr _) => false | _ => true end = true) by (vm_compute; reflexivity). rewrite E in X. discriminate.
  - exfalso. assert (X : match readv sample (Some [REnter (text "Session"); RString; RExit]) with UB => false | _ => true end = true) by (vm_compute; reflexivity). rewrite E in X. discriminate.
Qed.
