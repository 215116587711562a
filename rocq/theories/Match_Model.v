(** Model of the match callbacks of both buses: wpas__call, wpas_add_match and
    wpas_remove_match, src/shared/wpas.c:838-866 and 1605-1648, and rtsp_call,
    rtsp_add_match and rtsp_remove_match, src/shared/rtsp.c:2620-2651 and 3132-3190.
    Memory allocation succeeds. A pair of callback function and data is a key. Messages
    are delivered one after the other, never from inside a callback. *)
From Verif Require Import Base.

(** struct wpas_match and struct rtsp_match, with the number of the registration. *)
Record match_ := mkMatch { m_num : N; m_key : N; m_removed : bool }.
(** The list of matches and the number of registrations made so far. *)
Record bus := mkBus { b_list : list match_; b_next : N }.
Definition init : bus := mkBus [] 0.

(** What a user does to the matches. *)
Inductive op := Add (key : N) | Remove (key : N).
(** The first match with the key, in the given order. *)
Fixpoint mark (key : N) (l : list match_) : list match_ :=
  match l with
  | [] => []
  | m :: l => if m_key m =? key then mkMatch (m_num m) key true :: l else m :: mark key l
  end.
Fixpoint unlink (key : N) (l : list match_) : list match_ :=
  match l with
  | [] => []
  | m :: l => if m_key m =? key then l else m :: unlink key l
  end.
(** wpas_add_match, src/shared/wpas.c:1605-1625, and wpas_remove_match,
    src/shared/wpas.c:1627-1648; [calling]: a message is being delivered. The list is
    searched from its end. *)
Definition apply (calling : bool) (b : bus) (o : op) : bus :=
  match o with
  | Add key => mkBus (b_list b ++ [mkMatch (b_next b) key false]) (b_next b + 1)
  | Remove key => mkBus (rev ((if calling then mark else unlink) key (rev (b_list b)))) (b_next b)
  end.
(** The loop of wpas__call, src/shared/wpas.c:854-859 ([safe]: the next element is
    taken before the callback runs), and of rtsp_call, src/shared/rtsp.c:2633-2638. The
    script says for each call of a callback what it does to the matches and if it
    returns non-zero. Result: the bus, the registrations called, and whether the loop
    ended before the script. *)
Fixpoint deliver (safe : bool) (script : list (list op * bool)) (b : bus) (i : nat) : bus * list N * bool :=
  match nth_error (b_list b) i, script with
  | None, _ => (b, [], true)
  | Some _, [] => (b, [], false)
  | Some m, (ops, stop) :: script =>
      let more := (S i <? length (b_list b))%nat in
      let b := fold_left (apply true) ops b in
      if stop || (safe && negb more) then (b, [m_num m], true)
      else let '(b, called, fin) := deliver safe script b (S i) in (b, m_num m :: called, fin)
  end.
(** The second loop of wpas__call, src/shared/wpas.c:862-866. *)
Definition sweep (b : bus) : bus := mkBus (filter (fun m => negb (m_removed m)) (b_list b)) (b_next b).
Definition call (safe : bool) (b : bus) (script : list (list op * bool)) : option (bus * list N) :=
  let '(b, called, fin) := deliver safe script b 0 in if fin then Some (sweep b, called) else None.

(** A message is delivered, or the user changes the matches at another time. *)
Inductive event := Message (script : list (list op * bool)) | User (o : op).
Definition step (safe : bool) (b : bus) (e : event) : option (bus * list N) :=
  match e with
  | Message script => call safe b script
  | User o => Some (apply false b o, [])
  end.
Fixpoint run (safe : bool) (b : bus) (es : list event) : option (bus * list N) :=
  match es with
  | [] => Some (b, [])
  | e :: es =>
      match step safe b e with
      | None => None
      | Some (b, called) => match run safe b es with None => None | Some (b, called') => Some (b, called ++ called') end
      end
  end.
