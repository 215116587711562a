(** What it means for two ways of feeding the parser to do the same. *)
From Verif Require Import Base Text RtspMsg_Model RtspParser_Model.

(** Both undefined, or the same error with the same world and cookie counter, or
    success with the same parser state as well. *)
Definition same {W} (a b : @out W) : Prop :=
  match a, b with
  | UB, UB => True
  | Ok (_, ck, w, Some e), Ok (_, ck', w', Some e') => ck = ck' /\ w = w' /\ e = e'
  | Ok (s, None), Ok (s', None) => s = s'
  | _, _ => False
  end.

(** A world that records the messages and reports no error. *)
Definition record (w : list message) (ck : N) (m : message) : list message * N * option err :=
  (w ++ [m], ck, None).
(** The messages dispatched by a fresh parser for a stream, and the parser
    afterwards. *)
Definition received (stream : list byte) : option (list message * parser) :=
  match parse_data record (parser_init, 0, []) stream with
  | Ok (d, _, w, None) => Some (w, d)
  | _ => None
  end.
