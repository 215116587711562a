(** What RTSP messages contain and how they look on the wire, independently of
    the builder. *)
From Coq Require Import String.
From Verif Require Import Base Qstr_Model Text RtspMsg_Model.

(** ** Messages a caller describes *)
(** A header (or a line of the body): name and tokens. *)
Definition field : Type := list byte * list (list byte).
Inductive first_line :=
| Req (method uri : list byte)
| Rep (code : N) (phrase : list byte).

(** The calls that build it: rtsp_message_append() with "<s...>" per header and
    "{<s...>...}" for the body. *)
Definition field_ops (f : field) : list bop := BOpen (fst f) :: map BToken (snd f) ++ [BClose].
Definition build_ops (hs bs : list field) : list bop :=
  flat_map field_ops hs ++ match bs with [] => [] | _ => BBody :: flat_map field_ops bs ++ [BBodyEnd] end.
Definition create (f : first_line) (cookie : N) : message + err :=
  match f with
  | Req method uri => match new_request method uri with
                      | inl m => inl (fst (set_cookie m cookie)) | inr e => inr e end
  | Rep code phrase => new_reply cookie code phrase
  end.
(** The sealed message. *)
Definition build (f : first_line) (cookie : N) (hs bs : list field) : option message :=
  match create f cookie with
  | inr _ => None
  | inl m =>
      match append m (build_ops hs bs) with
      | Ok (m, None) => match seal 0 m with Ok (_, m, None) => Some m | _ => None end
      | _ => None
      end
  end.

(** ** The wire format *)
Definition field_line (f : field) : list byte := fst f ++ [58; 32] ++ join (snd f) ++ [13; 10].
Definition status (f : first_line) : list byte :=
  match f with
  | Req method uri => method ++ [32] ++ uri ++ [32] ++ text "RTSP/1.0"
  | Rep code phrase => text "RTSP/1.0 " ++ dec code ++ [32]
                       ++ match phrase with [] => code_text code | _ => phrase end
  end ++ [13; 10].
Definition body_bytes (bs : list field) : list byte := flat_map field_line bs.
(** The headers with the generated ones. *)
Definition full_headers (cookie : N) (hs bs : list field) : list field :=
  hs ++ match bs with
        | [] => []
        | _ => [(text "Content-Length", [dec (lenN (body_bytes bs))]);
                (text "Content-Type", [text "text/parameters"])]
        end
  ++ [(text "CSeq", [dec cookie])].
Definition wire (f : first_line) (cookie : N) (hs bs : list field) : list byte :=
  status f ++ flat_map field_line (full_headers cookie hs bs) ++ [13; 10] ++ body_bytes bs.

(** ** Texts that need no care *)
(** Printing bytes other than the quotation mark; [word]: no space either. *)
Definition plain (s : list byte) : Prop := Forall (fun c => 32 <= c /\ c <> 34) s.
Definition word (s : list byte) : Prop := s <> [] /\ Forall (fun c => 33 <= c /\ c <> 34) s.
Definition good_token (s : list byte) : Prop :=
  s <> [] /\ plain s /\ (~ In 32 s -> ~ In 39 s).
Definition good_field (f : field) : Prop :=
  word (fst f) /\ ~ In 58 (fst f) /\ snd f <> [] /\ Forall good_token (snd f).
Definition known (key : list byte) : Prop :=
  case_eq key (text "Content-Length") = true \/ case_eq key (text "Content-Type") = true
  \/ case_eq key (text "CSeq") = true.
(** Single spaces, none at the ends. *)
Fixpoint spaced (s : list byte) : Prop :=
  match s with
  | [] => False
  | [c] => c <> 32
  | c :: ((d :: _) as t) => (c = 32 -> d <> 32) /\ spaced t
  end.
Definition good_phrase (s : list byte) : Prop :=
  plain s /\ spaced s /\ (forall c t, s = c :: t -> c <> 32).
Definition good_first (f : first_line) : Prop :=
  match f with
  | Req method uri => word method /\ word uri /\ (forall t, method <> 36 :: t)
                      /\ case_prefix (text "RTSP/") method = false
  | Rep code phrase => code < 2 ^ 32 - 1 /\ (phrase = [] \/ good_phrase phrase)
  end.
Definition good_message (f : first_line) (cookie : N) (hs bs : list field) : Prop :=
  good_first f /\ 0 < cookie < 2 ^ 63 /\ Forall good_field hs /\ Forall (fun x => ~ known (fst x)) hs
  /\ Forall good_field bs /\ lenN (body_bytes bs) < 2 ^ 32 /\ lenN hs <= 61.

(** What is to be received. *)
Definition start_of (f : first_line) : start :=
  match f with
  | Req method uri => Request method uri
  | Rep code phrase => Reply code (match phrase with [] => code_text code | _ => phrase end)
  end.
Definition header_of (f : field) : header :=
  mkHeader (fst f) (Some (join (snd f))) (snd f) (Some (field_line f)).
Definition contents (m : message) (f : first_line) (cookie : N) (hs bs : list field) : Prop :=
  m_start m = start_of f /\ m_major m = 1 /\ m_minor m = 0
  /\ a_used (m_headers m) = map header_of (full_headers cookie hs bs)
  /\ a_used (m_body_headers m) = map header_of bs
  /\ m_body m = Some (body_bytes bs)
  /\ m_raw m = Some (wire f cookie hs bs)
  /\ m_sealed m = true /\ m_iter_body m = false /\ m_iter_header m = None.

(** ** Any message of the builder *)
(** Header counts that fit into memory. *)
Definition in_memory (m : message) : Prop :=
  lenN (a_used (m_headers m)) < 2 ^ 60 /\ lenN (a_used (m_body_headers m)) < 2 ^ 60.
(** Messages made by the constructors and any sequence of builder calls, failing
    ones included. *)
Inductive built : message -> Prop :=
| BuiltRequest method uri m : new_request method uri = inl m -> built m
| BuiltReply cookie code phrase m : new_reply cookie code phrase = inl m -> built m
| BuiltData channel payload m : new_data channel payload = inl m -> built m
| BuiltOp m o m' e : built m -> in_memory m -> append_basic m o = Ok (m', e) -> built m'
| BuiltCookie m c : built m -> built (fst (set_cookie m c))
| BuiltSeal m ck ck' m' e : built m -> in_memory m -> seal ck m = Ok (ck', m', e) -> built m'.

(** The last header of a name (names compared without case). *)
Definition last_of (name : list byte) (l : list header) (h : header) : Prop :=
  exists a b, l = a ++ h :: b /\ case_eq (h_key h) name = true
    /\ Forall (fun x => case_eq (h_key x) name = false) b.
Definition none_of (name : list byte) (l : list header) : Prop :=
  Forall (fun x => case_eq (h_key x) name = false) l.
(** [m] carries the header [name] with the value [v], on the wire too. *)
Definition says (m : message) (name v : list byte) : Prop :=
  exists h, last_of name (a_used (m_headers m)) h /\ h_value h = Some v
    /\ h_line h = Some (h_key h ++ [58; 32] ++ v ++ [13; 10]).
(** The header lines on the wire. *)
Definition text_of (l : list header) : list byte :=
  flat_map (fun h => match h_line h with Some s => s | None => [] end) l.
(** A sealed request or reply: start line, header lines, blank line, body. *)
Definition status_of (s : start) : list byte :=
  match s with
  | Request method uri => status (Req method uri)
  | Reply code phrase => text "RTSP/1.0 " ++ dec code ++ [32] ++ phrase ++ [13; 10]
  | _ => []
  end.
Definition complete (m : message) : Prop :=
  exists body, m_body m = Some body
    /\ m_raw m = Some (status_of (m_start m) ++ text_of (a_used (m_headers m)) ++ [13; 10] ++ body)
    /\ (lenN body < 2 ^ 32 ->
          says m (text "Content-Length") (dec (lenN body))
          \/ body = [] /\ none_of (text "Content-Length") (a_used (m_headers m)))
    /\ (a_used (m_body_headers m) <> [] -> says m (text "Content-Type") (text "text/parameters"))
    /\ says m (text "CSeq") (dec (without_flag (m_cookie m))).

(** Everything but the read position is the same. *)
Definition same_contents (m m' : message) : Prop := m' = set_iter m (m_iter_body m') (m_iter_header m') (m_iter_token m').
(** What can be done with a message after sealing it. *)
Inductive later : message -> message -> Prop :=
| LaterRefl m : later m m
| LaterAppend m o a e b : append_basic m o = Ok (a, e) -> later a b -> later m b
| LaterLine m s a e b : append_line m s = Ok (a, e) -> later a b -> later m b
| LaterOps m l a e b : append m l = Ok (a, e) -> later a b -> later m b
| LaterCookie m c b : later (fst (set_cookie m c)) b -> later m b
| LaterSeal m ck ck' a e b : seal ck m = Ok (ck', a, e) -> later a b -> later m b
| LaterRead m r a x b : read_basic m r = Ok (a, x) -> later a b -> later m b.
(** The line ends in a text. *)
Definition breaks (d : list byte) : N := lenN (filter (fun c => (c =? 13) || (c =? 10)) d).
