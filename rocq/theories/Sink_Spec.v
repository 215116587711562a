(** What a sink says and learns in an RTSP session, independently of its handlers. *)
From Coq Require Import String.
From Verif Require Import Base Qstr_Model Text RtspMsg_Model RtspMsg_Spec RtspBus_Model RtspBus_Spec Wfd_Spec Sink_Model.

(** ** On the wire *)
(** A request or reply with the text of its body. *)
Definition generated (c : N) (body : list byte) : list field :=
  match body with
  | [] => []
  | _ => [(text "Content-Length", [dec (lenN body)]); (text "Content-Type", [text "text/parameters"])]
  end ++ [(text "CSeq", [dec c])].
Definition sent_text (f : first_line) (c : N) (hs : list field) (body : list byte) : list byte :=
  status f ++ flat_map field_line (hs ++ generated c body) ++ [13; 10] ++ body.
Definition ok (c : N) (hs : list field) (body : list byte) : list byte := sent_text (Rep 200 []) c hs body.
Definition ask (method uri : list byte) (c : N) (hs : list field) : list byte := sent_text (Req method uri) c hs [].

(** The messages waiting to be written. *)
Definition queue (b : bus) : list (list byte) := map (raw_of b) (b_out b).
(** A bus that takes messages: alive, with cookies left, its queue in order. *)
Definition taking (b : bus) : Prop :=
  b_dead b = false /\ b_ck b + 1 < 2 ^ 63 /\ Forall (fun id => (id < length (b_calls b))%nat) (b_out b).
(** It goes on taking them, having used up a cookie at most. *)
Definition goes_on (b b' : bus) : Prop :=
  b_dead b' = false /\ b_ck b <= b_ck b' <= b_ck b + 1 /\ Forall (fun id => (id < length (b_calls b'))%nat) (b_out b').

(** ** What a message says *)
(** A message nothing has been read from. *)
Definition unread (m : message) : Prop :=
  m_sealed m = true /\ is_data m = false /\ m_iter_body m = false /\ m_iter_header m = None.
(** A request of the source with the sequence number [c]. *)
Definition request (m : message) (method : list byte) (c : N) : Prop :=
  unread m /\ m_used m = true /\ (exists uri, m_start m = Request method uri) /\ m_cookie m = with_flag c /\ 0 < c < 2 ^ 63.
(** The first line of a name in the body. *)
Definition line (m : message) (name : list byte) : option header :=
  find (fun h => case_eq (h_key h) name) (a_used (m_body_headers m)).
Definition first_word (h : option header) : option (list byte) :=
  match h with Some h => match h_tokens h with t :: _ => Some t | [] => None end | None => None end.
Definition whole (h : option header) : option (list byte) :=
  match h with Some h => Some (match h_value h with Some v => v | None => [] end) | None => None end.
Definition or_else {A} (a b : option A) : option A := match a with Some _ => a | None => b end.
(** Does the source ask for this parameter? *)
Definition asked (m : message) (name : list byte) : bool :=
  match line m name with Some _ => true | None => false end.

(** The answer to a GET_PARAMETER. *)
Definition param_line (p : list byte * list byte) : list byte := fst p ++ [58; 32] ++ snd p ++ [13; 10].
Definition answer (m : message) (l : list (list byte * list byte)) : list byte :=
  flat_map param_line (filter (fun p => asked m (fst p)) l).
(** The parameters of a sink without extensions, UIBC not wanted. *)
Definition standard (cea vesa hh : list byte) (port : list byte) : list (list byte * list byte) :=
  [(text "wfd_content_protection", text "none");
   (text "wfd_video_formats", text "00 00 03 10 " ++ cea ++ [32] ++ vesa ++ [32] ++ hh ++ text " 00 0000 0000 10 none none");
   (text "wfd_audio_codecs", text "AAC 00000007 00");
   (text "wfd_client_rtp_ports", text "RTP/AVP/UDP;unicast " ++ port ++ text " 0 mode=play")].

(** The parameters offered, [ext] being the extensions: they replace the standard
    values, further ones are added; UIBC only if wanted. *)
Definition same (a b : list byte) : bool := if list_eq_dec N.eq_dec a b then true else false.
Definition replaced (ext : list (list byte * list byte)) (p : list byte * list byte) : list byte * list byte :=
  match find (fun e => same (fst e) (fst p)) ext with Some e => (fst p, snd e) | None => p end.
Definition uibc : list byte * list byte :=
  (text "wfd_uibc_capability", text "input_category_list=GENERIC;generic_cap_list=Mouse,SingleTouch;hidc_cap_list=none;port=none").
Definition offered (std ext : list (list byte * list byte)) (wanted : bool) : list (list byte * list byte) :=
  match std with
  | [protection; formats; codecs; ports] =>
      [protection; replaced ext formats; replaced ext codecs; ports]
      ++ filter (fun e => negb (existsb (same (fst e)) [fst formats; fst codecs; fst uibc])) ext
      ++ (if wanted then [replaced ext uibc] else [])
  | _ => []
  end.
(** The extensions of a sink; they have names and fit into 512 bytes. *)
Definition extensions (s : sink) : list (list byte * list byte) := match s_ext s with Some l => l | None => [] end.
Definition short (p : list byte * list byte) : Prop := lenN (fst p) + 2 + lenN (snd p) < 512.
Definition modest (w : world) : Prop :=
  (- 2 ^ 31 <= w_port w < 2 ^ 31)%Z /\ NoDup (map fst (extensions (w_sink w)))
  /\ Forall (fun p => fst p <> [] /\ short p) (extensions (w_sink w)) /\ lenN (extensions (w_sink w)) < 2 ^ 20.
Definition params (w : world) : list (list byte * list byte) :=
  offered (standard (hex8 (s_cea (w_sink w))) (hex8 (s_vesa (w_sink w))) (hex8 (s_hh (w_sink w))) (dec_int (w_port w)))
    (extensions (w_sink w)) (w_option w).

(** The video formats of a SET_PARAMETER: the fifth to seventh word, if they are
    there, as hexadecimal numbers. *)
Definition masks (m : message) : option (N * N * N) :=
  match line m (text "wfd_video_formats") with
  | Some h =>
      match h_tokens h with
      | _ :: _ :: _ :: _ :: a :: b :: c :: _ =>
          match scan_hex a, scan_hex b, scan_hex c with
          | Some a, Some b, Some c => Some (a, b, c)
          | _, _, _ => None
          end
      | _ => None
      end
  | None => None
  end.
(** The resolution chosen. *)
Inductive choose (m : message) : option (N * N) -> bool -> Prop :=
| ChooseNot : masks m = None -> choose m None true
| ChooseOne a b c r : masks m = Some (a, b, c) -> choice a b c (Some r) -> choose m (Some r) true
| ChooseNone a b c : masks m = Some (a, b, c) -> choice a b c None -> choose m None false.

(** What the sink knows after a SET_PARAMETER, [r] being the resolution chosen. *)
Definition told (s : sink) (m : message) (r : option (N * N)) : sink :=
  mkSink (or_else (first_word (line m (text "wfd_presentation_URL"))) (s_url s)) (s_session s)
    (or_else (whole (line m (text "wfd_uibc_capability"))) (s_uibc_config s))
    (or_else (first_word (line m (text "wfd_uibc_setting"))) (s_uibc_setting s))
    (s_cea s) (s_vesa s) (s_hh s)
    (match r with Some (h, _) => h | None => s_hres s end) (match r with Some (_, v) => v | None => s_vres s end)
    (s_ext s).
(** The request that follows: a SETUP if the source triggers it, a URL is known and
    the formats given are. *)
Definition setup_request (m : message) (url : option (list byte)) (known : bool) (c : N) (port : list byte) : list (list byte) :=
  match known, first_word (line m (text "wfd_trigger_method")), url with
  | true, Some t, Some ((_ :: _) as u) =>
      if str_eq t (text "SETUP") then
        [ask (text "SETUP") u c [(text "Transport", [text "RTP/AVP/UDP;unicast;client_port=" ++ port])]]
      else []
  | _, _, _ => []
  end.

(** The reply to the SETUP: its first Session header, up to a semicolon. *)
Definition header_line (m : message) (name : list byte) : option header :=
  find (fun h => case_eq (h_key h) name) (a_used (m_headers m)).
Definition session_given (m : message) (session : list byte) : Prop :=
  exists word, first_word (header_line m (text "Session")) = Some word /\ ~ In 59 session
    /\ (word = session \/ exists t, word = session ++ 59 :: t).
Definition play_request (url : option (list byte)) (c : N) (session : list byte) : list (list byte) :=
  match url with
  | Some ((_ :: _) as u) => [ask (text "PLAY") u c [(text "Session", [session])]]
  | _ => []
  end.
Definition in_session (s : sink) (session : list byte) : sink :=
  mkSink (s_url s) (Some session) (s_uibc_config s) (s_uibc_setting s) (s_cea s) (s_vesa s) (s_hh s) (s_hres s) (s_vres s) (s_ext s).

(** ** UIBC *)
(** Hexadecimal digits, the most significant first, and their value. *)
Definition hex_text (t : list byte) (n : N) : Prop :=
  t <> [] /\ Forall (fun c => 48 <= c <= 57 \/ 97 <= c <= 102 \/ 65 <= c <= 70) t
  /\ n = fold_left (fun acc c => acc * 16 + (if c <=? 57 then c - 48 else if 97 <=? c then c - 87 else c - 55)) t 0.
Definition decimal_text (t : list byte) (n : N) : Prop :=
  t <> [] /\ Forall (fun c => 48 <= c <= 57) t /\ n = fold_left (fun acc c => acc * 10 + (c - 48)) t 0.
(** A part between semicolons that does not speak of the port, nor breaks off in
    doing so. *)
Definition other_part (p : list byte) : Prop :=
  p = [] \/ ~ In 59 p /\ exists a b c t, text "port=" = a ++ b /\ p = a ++ c :: t /\ (forall x b', b = x :: b' -> x <> c) /\ b <> [].
(** A capability whose first part about a port names it, and one without any. *)
Definition port_named (config : list byte) (n : N) : Prop :=
  exists before number after, config = flat_map (fun p => p ++ [59]) before ++ text "port=" ++ number ++ after
    /\ Forall other_part before /\ decimal_text number n /\ n < 2 ^ 31 /\ (after = [] \/ exists t, after = 59 :: t).
Definition no_port (config : list byte) : Prop :=
  exists before last, config = flat_map (fun p => p ++ [59]) before ++ last /\ Forall other_part before /\ other_part last.
(** The text [none], in any case. *)
Definition says_none (config : list byte) : Prop :=
  map lower config = text "none".

(** ** A session *)
Fixpoint handle_all (w : world) (l : list message) : res world :=
  match l with [] => Ok w | m :: l => do w <- handle w m; handle_all w l end.
Definition known_methods : list (list byte) := [text "OPTIONS"; text "GET_PARAMETER"; text "SET_PARAMETER"].
(** What is sent for a request with the number [c]: one reply with that number, then
    requests of the sink. *)
Definition answers (c : N) (out : list (list byte)) : Prop :=
  exists hs body asks, out = ok c hs body :: asks
    /\ Forall (fun x => exists method uri n hs, x = ask method uri n hs) asks.
