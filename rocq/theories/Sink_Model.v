(** Model of the sink's RTSP session, src/ctl/ctl-sink.c:26-378, on top of the bus
    and the messages. Memory allocation succeeds. C strings are the lists of their
    bytes before the terminating 0. What is printed is left out. The message handed
    to a handler is not returned: of it only the read position changes, and the text
    in which strtok() looks for the UIBC port. *)
From Coq Require Import String.
From Verif Require Import Base Text RtspMsg_Model RtspBus_Model Wfd_Model.

(** struct ctl_sink, src/ctl/ctl-sink.h:49-78, without the connection (see
    SinkConn_Model). [s_ext]: the table protocol_extensions as a list of its entries
    in the order of g_hash_table_get_keys(). *)
Record sink := mkSink {
  s_url : option (list byte); s_session : option (list byte);
  s_uibc_config : option (list byte); s_uibc_setting : option (list byte);
  s_cea : N; s_vesa : N; s_hh : N; s_hres : N; s_vres : N;
  s_ext : option (list (list byte * list byte)) }.
(** The sink with the bus and the variables rstp_port, uibc_option, uibc_enabled and
    uibc_port of src/ctl/sinkctl.c:74-78; [w_shown] are the resolutions reported by
    ctl_fn_sink_resolution_set(). *)
Record world := mkWorld {
  w_bus : bus; w_sink : sink; w_port : Z; w_option : bool; w_enabled : bool; w_uibc_port : Z;
  w_shown : list (N * N) }.

Definition set_bus (w : world) (b : bus) : world :=
  mkWorld b (w_sink w) (w_port w) (w_option w) (w_enabled w) (w_uibc_port w) (w_shown w).
Definition set_sink (w : world) (s : sink) : world :=
  mkWorld (w_bus w) s (w_port w) (w_option w) (w_enabled w) (w_uibc_port w) (w_shown w).
Definition set_uibc (w : world) (e : bool) (p : Z) : world :=
  mkWorld (w_bus w) (w_sink w) (w_port w) (w_option w) e p (w_shown w).
Definition set_shown (w : world) (r : N * N) : world :=
  mkWorld (w_bus w) (w_sink w) (w_port w) (w_option w) (w_enabled w) (w_uibc_port w) (w_shown w ++ [r]).
Definition with_url (s : sink) (x : list byte) : sink :=
  mkSink (Some x) (s_session s) (s_uibc_config s) (s_uibc_setting s) (s_cea s) (s_vesa s) (s_hh s) (s_hres s) (s_vres s) (s_ext s).
Definition with_session (s : sink) (x : list byte) : sink :=
  mkSink (s_url s) (Some x) (s_uibc_config s) (s_uibc_setting s) (s_cea s) (s_vesa s) (s_hh s) (s_hres s) (s_vres s) (s_ext s).
Definition with_config (s : sink) (x : list byte) : sink :=
  mkSink (s_url s) (s_session s) (Some x) (s_uibc_setting s) (s_cea s) (s_vesa s) (s_hh s) (s_hres s) (s_vres s) (s_ext s).
Definition with_setting (s : sink) (x : list byte) : sink :=
  mkSink (s_url s) (s_session s) (s_uibc_config s) (Some x) (s_cea s) (s_vesa s) (s_hh s) (s_hres s) (s_vres s) (s_ext s).
Definition with_res (s : sink) (h v : N) : sink :=
  mkSink (s_url s) (s_session s) (s_uibc_config s) (s_uibc_setting s) (s_cea s) (s_vesa s) (s_hh s) h v (s_ext s).

(** ** Reading from a message *)
(** rtsp_message_readv, src/shared/rtsp.c:1586-1612: the values stored, in order. *)
Definition stores (o : rop) : bool := match o with RRaw | RString | RNumber _ => true | _ => false end.
Fixpoint read_ops (m : message) (l : list rop) : res (message * (list (list byte) + err)) :=
  match l with
  | [] => Ok (m, inl [])
  | o :: l =>
      do r <- read_basic m o;
      match r with
      | (m, inr e) =>
          let m := if m_iter_body m then exit_body m else m in
          Ok (if no_ptr (m_iter_header m) then m else exit_header m, inr e)
      | (m, inl v) =>
          do r <- read_ops m l;
          Ok (fst r, match snd r with
                     | inl vs => inl (if stores o then v :: vs else vs)
                     | inr e => inr e end)
      end
  end.
Definition read (m : message) (l : list rop) : res (message * (list (list byte) + err)) :=
  rguard m (read_ops m l).

(** ** Numbers in texts *)
(** isspace() of the C locale. *)
Definition is_space (c : byte) : bool := (c =? 32) || ((9 <=? c) && (c <=? 13)).
Fixpoint skip_space (s : list byte) : list byte :=
  match s with c :: t => if is_space c then skip_space t else s | [] => [] end.
Definition digit_value (c : byte) : option N :=
  if (48 <=? c) && (c <=? 57) then Some (c - 48)
  else if (97 <=? c) && (c <=? 102) then Some (c - 87)
  else if (65 <=? c) && (c <=? 70) then Some (c - 55) else None.
(** The digits a text begins with: their number and value. *)
Fixpoint digits (base : N) (s : list byte) (n acc : N) : N * N :=
  match s with
  | c :: t => match digit_value c with
              | Some v => if v <? base then digits base t (n + 1) (acc * base + v) else (n, acc)
              | None => (n, acc) end
  | [] => (n, acc)
  end.
Definition sign (s : list byte) : bool * list byte :=
  match s with 45 :: t => (true, t) | 43 :: t => (false, t) | _ => (false, s) end.
(** sscanf(s, "%x", ..) of glibc with a 64-bit unsigned long: too large numbers give
    the largest one; 32 bits are stored. *)
Definition hex_prefix (s : list byte) : list byte :=
  match s with 48 :: 120 :: t | 48 :: 88 :: t => t | _ => s end.
Definition scan_hex (s : list byte) : option N :=
  let '(neg, s) := sign (skip_space s) in
  let '(n, v) := digits 16 (hex_prefix s) 0 0 in
  if n =? 0 then None
  else Some ((if neg && (v <? two64) then two64 - v else if v <? two64 then v else two64 - 1) mod 2 ^ 32).
(** sscanf(s, "port=%d", ..) of glibc with a 64-bit long: its result, and what is
    stored if that is 1. *)
Inductive scanned := Matched (p : Z) | Failed | AtEnd.
Fixpoint literal (p s : list byte) : list byte + scanned :=
  match p, s with
  | [], _ => inl s
  | _, [] => inr AtEnd
  | x :: p, y :: s => if x =? y then literal p s else inr Failed
  end.
Definition to_int (z : Z) : Z := ((z + 2 ^ 31) mod 2 ^ 32 - 2 ^ 31)%Z.
Definition scan_port (s : list byte) : scanned :=
  match literal (text "port=") s with
  | inr r => r
  | inl s =>
      match skip_space s with
      | [] => AtEnd
      | s =>
          let '(neg, s) := sign s in
          let '(n, v) := digits 10 s 0 0 in
          if n =? 0 then Failed
          else Matched (to_int (if neg then Z.max (- Z.of_N v) (- 2 ^ 63) else Z.min (Z.of_N v) (2 ^ 63 - 1)))
      end
  end.
(** The tokens strtok(s, ";") gives. *)
Fixpoint strtok_loop (s cur : list byte) : list (list byte) :=
  let flush := match cur with [] => [] | _ => [rev cur] end in
  match s with
  | [] => flush
  | c :: t => if c =? 59 then flush ++ strtok_loop t [] else strtok_loop t (c :: cur)
  end.
Definition strtok (s : list byte) : list (list byte) := strtok_loop s [].

(** printf's "%d" and "%08x". *)
Definition dec_int (z : Z) : list byte :=
  if (z <? 0)%Z then 45 :: dec (Z.to_N (- z)) else dec (Z.to_N z).
Definition hex_digit (n : N) : byte := if n <? 10 then 48 + n else 87 + n.
Definition hex8 (n : N) : list byte :=
  map (fun k => hex_digit ((n / 16 ^ k) mod 16)) [7; 6; 5; 4; 3; 2; 1; 0].

(** ** Sending *)
(** Creating a message and appending to it; [None]: one of them failed. *)
Definition made (m : message + err) (ops : list bop) : res (option message) :=
  match m with
  | inr _ => Ok None
  | inl m => do r <- append m ops; Ok (match snd r with None => Some (fst r) | Some _ => None end)
  end.
(** Sealing it, rtsp_send() or rtsp_call_async(), and dropping the reference: has it
    been accepted? The result of sealing is not looked at. *)
Definition post (b : bus) (m : message) (cb : bool) : res (bus * bool) :=
  do r <- seal (b_ck b) m;
  let '(ck, m, _) := r in
  let b := mkBus ck (b_dead b) (b_event b) (b_calls b) (b_out b) (b_table b) in
  do r <- call_async b m cb;
  let '(b', _, e) := r in
  Ok (user_unref b' (length (b_calls b)), no_ptr e).

(** sink_handle_options, src/ctl/ctl-sink.c:32-76. *)
Definition handle_options (w : world) (m : message) : res world :=
  do rep <- made (new_reply_for m 200 [])
    [BOpen (text "Public"); BToken (text "org.wfa.wfd1.0, GET_PARAMETER, SET_PARAMETER"); BClose];
  match rep with
  | None => Ok w
  | Some rep =>
      do r <- post (w_bus w) rep false;
      let w := set_bus w (fst r) in
      if negb (snd r) then Ok w
      else
        do req <- made (new_request (text "OPTIONS") (text "*"))
          [BOpen (text "Require"); BToken (text "org.wfa.wfd1.0"); BClose];
        match req with
        | None => Ok w
        | Some req => do r <- post (w_bus w) req true; Ok (set_bus w (fst r))
        end
  end.

(** g_hash_table_lookup in protocol_extensions. *)
Fixpoint lookup (l : list (list byte * list byte)) (key : list byte) : option (list byte) :=
  match l with
  | [] => None
  | (k, v) :: l => if str_eq k key then Some v else lookup l key
  end.
Definition extension (s : sink) (key default : list byte) : list byte :=
  match s_ext s with
  | None => default
  | Some l => match lookup l key with Some v => v | None => default end
  end.
Definition video_formats : list byte := text "wfd_video_formats".
Definition audio_codecs : list byte := text "wfd_audio_codecs".
Definition uibc_capability : list byte := text "wfd_uibc_capability".
(** The options and values sink_handle_get_parameter goes through,
    src/ctl/ctl-sink.c:87-154. *)
Definition default_formats (s : sink) : list byte :=
  text "00 00 03 10 " ++ hex8 (s_cea s) ++ [32] ++ hex8 (s_vesa s) ++ [32] ++ hex8 (s_hh s)
  ++ text " 00 0000 0000 10 none none".
Definition options_of (w : world) : list (list byte * list byte) :=
  let s := w_sink w in
  [(text "wfd_content_protection", text "none");
   (video_formats, extension s video_formats (default_formats s));
   (audio_codecs, extension s audio_codecs (text "AAC 00000007 00"));
   (text "wfd_client_rtp_ports", text "RTP/AVP/UDP;unicast " ++ dec_int (w_port w) ++ text " 0 mode=play")]
  ++ match s_ext s with
     | None => []
     | Some l => map (fun e => (fst e, extension s (fst e) []))
                   (filter (fun e => negb (str_eq (fst e) video_formats || str_eq (fst e) audio_codecs
                                           || str_eq (fst e) uibc_capability)) l)
     end
  ++ (if w_option w then
        [(uibc_capability, extension s uibc_capability
            (text "input_category_list=GENERIC;generic_cap_list=Mouse,SingleTouch;hidc_cap_list=none;port=none"))]
      else []).
(** check_and_response_option, src/ctl/ctl-sink.h:82-90, one after the other:
    [None] if appending has failed. *)
Fixpoint respond (m rep : message) (l : list (list byte * list byte)) : res (option message) :=
  match l with
  | [] => Ok (Some rep)
  | (option, response) :: l =>
      do r <- read m [RBody; REnter option; RExit; RBodyEnd];
      match r with
      | (m, inr _) => respond m rep l
      | (m, inl _) =>
          if lenN option + 2 + lenN response <? 512 then
            do r <- append rep [BBody; BRaw (option ++ [58; 32] ++ response); BBodyEnd];
            match r with
            | (rep, None) => respond m rep l
            | (_, Some _) => Ok None
            end
          else UB
      end
  end.
(** sink_handle_get_parameter, src/ctl/ctl-sink.c:78-162. *)
Definition handle_get_parameter (w : world) (m : message) : res world :=
  match new_reply_for m 200 [] with
  | inr _ => Ok w
  | inl rep =>
      do rep <- respond m rep (options_of w);
      match rep with
      | None => Ok w
      | Some rep => do r <- post (w_bus w) rep false; Ok (set_bus w (fst r))
      end
  end.

(** sink_setup_fn, src/ctl/ctl-sink.c:168-212; [None] is a reply that has not come in
    time. *)
Definition setup_fn (w : world) (m : option message) : res world :=
  match m with
  | None => Ok w
  | Some m =>
      do r <- read m [REnter (text "Session"); RString; RExit];
      match snd r with
      | inl [session] =>
          let ns := fst (break_at 59 session) in
          let w := set_sink w (with_session (w_sink w) ns) in
          match s_url (w_sink w) with
          | None => Ok w
          | Some url =>
              do req <- made (new_request (text "PLAY") url) [BOpen (text "Session"); BToken ns; BClose];
              match req with
              | None => Ok w
              | Some req => do r <- post (w_bus w) req true; Ok (set_bus w (fst r))
              end
          end
      | _ => Ok w
      end
  end.

(** The text of a parameter: rtsp_message_read(m, "{<s>}", name, ..). *)
Definition string_of (name : list byte) : list rop := [RBody; REnter name; RString; RExit; RBodyEnd].
Definition differs (o : option (list byte)) (x : list byte) : bool :=
  match o with Some y => negb (str_eq y x) | None => true end.
(** The loop over the tokens of the UIBC capabilities, src/ctl/ctl-sink.c:289-301. *)
Fixpoint find_port (w : world) (l : list (list byte)) : world :=
  match l with
  | [] => w
  | t :: l =>
      match scan_port t with
      | Failed => find_port w l
      | AtEnd => set_uibc w (w_option w || w_enabled w) (w_uibc_port w)
      | Matched p => set_uibc w (w_option w || w_enabled w) p
      end
  end.
(** sink_handle_set_parameter, src/ctl/ctl-sink.c:235-357, by its parts. *)
Definition take_url (w : world) (m : message) : res (world * message) :=
  do r <- read m (string_of (text "wfd_presentation_URL"));
  Ok (match snd r with
      | inl [url] => if differs (s_url (w_sink w)) url then set_sink w (with_url (w_sink w) url) else w
      | _ => w end, fst r).
Definition take_config (w : world) (m : message) : res (world * message) :=
  do r <- read m [RBody; REnter uibc_capability; RRaw; RExit; RBodyEnd];
  Ok (match snd r with
      | inl [config] =>
          if differs (s_uibc_config (w_sink w)) config then
            let w := set_sink w (with_config (w_sink w) config) in
            if case_eq config (text "none") then set_uibc w false (w_uibc_port w)
            else find_port w (strtok config)
          else w
      | _ => w end, fst r).
Definition take_setting (w : world) (m : message) : res (world * message) :=
  do r <- read m (string_of (text "wfd_uibc_setting"));
  Ok (match snd r with
      | inl [x] => if differs (s_uibc_setting (w_sink w)) x then set_sink w (with_setting (w_sink w) x) else w
      | _ => w end, fst r).
Definition hex_number : rop := RNumber (fun t => match scan_hex t with Some n => Some [n] | None => None end).
(** [false]: no format is known. *)
Definition take_formats (w : world) (m : message) : res (world * message * bool) :=
  do r <- read m [RBody; REnter video_formats; RSkip; RSkip; RSkip; RSkip; hex_number; hex_number; hex_number; RExit; RBodyEnd];
  Ok (match snd r with
      | inl [[cea]; [vesa]; [hh]] =>
          match set_format cea vesa hh with
          | Some (h, v) => (set_shown (set_sink w (with_res (w_sink w) h v)) (h, v), fst r, true)
          | None => (w, fst r, false)
          end
      | _ => (w, fst r, true) end).
Definition take_trigger (w : world) (m : message) : res world :=
  do r <- read m (string_of (text "wfd_trigger_method"));
  match snd r with
  | inl [trigger] =>
      if str_eq trigger (text "SETUP") then
        match s_url (w_sink w) with
        | None => Ok w
        | Some url =>
            do req <- made (new_request (text "SETUP") url)
              [BOpen (text "Transport"); BToken (text "RTP/AVP/UDP;unicast;client_port=" ++ dec_int (w_port w)); BClose];
            match req with
            | None => Ok w
            | Some req => do r <- post (w_bus w) req true; Ok (set_bus w (fst r))
            end
        end
      else Ok w
  | _ => Ok w
  end.
Definition handle_set_parameter (w : world) (m : message) : res world :=
  match new_reply_for m 200 [] with
  | inr _ => Ok w
  | inl rep =>
      do r <- post (w_bus w) rep false;
      let w := set_bus w (fst r) in
      if negb (snd r) then Ok w
      else
        do r <- take_url w m;
        do r <- take_config (fst r) (snd r);
        do r <- take_setting (fst r) (snd r);
        do r <- take_formats (fst r) (snd r);
        let '(w, m, known) := r in
        if known then take_trigger w m else Ok w
  end.

(** sink_handle, src/ctl/ctl-sink.c:359-378. *)
Definition handle (w : world) (m : message) : res world :=
  match m_start m with
  | Request method _ =>
      if str_eq method (text "OPTIONS") then handle_options w m
      else if str_eq method (text "GET_PARAMETER") then handle_get_parameter w m
      else if str_eq method (text "SET_PARAMETER") then handle_set_parameter w m
      else Ok w
  | _ => Ok w
  end.
