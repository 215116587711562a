(** A session with a source, and cases that go wrong. *)
From Coq Require Import String.
From Verif Require Import Base Text RtspMsg_Model RtspMsg_Spec RtspParser_Model RtspParser_Spec RtspBus_Model Sink_Model Sink_Spec.

Definition crlf (l : list string) : list byte := flat_map (fun s => text s ++ [13; 10]) l.
(** A request of the source as it arrives. *)
Definition body_length (l : list string) : list byte := text "Content-Length: " ++ dec (lenN (crlf l)) ++ [13; 10].
Definition arriving (head body : list string) : list byte :=
  crlf head ++ match body with [] => [] | _ => text "Content-Type: text/parameters" ++ [13; 10] ++ body_length body end ++ [13; 10] ++ crlf body.
Definition incoming (head body : list string) : message :=
  match received (arriving head body) with Some (m :: _, _) => m | _ => msg_new (Unknown []) end.

Definition m1 : message := incoming ["OPTIONS * RTSP/1.0"; "CSeq: 1"; "Require: org.wfa.wfd1.0"]%string [].
Definition m3 : message := incoming ["GET_PARAMETER rtsp://localhost/wfd1.0 RTSP/1.0"; "CSeq: 2"]%string
  ["wfd_client_rtp_ports"; "wfd_audio_codecs"; "wfd_video_formats"; "wfd_uibc_capability"]%string.
Definition m4 : message := incoming ["SET_PARAMETER rtsp://localhost/wfd1.0 RTSP/1.0"; "CSeq: 3"]%string
  ["wfd_video_formats: 00 00 02 10 00000080 00000000 00000000 00 0000 0000 11 none none";
   "wfd_audio_codecs: AAC 00000001 00"; "wfd_presentation_URL: rtsp://192.168.173.1/wfd1.0/streamid=0 none";
   "wfd_uibc_capability: input_category_list=GENERIC;generic_cap_list=Mouse;hidc_cap_list=none;port=7239";
   "wfd_client_rtp_ports: RTP/AVP/UDP;unicast 1991 0 mode=play"]%string.
Definition m5 : message := incoming ["SET_PARAMETER rtsp://localhost/wfd1.0 RTSP/1.0"; "CSeq: 4"]%string
  ["wfd_trigger_method: SETUP"]%string.
Definition setup_reply : message := incoming ["RTSP/1.0 200 OK"; "CSeq: 2"; "Session: 6B8B4567;timeout=30"]%string [].
Definition setup_error : message := incoming ["RTSP/1.0 454 Session Not Found"; "CSeq: 2"; "Session: 6B8B4567"]%string [].
Definition teardown : message := incoming ["TEARDOWN rtsp://localhost/wfd1.0 RTSP/1.0"; "CSeq: 5"]%string [].
Definition port_missing : message := incoming ["SET_PARAMETER rtsp://localhost/wfd1.0 RTSP/1.0"; "CSeq: 3"]%string
  ["wfd_uibc_capability: input_category_list=GENERIC;port="]%string.

Definition new_sink (ext : option (list (list byte * list byte))) : sink :=
  mkSink None None None None 0x1ffff 0x1fffffff 0xfff 0 0 ext.
Definition start_world (wanted : bool) (ext : option (list (list byte * list byte))) : world :=
  mkWorld bus_open (new_sink ext) 1991 wanted false 0 [].
Definition later_world : world :=
  match handle_all (start_world true None) [m1; m3; m4] with Ok w => w | UB => start_world true None end.
