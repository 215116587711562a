(** Properties C180 .. C182: miracle-uibcctl as a program. *)
From Coq Require Import String.
From Verif Require Import Base Text Uibc_Model Uibc_Spec UibcMain_Model UibcMain_Spec UibcMain_Proofs UibcMain_Player UibcMain_Cex.
Local Open Scope list_scope.
Local Open Scope N_scope.

(** C180. What is written are the messages of the lines: not for moves, not for lines
    of more than 254 bytes, not if the kernel takes a part only. *)
Theorem C180_moves_refuted : exists l m, stands l m /\ is_line l /\ lenN l <= 254 /\ m <> [] /\ uibcctl all l = Ret ([], true).
Proof. exact move_lost. Qed.
Print Assumptions C180_moves_refuted.
Theorem C180_long_refuted : exists l m, stands l m /\ is_line l /\ uibcctl all l <> Ret (map Some m, true).
Proof. exact long_cut. Qed.
Print Assumptions C180_long_refuted.
Theorem C180_short_refuted : exists w e, (forall k, w k <> None) /\ small_event e /\ uibcctl w (print e) = Ret (map Some (takeN 5 (means e)), true).
Proof. exact part_lost. Qed.
Print Assumptions C180_short_refuted.
Theorem C180_lines_partial : forall w ls ms, takes_all w -> Forall2 stands ls ms -> Forall is_line ls -> Forall (fun l => lenN l <= 254 /\ ~ moves l) ls ->
  uibcctl w (concat ls) = Ret (map Some (concat ms), true).
Proof. exact uibcctl_lines. Qed.
Print Assumptions C180_lines_partial.
Theorem C180_ends : forall w s, uibcctl w s <> Endless.
Proof. exact uibcctl_ends. Qed.
Print Assumptions C180_ends.
Example C180_ex : uibcctl all (text "0,1,0,258,3" ++ [10; 10] ++ text "x" ++ [10] ++ text "1920 1080" ++ [10] ++ text "4,0x00FF, 0x1" ++ [10] ++ text "1,1,7,9,8")
  = Ret (map Some ([0; 0; 0; 14; 0; 0; 6; 1; 0; 1; 2; 0; 3; 0] ++ [0; 0; 0; 12; 4; 0; 5; 0; 0; 255; 0; 1] ++ [0; 0; 0; 14; 1; 0; 6; 1; 7; 0; 9; 0; 8; 0]), true).
Proof. vm_compute. reflexivity. Qed.
Example C180_scan_ex : map scan [text "0x+12345"; text " 0x-1F"; text "0x0xABC"; text "0x0XABC"; text "0xabcdef"; text "0x"; text "12"; text "0x -"; text "0x 0x"]
  = [Some 0x123; Some (- 0x1F); Some 0xAB; Some 0xAB; Some 0xabcd; None; None; None; Some 0]%Z.
Proof. vm_compute. reflexivity. Qed.
(** The first write fails, the second is cut. *)
Example C180_write_ex : uibcctl (fun k => match k with O => None | _ => Some 99 end) (text "0,1,0,258,3") = Ret ([], false)
  /\ uibcctl (fun k => match k with O => Some 99 | _ => Some 3 end) (text "4,0x00FF, 0x1" ++ [10] ++ text "1,1,7,9,8") = Ret (map Some ([0; 0; 0; 12; 4; 0; 5; 0; 0; 255; 0; 1] ++ [0; 0; 0]), true).
Proof. vm_compute. auto. Qed.

(** C181. Clicks and keys arrive as they are: a code of more than four digits is cut. *)
Theorem C181_key_refuted : small_event (Key 16785580) /\ uibcctl all (print (Key 16785580)) = Ret (map Some (means (Key 4098)), true) /\ means (Key 16785580) <> means (Key 4098).
Proof. exact key_cut. Qed.
Print Assumptions C181_key_refuted.
Theorem C181_events_partial : forall w es, takes_all w -> Forall small_event es ->
  exists ms, Forall2 arrives es ms /\ uibcctl w (concat (map print es)) = Ret (map Some (concat ms), true).
Proof. exact player_input. Qed.
Print Assumptions C181_events_partial.
Example C181_ex : uibcctl all (concat (map print [Mouse true 640 360; Mouse false 640 360; Key 65505])) =
  Ret (map Some ([0; 0; 0; 14; 0; 0; 6; 1; 0; 2; 128; 1; 104; 0] ++ [0; 0; 0; 14; 1; 0; 6; 1; 0; 2; 128; 1; 104; 0] ++ [0; 0; 0; 12; 3; 0; 5; 0; 255; 225; 0; 0]), true).
Proof. vm_compute. reflexivity. Qed.

(** C182. Zooming, scrolling and rotating give messages: none of them ever does. *)
Theorem C182_gestures_refuted : forall null g s, gesture_packet null g s = UB \/ (null = true /\ exists m, gesture_packet null g s = Ok m /\ send_null m = None).
Proof. exact gesture_nothing. Qed.
Print Assumptions C182_gestures_refuted.
Example C182_ex : gesture_packet true Zoom (text "5,1,2,3,4") = Ok (None, 13) /\ gesture_packet false Rotate (text "8,1,2") = UB /\ gesture_packet true Scroll (text "6,99999999999") = UB
  /\ gesture_packet true Scroll (text "6,1,0,3,99999999999") = Ok (None, 9) /\ gesture_packet true Scroll (text "6,1,0,99999999999") = UB
  /\ gesture_packet true Rotate (text "8,1,2,99999999999") = Ok (None, 9) /\ gesture_packet true Rotate (text "8,1,99999999999") = UB
  /\ gesture_packet true Zoom (text "5,1,2,3,4,99999999999") = Ok (None, 13) /\ gesture_packet true Zoom (text "5,1,2,3,99999999999") = UB.
Proof. repeat split; vm_compute; reflexivity. Qed.
