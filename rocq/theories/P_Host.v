(** C216-C220: settings files, interfaces, the connection and the dumps of miracle-uibcctl. *)
From Coq Require Import String.
From Verif Require Import Base Text Host_Model Host_Spec Host_Proofs.
Local Open Scope list_scope.
Local Open Scope N_scope.

(** C216: the settings are those of the first of the six files that can be loaded, and no others; *)
Theorem C216_first : forall A (fs : list byte -> ini A) home r, no_slash_end home ->
  (load_ini_file fs home = Some r <->
   exists l p u c, places home = l ++ p :: u /\ fs p = Loads c /\ r = Some c /\ forall q, In q l -> forall d, fs q <> Loads d).
Proof. exact load_first. Qed.
(** there are none if there is no such file. *)
Theorem C216_none : forall A (fs : list byte -> ini A) home, no_slash_end home ->
  (load_ini_file fs home = None <-> forall p, In p (places home) -> forall c, fs p <> Loads c).
Proof. exact load_none. Qed.
Definition files1 : list byte -> ini N := fun p =>
  if str_eq p (text "/home/u/.miraclecastrc") then Broken 1
  else if str_eq p (text "/home/u/.config/miraclecast/config") then Loads 2
  else if str_eq p (text "/etc/miraclecastrc") then Loads 3 else Absent.
Example C216_ex :
  load_ini_file files1 (text "/home/u") = Some (Some 2) /\ load_ini_file files1 (text "/home/u//") = Some (Some 2)
  /\ load_ini_file files1 (text "/") = Some (Some 3) /\ load_ini_file (fun _ => Broken 1) (text "/") = None
  /\ config_paths (text "/") = map text ["/.miraclecastrc"; "/.miraclecast/config"; "/.config/miraclecastrc"; "/.config/miraclecast/config"; "/etc/miraclecastrc"; "/etc/miraclecast/config"]%string
  /\ build [] [text "a"; text "b"] = text "a/b"
  /\ no_slash_end (text "/home/u").
Proof. repeat split; try (vm_compute; reflexivity); vm_compute; discriminate. Qed.

(** C217: the DHCP program works on the interface that it was told. Refuted: of a name of 16
    bytes the last one is ignored, *)
Theorem C217_long_refuted : exists ifs name i, netdevs ifs /\ (forall j, ~ In (name, j) ifs)
  /\ if_name_to_index ifs None name = Z.of_N i /\ 1 <= i /\ lenN name = 16 /\ ~ In 58 name.
Proof. exact cex_long. Qed.
(** and what follows a colon. *)
Theorem C217_alias_refuted : exists ifs name i, netdevs ifs /\ (forall j, ~ In (name, j) ifs)
  /\ if_name_to_index ifs None name = Z.of_N i /\ 1 <= i /\ lenN name <= 15.
Proof. exact cex_alias. Qed.
(** Missing: those names. Otherwise the index is that of the interface of that name, *)
Theorem C217_index_partial : forall ifs name i, netdevs ifs -> lenN name <= 15 -> ~ In 0 name -> ~ In 58 name ->
  (if_name_to_index ifs None name = Z.of_N i <-> In (name, i) ifs).
Proof. exact index_exact. Qed.
(** and it is an error if there is none. *)
Theorem C217_error_partial : forall ifs sock name, netdevs ifs -> lenN name <> 16 -> ~ In 0 name -> ~ In 58 name ->
  (forall i, ~ In (name, i) ifs) -> (if_name_to_index ifs sock name < 0)%Z.
Proof. exact index_error. Qed.
Example C217_ex :
  let ifs := [(text "lo", 1); (text "wlan0", 3); (text "p2p-wlp0s20f3u1", 7)] in
  if_name_to_index ifs None (text "wlan0") = 3%Z /\ if_name_to_index ifs None (text "p2p-wlp0s20f3u1") = 7%Z
  /\ if_name_to_index ifs None (text "wlan") = (-19)%Z /\ if_name_to_index ifs None (text "p2p-wlp0s20f3u123") = (-22)%Z
  /\ if_name_to_index ifs (Some 24%positive) (text "wlan0") = (-24)%Z /\ if_name_to_index ifs None [] = (-19)%Z.
Proof. repeat split; vm_compute; reflexivity. Qed.

(** C218: miracle-uibcctl connects to the host and port that it is given, and its status tells
    when it cannot. Refuted: an unknown host is a success, *)
Theorem C218_host_refuted : exists hosts conn args, lenN args = 3 /\ (exists h, nth_error args 1 = Some h /\ hosts h = None)
  /\ uibc_begin hosts true conn args = Ok (Exit 0).
Proof. exact cex_nohost. Qed.
(** a port above 65535 is taken for another one, *)
Theorem C218_port_refuted : exists hosts conn n a p, 2 ^ 16 <= n /\ p <> n
  /\ uibc_begin hosts true conn [text "miracle-uibcctl"; text "localhost"; dec n] = Ok (Connected a p).
Proof. exact cex_port. Qed.
(** and a word for port 0. *)
Theorem C218_word_refuted : exists hosts conn p, uibc_begin hosts true conn [text "miracle-uibcctl"; text "localhost"; text "http"] = Ok (Connected p 0).
Proof. exact cex_word. Qed.
(** Missing: unknown hosts, and ports that are none. *)
Theorem C218_begin_partial : forall hosts conn prog host n more a, n < 2 ^ 16 -> hosts host = Some a ->
  uibc_begin hosts true conn (prog :: host :: dec n :: more) = Ok (if conn a n then Connected a n else Exit 1).
Proof. exact begin_ok. Qed.
Theorem C218_few : forall hosts sock conn args, lenN args < 3 -> uibc_begin hosts sock conn args = Ok (Exit 1).
Proof. exact begin_few. Qed.
Theorem C218_host_partial : forall hosts sock conn prog host port more a p,
  uibc_begin hosts sock conn (prog :: host :: port :: more) = Ok (Connected a p) -> hosts host = Some a /\ conn a p = true /\ p < 2 ^ 16.
Proof. exact begin_host. Qed.
Example C218_ex :
  uibc_begin local true (fun _ p => p =? 7239) [text "u"; text "localhost"; text "7239"] = Ok (Connected [127; 0; 0; 1] 7239)
  /\ uibc_begin local true (fun _ p => p =? 7239) [text "u"; text "localhost"; text "7240"; text "x"] = Ok (Exit 1)
  /\ uibc_begin local false (fun _ _ => true) [text "u"; text "localhost"; text "7239"] = Ok (Exit 1)
  /\ uibc_begin local true (fun _ _ => true) [text "u"; text "localhost"; text "99999999999"] = UB
  /\ uibc_begin local true (fun _ _ => true) [text "u"; text "localhost"; text "-1"] = Ok (Connected [127; 0; 0; 1] 65535).
Proof. repeat split; vm_compute; reflexivity. Qed.

(** C219: the dump of a message shows its bytes in rows, each as eight binary digits. Refuted: *)
Theorem C219_eight_refuted : exists data out, Forall (fun x => x < 256) data /\ binarydump data = Ok out /\ ~ rows 8 (shown_bits 8) 0 data out.
Proof. exact cex_eight. Qed.
(** in fact never eight. *)
Theorem C219_never : forall data out, Forall (fun x => x < 256) data -> data <> [] -> binarydump data = Ok out -> ~ rows 8 (shown_bits 8) 0 data out.
Proof. exact binary_not8. Qed.
(** Missing: the number of digits, which is nine. *)
Theorem C219_rows_partial : forall data, Forall (fun x => x < 256) data -> exists out, binarydump data = Ok out /\ rows 8 (shown_bits 9) 0 data out.
Proof. exact binary_rows. Qed.
(** The other dump, which nothing calls, has two digits of base 16. *)
Theorem C219_hex : forall data, Forall (fun x => x < 256) data -> exists out, hexdump data = Ok out /\ rows 16 shown_hex 0 data out.
Proof. exact hex_rows. Qed.
Example C219_ex :
  binarydump [0; 5; 255] = Ok (text "0000: 000000000 000000101 011111111 " ++ [10])
  /\ binarydump (repeat 1 9) = Ok (text "0000: " ++ flat_map (fun _ => text "000000001 ") (repeat 0 8) ++ [10] ++ text "0008: 000000001 " ++ [10])
  /\ binarydump (repeat 1 8) = Ok (text "0000: " ++ flat_map (fun _ => text "000000001 ") (repeat 0 8) ++ [10])
  /\ hexdump (repeat 175 17) = Ok (text "0000: " ++ flat_map (fun _ => text "af ") (repeat 0 16) ++ [10] ++ text "0016: af " ++ [10])
  /\ binarydump [] = Ok [].
Proof. repeat split; vm_compute; reflexivity. Qed.

(** C220: int2binary writes a number in base 2 without leaving its memory. Refuted: for 0 and 1
    without padding, *)
Theorem C220_small_refuted : exists x padding, is_int x /\ is_int padding /\ (0 <= x)%Z /\ (0 <= padding)%Z /\ int2binary x padding = UB.
Proof. exact cex_small. Qed.
(** and with a padding that is too big; these are all. *)
Theorem C220_never : forall x padding, (width x padding = 0 \/ 31 <= width x padding)%Z -> int2binary x padding = UB.
Proof. exact int2binary_ub. Qed.
Theorem C220_value_partial : forall x padding, (1 <= width x padding <= 30)%Z ->
  exists b, int2binary x padding = Ok b /\ Z.of_N (lenN b) = (width x padding + 1)%Z /\ forallb is_bit b = true
            /\ bin_val b = (x mod 2 ^ (width x padding + 1))%Z.
Proof. exact int2binary_ok. Qed.
Example C220_ex :
  int2binary 6 1 = Ok (text "110") /\ int2binary 6 4 = Ok (text "00110") /\ int2binary (-1) 3 = Ok (text "1111")
  /\ int2binary 5 (-7) = Ok (text "101") /\ int2binary 2147483647 3 = Ok (repeat 49 31) /\ int2binary 0 31 = UB
  /\ width 6 1 = 2%Z /\ width 0 (-3) = 0%Z.
Proof. repeat split; vm_compute; reflexivity. Qed.

Print Assumptions C216_first.
Print Assumptions C216_none.
Print Assumptions C217_long_refuted.
Print Assumptions C217_alias_refuted.
Print Assumptions C217_index_partial.
Print Assumptions C217_error_partial.
Print Assumptions C218_host_refuted.
Print Assumptions C218_port_refuted.
Print Assumptions C218_word_refuted.
Print Assumptions C218_begin_partial.
Print Assumptions C218_few.
Print Assumptions C218_host_partial.
Print Assumptions C219_eight_refuted.
Print Assumptions C219_never.
Print Assumptions C219_rows_partial.
Print Assumptions C219_hex.
Print Assumptions C220_small_refuted.
Print Assumptions C220_never.
Print Assumptions C220_value_partial.
