(** Model of small functions at the edge of the programs: load_ini_file,
    src/shared/util.h:36-65; if_name_to_index, src/dhcp/dhcp.c:249-271; what
    src/uibc/miracle-uibcctl.c does before its loop, 17-46, and prints, 87-104 and 249-290. *)
From Coq Require Import String.
From Verif Require Import Base Text.
From Verif Require Log_Model WpasMsg_Model.
Local Open Scope list_scope.
Local Open Scope N_scope.

(** ** The configuration file *)
Definition slash : byte := 47.
Fixpoint strip (r : list byte) : list byte :=
  match r with x :: t => if x =? slash then strip t else r | [] => [] end.
(** g_build_filenamev with a first element that may end in slashes; the others do not begin or
    end in one. *)
Fixpoint join (es : list (list byte)) : list byte :=
  match es with [] => [] | [e] => e | e :: es => e ++ slash :: join es end.
Definition build (first : list byte) (es : list (list byte)) : list byte :=
  match first with [] => join es | _ => rev (strip (rev first)) ++ slash :: join es end.
(** What g_key_file_load_from_file finds: [Broken]: what was read before the error. *)
Inductive ini (A : Type) := Loads (c : A) | Broken (c : A) | Absent.
Arguments Loads {A}. Arguments Broken {A}. Arguments Absent {A}.
(** It drops what the key file had. *)
Definition key_file_load {A} (gkf : option A) (i : ini A) : bool * option A :=
  match i with Loads c => (true, Some c) | Broken c => (false, Some c) | Absent => (false, None) end.
Definition config_paths (home : list byte) : list (list byte) :=
  [build home [text ".miraclecastrc"];
   build home [text ".miraclecast"; text "config"];
   build home [text ".config"; text "miraclecastrc"];
   build home [text ".config"; text "miraclecast"; text "config"];
   build (text "/etc") [text "miraclecastrc"];
   build (text "/etc") [text "miraclecast"; text "config"]].
Fixpoint load_loop {A} (fs : list byte -> ini A) (gkf : option A) (paths : list (list byte)) : option (option A) :=
  match paths with
  | [] => None
  | p :: paths => let '(ok, gkf) := key_file_load gkf (fs p) in if ok then Some gkf else load_loop fs gkf paths
  end.
Definition load_ini_file {A} (fs : list byte -> ini A) (home : list byte) : option (option A) :=
  load_loop fs None (config_paths home).

(** ** if_name_to_index *)
Definition IFNAMSIZ : N := 16.
(** A C string in an array. *)
Fixpoint until (c : byte) (l : list byte) : list byte :=
  match l with [] => [] | x :: t => if x =? c then [] else x :: until c t end.
(** strncpy. *)
Definition strncpy (s : list byte) (n : N) : list byte := takeN n s ++ repeat 0 (N.to_nat (n - lenN s)).
(** SIOCGIFINDEX, net/core/dev_ioctl.c of Linux: the last byte is set to 0 and a colon ends the
    name. Alternative names of interfaces are left out. *)
Definition siocgifindex (ifs : list (list byte * N)) (ifr_name : list byte) : option N :=
  let name := until 58 (until 0 (takeN (IFNAMSIZ - 1) ifr_name)) in
  option_map snd (find (fun i => str_eq (fst i) name) ifs).
(** [sock]: the error of socket. *)
Definition if_name_to_index (ifs : list (list byte * N)) (sock : option positive) (name : list byte) : Z :=
  if IFNAMSIZ <? lenN name then (-22)%Z
  else match sock with
       | Some e => Zneg e
       | None => match siocgifindex ifs (strncpy name IFNAMSIZ) with Some i => Z.of_N i | None => (-19)%Z end
       end.

(** ** miracle-uibcctl: the connection *)
(** Status, or the address and port that it is connected to. [hosts]: gethostbyname; [sock]:
    whether there is a socket; [conn]: whether something listens. *)
Inductive began := Exit (s : N) | Connected (a : list byte) (port : N).
Definition uibc_begin (hosts : list byte -> option (list byte)) (sock : bool) (conn : list byte -> N -> bool)
  (args : list (list byte)) : res began :=
  match args with
  | _ :: host :: port :: _ =>
      do n <- WpasMsg_Model.atoi port;
      match hosts host with
      | None => Ok (Exit 0)
      | Some a =>
          if negb sock then Ok (Exit 1)
          else let p := Z.to_N (n mod 2 ^ 16) in
               if conn a p then Ok (Connected a p) else Ok (Exit 1)
      end
  | _ => Ok (Exit 1)
  end.

(** ** miracle-uibcctl: dumps *)
(** The loop of int2binary. *)
Fixpoint bits (fuel : nat) (x z : Z) : list byte :=
  match fuel with
  | O => []
  | S fuel => if (0 <? z)%Z then (if (Z.land x z =? z)%Z then 49 else 48) :: bits fuel x (Z.shiftr z 1) else []
  end.
(** [UB]: writes behind the memory, which has sizeof (char * ) * padding + 1 bytes, or 2^padding is
    no int. Memory can be allocated. *)
Definition int2binary (x padding : Z) : res (list byte) :=
  let m := if (0 <? x)%Z then Z.log2 x else 0%Z in
  let p := if (padding <? m)%Z then m else padding in
  if (31 <=? p)%Z then UB
  else let b := bits (S (Z.to_nat p)) x (2 ^ p)%Z in
       if lenN b + 1 <=? 8 * Z.to_N p + 1 then Ok b else UB.
Definition hex1 (d : N) : byte := if d <? 10 then 48 + d else 87 + d.
Definition hex02 (x : byte) : list byte := [hex1 (x / 16); hex1 (x mod 16)].
(** hexdump and binarydump differ in [line] and in how a byte is printed. *)
Fixpoint dump (line : N) (item : byte -> res (list byte)) (count : N) (data : list byte) : res (list byte) :=
  match data with
  | [] => Ok (if N.land count line =? 0 then [] else [10])
  | x :: data =>
      do i <- item x;
      do rest <- dump line item (count + 1) data;
      Ok ((if N.land count line =? 0 then Log_Model.zeros 4 (dec count) ++ text ": " else [])
          ++ i ++ [32] ++ (if N.land count line =? line then [10] else []) ++ rest)
  end.
Definition hexdump (data : list byte) : res (list byte) := dump 15 (fun x => Ok (hex02 x)) 0 data.
Definition binarydump (data : list byte) : res (list byte) := dump 7 (fun x => int2binary (Z.of_N x) 8) 0 data.
