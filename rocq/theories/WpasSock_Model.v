(** Model of the sockets of the supplicant channel, src/shared/wpas.c:322-372,
    901-1160, and of the part of the kernel they use: names of Unix sockets in the
    file system and abstract ones. *)
From Coq Require Import String.
From Verif Require Import Base Text.
Local Open Scope list_scope.
Local Open Scope N_scope.

Definition EPERM := 1%Z. Definition ENOENT := 2%Z. Definition EINVAL := 22%Z. Definition EMFILE := 24%Z.
Definition EPROTOTYPE := 91%Z. Definition EADDRINUSE := 98%Z. Definition ECONNREFUSED := 111%Z.

(** ** The kernel *)
(** struct sockaddr_un; [a_path] has 108 bytes. *)
Record addr := mkAddr { a_fam : N; a_path : list byte }.
Definition AF_UNIX : N := 1.
Fixpoint cstr (l : list byte) : list byte := match l with [] => [] | 0 :: _ => [] | x :: l => x :: cstr l end.
(** unix(7), addresses of the full length: a path up to the first zero, or with a zero
    first an abstract name of all other bytes. *)
Inductive place := AtPath (p : list byte) | AtName (n : list byte).
Definition place_of (a : addr) : option place :=
  if a_fam a =? AF_UNIX then match a_path a with 0 :: n => Some (AtName n) | p => Some (AtPath (cstr p)) end else None.
(** What is at a path: a socket, made by the user of this program or not, or something
    else. *)
Inductive node := NSock (id : N) (ours : bool) | NFile.
(** A socket that is open: its type, and whether it takes connections of this program
    (it may be connected to another one, or not permit it). *)
Record sock := mkSock { k_id : N; k_dgram : bool; k_takes : bool }.
(** [x_mk]: the error of making a file at a path. [x_rm]: whether files of others can
    be removed from a path. *)
Record world := mkWorld {
  x_files : list (list byte * node); x_names : list (list byte * N); x_socks : list sock; x_next : N;
  x_mk : list byte -> option positive; x_rm : list byte -> bool }.
Fixpoint lookup {A : Type} (p : list byte) (l : list (list byte * A)) : option A :=
  match l with [] => None | (q, n) :: l => if str_eq q p then Some n else lookup p l end.
Definition remove {A : Type} (p : list byte) (l : list (list byte * A)) : list (list byte * A) := filter (fun e => negb (str_eq (fst e) p)) l.
Definition sock_of (w : world) (id : N) : option sock := find (fun k => k_id k =? id) (x_socks w).
Definition k_socket (w : world) : N * world :=
  (x_next w, mkWorld (x_files w) (x_names w) (mkSock (x_next w) true true :: x_socks w) (x_next w + 1) (x_mk w) (x_rm w)).
Definition k_bind (w : world) (fd : N) (a : addr) : Z * world :=
  match place_of a with
  | None => (- EINVAL, w)%Z
  | Some (AtPath p) =>
      match lookup p (x_files w) with
      | Some _ => (- EADDRINUSE, w)%Z
      | None =>
          match x_mk w p with
          | Some e => (Z.neg e, w)
          | None => (0%Z, mkWorld ((p, NSock fd true) :: x_files w) (x_names w) (x_socks w) (x_next w) (x_mk w) (x_rm w))
          end
      end
  | Some (AtName n) =>
      match lookup n (x_names w) with
      | Some _ => (- EADDRINUSE, w)%Z
      | None => (0%Z, mkWorld (x_files w) ((n, fd) :: x_names w) (x_socks w) (x_next w) (x_mk w) (x_rm w))
      end
  end.
Definition k_reach (w : world) (id : N) : Z :=
  match sock_of w id with
  | None => (- ECONNREFUSED)%Z
  | Some k => if negb (k_dgram k) then (- EPROTOTYPE)%Z else if k_takes k then 0%Z else (- EPERM)%Z
  end.
Definition k_connect (w : world) (a : addr) : Z :=
  match place_of a with
  | None => (- EINVAL)%Z
  | Some (AtPath p) =>
      match lookup p (x_files w) with
      | None => (- ENOENT)%Z
      | Some NFile => (- ECONNREFUSED)%Z
      | Some (NSock id _) => k_reach w id
      end
  | Some (AtName n) => match lookup n (x_names w) with None => (- ECONNREFUSED)%Z | Some id => k_reach w id end
  end.
Definition k_unlink (w : world) (p : list byte) : world :=
  match lookup p (x_files w) with
  | None => w
  | Some n =>
      if (match n with NSock _ true => true | _ => x_rm w p end)
      then mkWorld (remove p (x_files w)) (x_names w) (x_socks w) (x_next w) (x_mk w) (x_rm w) else w
  end.
Definition k_close (w : world) (fd : N) : world :=
  mkWorld (x_files w) (filter (fun e => negb (snd e =? fd)) (x_names w)) (filter (fun k => negb (k_id k =? fd)) (x_socks w)) (x_next w) (x_mk w) (x_rm w).

(** ** Addresses *)
Definition SUN : N := 108.
(** strncpy: the bytes before the end, then zeros. *)
Definition strncpy (n : N) (l : list byte) : list byte := takeN n l ++ repeat 0 (N.to_nat (n - lenN l)).
Definition ABSTRACT : list byte := text "@abstract:".
(** src/shared/wpas.c:955-974 and 1022-1040; None: -EINVAL. *)
Definition is_abstract (path : list byte) : bool := str_eq (takeN 10 path) ABSTRACT.
Definition to_addr (path : list byte) : option addr :=
  if is_abstract path then
    if SUN - 12 <? lenN path then None else Some (mkAddr AF_UNIX ([0] ++ strncpy (SUN - 2) (dropN 10 path) ++ [0]))
  else if SUN - 1 <? lenN path then None else Some (mkAddr AF_UNIX (strncpy (SUN - 1) path ++ [0])).

(** ** Clients *)
(** CTRL_PATH_TEMPLATE, src/shared/wpas.c:40, and 920-925. *)
Definition client_name (pid ctr : N) : list byte := takeN (SUN - 2) (text "/tmp/.miracle-wpas-" ++ dec pid ++ [45] ++ dec ctr).
(** wpas__bind_client_socket, src/shared/wpas.c:901-943. *)
Definition bind_client (w : world) (fd pid ctr : N) : Z * world :=
  let name := client_name pid ctr in
  let a := mkAddr AF_UNIX (strncpy SUN name) in
  let '(r, w) := k_bind w fd a in
  if (r =? - EADDRINUSE)%Z then k_bind (k_unlink w name) fd a else (r, w).
(** wpas__connect_client_socket, src/shared/wpas.c:945-981. *)
Definition connect_client (w : world) (path : list byte) : Z :=
  match to_addr path with None => (- EINVAL)%Z | Some a => k_connect w a end.
(** wpas__new_client_socket, src/shared/wpas.c:983-1014, and wpas_new, 1108-1141; the
    static counter is given and returned. The result: an error, or fd and name. [so]:
    whether socket() succeeds. *)
Inductive opened := Failed (r : Z) | Opened (fd : N) (name : list byte).
Definition open_client (w : world) (so : bool) (pid ctr : N) (path : list byte) : opened * world * N :=
  if negb so then (Failed (- EMFILE), w, ctr)%Z
  else
    let '(fd, w) := k_socket w in
    let ctr := (ctr + 1) mod 2 ^ 64 in
    let name := client_name pid ctr in
    let '(r, w) := bind_client w fd pid ctr in
    if (r <? 0)%Z then (Failed r, k_close (k_unlink w name) fd, ctr)
    else
      let r := connect_client w path in
      if (r <? 0)%Z then (Failed r, k_close (k_unlink w name) fd, ctr)
      else (Opened fd name, w, ctr).

(** ** Servers *)
(** wpas__bind_server_socket, src/shared/wpas.c:1016-1061, and wpas__new_server_socket,
    1063-1082. The name of an abstract server is empty. *)
Definition open_server (w : world) (so : bool) (path : list byte) : opened * world :=
  if negb so then (Failed (- EMFILE), w)%Z
  else
    let '(fd, w) := k_socket w in
    match to_addr path with
    | None => (Failed (- EINVAL), k_close w fd)%Z
    | Some a =>
        let name := cstr (a_path a) in
        let '(r, w) := k_bind w fd a in
        if (r <? 0)%Z then
          if is_abstract path then (Failed (- EADDRINUSE), k_close w fd)%Z
          else if (k_connect w a <? 0)%Z then
            let '(r, w) := k_bind (k_unlink w path) fd a in
            if (r <? 0)%Z then (Failed r, k_close w fd) else (Opened fd name, w)
          else (Failed (- EADDRINUSE), k_close w fd)%Z
        else (Opened fd name, w)
    end.
(** wpas__close, src/shared/wpas.c:1084-1095. *)
Definition close_bus (w : world) (fd : N) (name : list byte) : world :=
  let w := k_close w fd in match name with [] => w | _ => k_unlink w name end.

(** ** Peers of messages *)
(** wpas_message_get_peer, src/shared/wpas.c:327-333: the array of the address is
    returned; its reader sees it from the start. *)
Definition get_peer (a : addr) : list byte := a_path a.
(** wpas_message_get_escaped_peer, src/shared/wpas.c:335-347. *)
Definition get_escaped_peer (a : addr) : list byte :=
  match a_path a with 0 :: n => ABSTRACT ++ cstr n | p => cstr p end.
(** wpas_message_set_peer, src/shared/wpas.c:349-372, on a new message: the family of
    its address is zero (calloc) and is not set. [l]: the bytes at the argument. *)
Definition set_peer (l : list byte) : addr :=
  match l with
  | 0 :: n => mkAddr 0 ([0] ++ strncpy (SUN - 2) (cstr n) ++ [0])
  | _ => mkAddr 0 (strncpy (SUN - 1) (cstr l) ++ [0])
  end.
(** wpas_message_new_reply_for, src/shared/wpas.c:215-233. *)
Definition reply_peer (request : addr) : addr := request.
