(** Model of how wifid starts programs: supplicant_find, src/wifi/wifid-supplicant.c:2456-2497,
    and the descriptors of supplicant_group_spawn_dhcp_server, _client and of
    supplicant_spawn, 354-495 and 2499-2550. The arguments of the programs are in Settings_Model
    and DhcpTalk_Model. *)
From Coq Require Import String.
From Verif Require Import Base Text.
Local Open Scope list_scope.
Local Open Scope N_scope.

(** ** Finding wpa_supplicant *)
Definition ENOENT := 2%Z. Definition ENOTDIR := 20%Z. Definition EINVAL := 22%Z.
(** strtok_r with ":", over the whole text: runs of other bytes. *)
Fixpoint tokens (cur : list byte) (l : list byte) : list (list byte) :=
  match l with
  | [] => match cur with [] => [] | _ => [rev cur] end
  | 58 :: l => match cur with [] => tokens [] l | _ => rev cur :: tokens [] l end
  | x :: l => tokens (x :: cur) l
  end.
Inductive found := Found (bin : list byte) | Error (r : Z).
(** [stat]: 0 or errno; [access]: whether it may be executed. Memory can be allocated. *)
Fixpoint find_in (stat : list byte -> Z) (access : list byte -> bool) (dirs : list (list byte)) : found :=
  match dirs with
  | [] => Error (- EINVAL)
  | d :: dirs =>
      let bin := d ++ text "/wpa_supplicant" in
      if negb (stat bin =? 0)%Z then
        if ((stat bin =? ENOENT) || (stat bin =? ENOTDIR))%Z then find_in stat access dirs else Error (- stat bin)
      else if access bin then Found bin else find_in stat access dirs
  end.
Definition supplicant_find (stat : list byte -> Z) (access : list byte -> bool) (path : option (list byte)) : found :=
  match path with None => Error (- EINVAL) | Some p => find_in stat access (tokens [] p) end.

(** ** Descriptors *)
(** What a descriptor refers to: an end of a channel, or anything else. *)
Inductive obj := EndA (k : N) | EndB (k : N) | Thing (x : N).
(** A table of descriptors: number, object, close on exec. *)
Definition table : Type := list (N * (obj * bool)).
Definition used (t : table) (n : N) : bool := existsb (fun e => fst e =? n) t.
Fixpoint lowest (fuel : nat) (t : table) (n : N) : N :=
  match fuel with O => n | S fuel => if used t n then lowest fuel t (n + 1) else n end.
(** The kernel gives the lowest number that is not in use. *)
Definition free_fd (t : table) : N := lowest (length t) t 0.
Definition open_fd (t : table) (o : obj) (cloexec : bool) : N * table := let n := free_fd t in (n, (n, (o, cloexec)) :: t).
Definition close_fd (t : table) (n : N) : table := filter (fun e => negb (fst e =? n)) t.
Definition exec (t : table) : table := filter (fun e => negb (snd (snd e))) t.
Definition look (t : table) (n : N) : option (obj * bool) := option_map snd (find (fun e => fst e =? n) t).
(** dup2: the copy is not closed on exec. *)
Definition dup2 (t : table) (old new : N) : table :=
  match look t old with
  | None => t
  | Some (o, _) => if old =? new then t else (new, (o, false)) :: close_fd t new
  end.
(** 382-396, 452-466 and 2407-2421: the output of a program goes to the journal [Some x], whose
    descriptor is closed on exec, or to the standard error. *)
Definition redirect (t : table) (journal : option N) : table :=
  match journal with
  | Some x => let '(j, t) := open_fd t (Thing x) true in dup2 (dup2 t j 1) j 2
  | None => dup2 t 2 1
  end.
(** A program that was started: its descriptors; the channel and number that it was told of. *)
Record kid := mkKid { k_pid : N; k_tab : table; k_chan : option (N * N) }.
(** dhcp_comm and dhcp_pid of a group; which channel it is does not exist in the program. *)
Record group := mkGroup { g_comm : N; g_pid : N; g_chan : N }.
Record wifid := mkWifid { f_tab : table; f_chans : N; f_pids : N; f_kids : list kid; f_groups : list group }.
(** Both spawn functions, 354-426 and 428-495: socketpair without SOCK_CLOEXEC; [fork]: whether
    it succeeds. A failing socketpair changes nothing. Process numbers are not used again. *)
Definition spawn_dhcp (w : wifid) (fork : bool) (journal : option N) : wifid :=
  let k := f_chans w in
  let '(a, t) := open_fd (f_tab w) (EndA k) false in
  let '(b, t) := open_fd t (EndB k) false in
  if negb fork then mkWifid (close_fd (close_fd t a) b) (k + 1) (f_pids w) (f_kids w) (f_groups w)
  else
    let child := mkKid (f_pids w) (exec (redirect (close_fd t a) journal)) (Some (k, b)) in
    mkWifid (close_fd t b) (k + 1) (f_pids w + 1) (child :: f_kids w) (mkGroup a (f_pids w) k :: f_groups w).
(** supplicant_spawn and supplicant_run, 2397-2454 and 2499-2550. *)
Definition spawn_wpas (w : wifid) (journal : option N) : wifid :=
  mkWifid (f_tab w) (f_chans w) (f_pids w + 1) (mkKid (f_pids w) (exec (redirect (f_tab w) journal)) None :: f_kids w) (f_groups w).
(** supplicant_group_free, 213-218: the channel of [g] is closed, [others] are left. *)
Definition free_group (w : wifid) (g : group) (others : list group) : wifid :=
  mkWifid (close_fd (f_tab w) (g_comm g)) (f_chans w) (f_pids w) (f_kids w) others.
(** Everything else that wifid opens is closed on exec. *)
Definition open_other (w : wifid) (x : N) : wifid :=
  mkWifid (snd (open_fd (f_tab w) (Thing x) true)) (f_chans w) (f_pids w) (f_kids w) (f_groups w).
Definition close_other (w : wifid) (n : N) : wifid :=
  mkWifid (close_fd (f_tab w) n) (f_chans w) (f_pids w) (f_kids w) (f_groups w).
(** A program ends: [rest] are left. *)
Definition kid_ends (w : wifid) (rest : list kid) : wifid := mkWifid (f_tab w) (f_chans w) (f_pids w) rest (f_groups w).
Definition start (t : table) : wifid := mkWifid t 0 1 [] [].
