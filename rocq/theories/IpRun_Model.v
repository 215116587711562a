(** Model of flush_if_addr and add_if_addr, src/dhcp/dhcp.c:142-247: how miracle-dhcp runs "ip".
    Signals that end the program are blocked (lines 486-504), so that waitpid is not
    interrupted; its result is nevertheless an input. Other file descriptors are left out. *)
From Coq Require Import String ZArith.
From Verif Require Import Base Text.
Local Open Scope list_scope.
Local Open Scope Z_scope.

(** What the forked process does. *)
Inductive act := Unblock | StdoutToStderr | Execve (path : list byte) (argv : list (list byte)) | Exit (status : Z).
(** How a program that was executed ends. *)
Inductive ending := Exited (status : Z) | Killed (sig : Z) (core : bool).
(** fork: the process number or -errno; if execve succeeds, how the program ends; what
    waitpid returns instead of the number, if it fails. *)
Record world := mkWorld { w_fork : Z; w_exec : list byte -> list (list byte) -> option ending; w_wait : option Z }.
(** What is done: the process that is started with its acts, and the process waited for. *)
Inductive out := Fork (acts : list act) | Wait (pid : Z).
Definition EFAULT : Z := 14.

(** The word that waitpid stores, wait(2). *)
Definition status (e : ending) : Z := match e with Exited n => (n mod 256) * 256 | Killed s core => s + (if core then 128 else 0) end.
Definition wifexited (r : Z) : bool := r mod 128 =? 0.
Definition wexitstatus (r : Z) : Z := (r / 256) mod 256.

Definition child (argv : list (list byte)) (binary : list byte) : list act := [Unblock; StdoutToStderr; Execve binary argv; Exit 1].
(** How the process ends: what follows execve is only done if that fails. *)
Fixpoint outcome (w : world) (l : list act) : ending :=
  match l with
  | [] => Exited 0
  | Execve path argv :: l => match w_exec w path argv with Some e => e | None => outcome w l end
  | Exit n :: _ => Exited n
  | _ :: l => outcome w l
  end.
(** Lines 149-187 and 202-241. *)
Definition run_ip (w : world) (binary : list byte) (argv : list (list byte)) : list out * Z :=
  if w_fork w <? 0 then ([], w_fork w)
  else
    let acts := child argv binary in
    let pid := w_fork w in
    let r := status (outcome w acts) in
    let rp := match w_wait w with Some x => x | None => pid end in
    ([Fork acts; Wait pid],
     if negb (rp =? pid) then - EFAULT
     else if negb (wifexited r) then - EFAULT
     else if negb (wexitstatus r =? 0) then - EFAULT
     else 0).
Definition flush_if_addr (w : world) (binary netdev : list byte) : list out * Z :=
  run_ip w binary [binary; text "addr"; text "flush"; text "dev"; netdev].
Definition add_if_addr (w : world) (binary netdev addr : list byte) : list out * Z :=
  run_ip w binary [binary; text "addr"; text "add"; addr; text "dev"; netdev].
