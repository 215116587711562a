(** What is expected of the sockets of the supplicant channel. *)
From Coq Require Import String.
From Verif Require Import Base Text WpasSock_Model.
Local Open Scope list_scope.
Local Open Scope N_scope.

(** The clients of one process, and what others do meanwhile. *)
Record proc := mkProc { c_ctr : N; c_buses : list (N * list byte); c_ever : list N }.
(** Others do what they like but leave the names of this process alone: they neither
    make nor remove nor move its files. *)
Definition others (pid : N) (c : proc) (w w' : world) : Prop :=
  (forall n, lookup (client_name pid n) (x_files w') = lookup (client_name pid n) (x_files w)) /\
  (forall q id o, In id (c_ever c) -> lookup q (x_files w') = Some (NSock id o) -> lookup q (x_files w) = Some (NSock id o)) /\
  (forall q id o, lookup q (x_files w') = Some (NSock id o) -> id < x_next w') /\
  x_next w <= x_next w'.
Inductive step (pid : N) : world * proc -> world * proc -> Prop :=
| SOpen w c so path fd name w' n : c_ctr c + 1 < 2 ^ 64 -> open_client w so pid (c_ctr c) path = (Opened fd name, w', n) ->
    step pid (w, c) (w', mkProc n ((fd, name) :: c_buses c) (x_next w :: c_ever c))
| SFail w c so path r w' n : c_ctr c + 1 < 2 ^ 64 -> open_client w so pid (c_ctr c) path = (Failed r, w', n) ->
    step pid (w, c) (w', mkProc n (c_buses c) (if so then x_next w :: c_ever c else c_ever c))
| SClose w c fd name l1 l2 : c_buses c = l1 ++ (fd, name) :: l2 ->
    step pid (w, c) (close_bus w fd name, mkProc (c_ctr c) (l1 ++ l2) (c_ever c))
| SOthers w c w' : others pid c w w' -> step pid (w, c) (w', c).
Inductive steps (pid : N) : world * proc -> world * proc -> Prop :=
| ZNil s : steps pid s s
| ZCons s s' s'' : steps pid s s' -> step pid s' s'' -> steps pid s s''.
Definition start (w : world) : Prop := forall q id o, lookup q (x_files w) = Some (NSock id o) -> id < x_next w.
Definition fresh_proc : proc := mkProc 0 [] [].

(** A text of C. *)
Definition is_text (l : list byte) : Prop := ~ In 0 l.
(** A server that is there. *)
Definition alive (w : world) (id : N) : Prop := exists k, sock_of w id = Some k.
