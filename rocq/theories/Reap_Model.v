(** Model of how the processes that wifid starts are waited for: manager_signal_fn,
    src/wifi/wifid.c:189-208, besides the child sources of wifid-supplicant.c:566 and 2538,
    which are dropped at 204-210, 2366-2382 and 2724-2737. Only one SIGCHLD is pending at a
    time (signal(7)), it names the process that ended first. sd-event waits for every process
    with a child source that ended; whether the signal then also reaches manager_signal_fn
    depends on its version. Process numbers are not used again. *)
From Verif Require Import Base.
Local Open Scope list_scope.

(** Number; if there is a child source. *)
Record child := mkChild { c_pid : N; c_watched : bool }.
(** Running processes, processes that ended and were not waited for, ssi_pid of the pending signal. *)
Record kids := mkKids { k_run : list child; k_dead : list child; k_sig : option N }.
Definition none : kids := mkKids [] [] None.
Inductive event :=
| Start (p : N)                (** fork and sd_event_add_child *)
| Unwatch (p : N)              (** the child source is dropped *)
| End (p : N)                  (** the process ends *)
| Handle (passed : bool).      (** SIGCHLD is read *)

Definition unwatch (p : N) (l : list child) : list child := map (fun c => if c_pid c =? p then mkChild p false else c) l.
Definition without (p : N) (l : list child) : list child := filter (fun c => negb (c_pid c =? p)) l.
(** manager_signal_fn for SIGCHLD, wifid.c:195-198: waitid of this process only. *)
Definition reap (p : N) (l : list child) : list child := without p l.
Definition step (k : kids) (e : event) : kids :=
  match e with
  | Start p => mkKids (k_run k ++ [mkChild p true]) (k_dead k) (k_sig k)
  | Unwatch p => mkKids (unwatch p (k_run k)) (unwatch p (k_dead k)) (k_sig k)
  | End p =>
      match find (fun c => c_pid c =? p) (k_run k) with
      | None => k
      | Some c => mkKids (without p (k_run k)) (k_dead k ++ [c]) (match k_sig k with Some q => Some q | None => Some p end)
      end
  | Handle passed =>
      match k_sig k with
      | None => k
      | Some p =>
          let dead := filter (fun c => negb (c_watched c)) (k_dead k) in
          let reached := passed || negb (existsb c_watched (k_dead k)) in
          mkKids (k_run k) (if reached then reap p dead else dead) None
      end
  end.
Definition run (k : kids) (es : list event) : kids := fold_left step es k.
