(** What should hold of the programs that wifid starts, without the definitions that look for
    wpa_supplicant. *)
From Coq Require Import String.
From Verif Require Import Base Text Spawn_Model.
Local Open Scope list_scope.
Local Open Scope N_scope.

(** ** PATH *)
Definition colon : byte := 58.
Fixpoint join (fs : list (list byte)) : list byte :=
  match fs with [] => [] | [f] => f | f :: fs => f ++ colon :: join fs end.
Definition no_colons (fs : list (list byte)) : Prop := forall f, In f fs -> ~ In colon f.
(** What may be under a name. [Blocked e]: the name cannot be followed, for another reason than
    that nothing is there, like a directory that may not be searched. *)
Inductive node := Missing | NoDirectory | Blocked (e : positive) | File (x : bool) | Directory (x : bool).
Definition files := list byte -> node.
Definition stat_of (f : files) (n : list byte) : Z :=
  match f n with Missing => 2%Z | NoDirectory => 20%Z | Blocked e => Zpos e | _ => 0%Z end.
Definition access_of (f : files) (n : list byte) : bool := match f n with File x | Directory x => x | _ => false end.
Definition in_dir (d : list byte) : list byte := d ++ text "/wpa_supplicant".
Definition is_program (f : files) (d : list byte) : Prop := d <> [] /\ f (in_dir d) = File true.
Definition is_blocked (f : files) (d : list byte) : Prop :=
  d <> [] /\ exists e, f (in_dir d) = Blocked e /\ e <> 2%positive /\ e <> 20%positive.
Definition is_directory (f : files) (d : list byte) : Prop := d <> [] /\ f (in_dir d) = Directory true.

(** ** Descriptors *)
Definition std_open (t : table) : Prop :=
  NoDup (map fst t)
  /\ (forall n, n < 3 -> exists x, In (n, (Thing x, false)) t)
  /\ (forall n o c, In (n, (o, c)) t -> exists x, o = Thing x).
(** What may happen. *)
Inductive step : wifid -> wifid -> Prop :=
| S_dhcp w fork journal : step w (spawn_dhcp w fork journal)
| S_wpas w journal : step w (spawn_wpas w journal)
| S_free w g l r : f_groups w = l ++ g :: r -> step w (free_group w g (l ++ r))
| S_open w x : step w (open_other w x)
| S_close w n x c : In (n, (Thing x, c)) (f_tab w) -> 3 <= n -> step w (close_other w n)
| S_end w k l r : f_kids w = l ++ k :: r -> step w (kid_ends w (l ++ r)).
Inductive reach (t : table) : wifid -> Prop :=
| R_start : reach t (start t)
| R_step w w' : reach t w -> step w w' -> reach t w'.
Definition holds (t : table) (o : obj) : Prop := exists n c, In (n, (o, c)) t.
Definition channel (o : obj) : Prop := match o with Thing _ => False | _ => True end.
(** A program has the end of the channel that it was told of and nobody else has it. *)
Definition own_end (w : wifid) (c : kid) : Prop :=
  match k_chan c with
  | None => True
  | Some (k, b) =>
      In (b, (EndB k, false)) (k_tab c) /\ 3 <= b /\ ~ holds (k_tab c) (EndA k)
      /\ ~ holds (f_tab w) (EndB k)
      /\ forall c', In c' (f_kids w) -> holds (k_tab c') (EndB k) -> k_pid c' = k_pid c
  end.
(** A program has no other channel than its own. *)
Definition only_own (c : kid) : Prop :=
  forall o, holds (k_tab c) o -> channel o -> exists k b, k_chan c = Some (k, b) /\ o = EndB k.
