(** What is expected of making directories. *)
From Verif Require Import Base Split_Model Split_Spec Mkdir_Model.

(** The names of a path. *)
Definition named (path : list byte) (ns : list name) : Prop := split_of (fun c => In c [47]) path ns.
(** No "." or "..". *)
Definition plain (ns : list name) : Prop := Forall (fun n => n <> [46] /\ n <> [46; 46]) ns.
(** Where the path begins. *)
Definition begins_at (cwd : loc) (path : list byte) (l : loc) : Prop := (rooted path /\ l = []) \/ (~ rooted path /\ l = cwd).
(** Everything is in a directory. *)
Definition sound (f : fs) : Prop := forall n l, f (n :: l) <> None -> exists m, f l = Some (Dir m).
Definition is_dir (f : fs) (l : loc) : Prop := exists m, f l = Some (Dir m).
(** The places on the way to the end of a path, including both ends. *)
Definition on_way (b : loc) (ns : list name) (l : loc) : Prop := exists ms rest, ns = ms ++ rest /\ l = rev ms ++ b.
(** The path is that of a directory: each name leads on, by the rules of the kernel. *)
Inductive leads (f : fs) : loc -> list name -> loc -> Prop :=
| LHere l : leads f l [] l
| LDot l ns d : is_dir f l -> leads f l ns d -> leads f l ([46] :: ns) d
| LUp l ns d : is_dir f l -> leads f (tl l) ns d -> leads f l ([46; 46] :: ns) d
| LDown l n ns d : is_dir f l -> n <> [46] -> n <> [46; 46] -> leads f (n :: l) ns d -> leads f l (n :: ns) d.
Definition directory (f : fs) (cwd : loc) (path : list byte) : Prop :=
  exists ns b d, named path ns /\ begins_at cwd path b /\ leads f b ns d /\ is_dir f d.
(** Nothing is lost or changed; what is new is a directory with the mode. *)
Definition grows (mode : N) (f f' : fs) : Prop := forall l, f' l = f l \/ (f l = None /\ f' l = Some (Dir mode)).
(** The path is in the directory [prefix], if there is one. *)
Definition inside (prefix : option (list byte)) (path : list byte) (ns : list name) : Prop :=
  match prefix with None => True | Some q => (rooted q <-> rooted path) /\ exists qs rs, named q qs /\ ns = qs ++ rs end.
(** Strictly below the prefix. *)
Definition below (prefix : option (list byte)) (ms : list name) : Prop :=
  match prefix with None => True | Some q => forall qs, named q qs -> lenN qs < lenN ms end.
(** The prefix is a directory. *)
Definition stands (f : fs) (b : loc) (prefix : option (list byte)) : Prop :=
  match prefix with None => True | Some q => forall qs, named q qs -> is_dir f (rev qs ++ b) end.
