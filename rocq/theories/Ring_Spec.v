(** Specification of the ring buffer: a byte queue with a capacity.
    Nothing here refers to the implementation's buffer, start or mask. *)
From Verif Require Import Base Ring_Model.

(** Abstract state: queued bytes (oldest first) and allocated capacity. *)
Record queue := mkQueue { bytes : list byte; cap : N }.
Definition empty_queue : queue := mkQueue [] 0.

Definition fits (q : queue) (d : list byte) : Prop := lenN (bytes q) + lenN d <= cap q.

(** [grown q d c]: [c] is the capacity after growing for [d]: the least power
    of two that is at least 4096 and holds all the data. *)
Definition grown (q : queue) (d : list byte) (c : N) : Prop :=
  exists k, c = 2 ^ k /\ 4096 <= c /\ lenN (bytes q) + lenN d <= c
    /\ forall j, 4096 <= 2 ^ j -> lenN (bytes q) + lenN d <= 2 ^ j -> c <= 2 ^ j.

Inductive spec_step : queue -> op -> queue -> out -> Prop :=
| SPushEmpty q ok : spec_step q (Push [] ok) q (OErr true)
| SPushFits q d ok :
    d <> [] -> fits q d ->
    spec_step q (Push d ok) (mkQueue (bytes q ++ d) (cap q)) (OErr true)
| SPushGrow q d c :
    d <> [] -> ~ fits q d -> grown q d c ->
    spec_step q (Push d true) (mkQueue (bytes q ++ d) c) (OErr true)
| SPushOom q d :
    d <> [] -> ~ fits q d ->
    spec_step q (Push d false) q (OErr false)
| SPull q n :
    spec_step q (Pull n) (mkQueue (dropN n (bytes q)) (cap q)) ODone
| SPeek q segs :
    (length segs <= 2)%nat -> ~ In [] segs ->
    concat segs = map Some (bytes q) ->
    spec_step q Peek q (OSegs segs)
| SCopy q n :
    spec_step q (Copy n) q (OBytes (map Some (takeN n (bytes q))))
| SGetSize q : spec_step q GetSize q (OSize (lenN (bytes q)))
| SFlush q : spec_step q Flush (mkQueue [] (cap q)) ODone
| SClear q : spec_step q Clear empty_queue ODone.

Inductive spec_run : queue -> list op -> queue -> list out -> Prop :=
| SNil q : spec_run q [] q []
| SCons q o q' x ops q'' xs :
    spec_step q o q' x -> spec_run q' ops q'' xs ->
    spec_run q (o :: ops) q'' (x :: xs).

(** The only demand on the environment: the stored data plus the data of one
    push never exceed 2^63 bytes (half of the address space). *)
Definition push_bytes (o : op) : list byte :=
  match o with Push d _ => d | _ => [] end.
Fixpoint total_pushed (ops : list op) : N :=
  match ops with
  | [] => 0
  | o :: ops => lenN (push_bytes o) + total_pushed ops
  end.
Inductive addressable : queue -> list op -> Prop :=
| ANil q : addressable q []
| ACons q o ops :
    lenN (bytes q) + lenN (push_bytes o) <= 2 ^ 63 ->
    (forall q' x, spec_step q o q' x -> addressable q' ops) ->
    addressable q (o :: ops).
