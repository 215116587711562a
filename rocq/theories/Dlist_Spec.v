(** Ordinary sequences: the specification of the intrusive list. *)
From Verif Require Import Base Dlist_Model.

(** Named sequences (by the address of their head) and loose nodes. *)
Record world := mkW { lists : list (N * list N); loose : list N }.
Definition addrs (w : world) : list N :=
  concat (map (fun p => fst p :: snd p) (lists w)) ++ loose w.

(** All addresses are different and none is NULL. *)
Definition distinct (w : world) : Prop := NoDup (addrs w) /\ ~ In 0 (addrs w).

(** The start of a sequence as seen from its head. *)
Definition first_of (hd : N) (l : list N) : N := match l with [] => hd | x :: _ => x end.

Inductive spec : world -> op -> world -> out -> Prop :=
| SInit ls f1 a f2 :
    spec (mkW ls (f1 ++ a :: f2)) (Init a) (mkW ((a, []) :: ls) (f1 ++ f2)) ODone
| SLink l1 hd l l2 f1 n f2 :
    spec (mkW (l1 ++ (hd, l) :: l2) (f1 ++ n :: f2)) (Link hd n)
         (mkW (l1 ++ (hd, n :: l) :: l2) (f1 ++ f2)) ODone
| SLinkTail l1 hd l l2 f1 n f2 :
    spec (mkW (l1 ++ (hd, l) :: l2) (f1 ++ n :: f2)) (LinkTail hd n)
         (mkW (l1 ++ (hd, l ++ [n]) :: l2) (f1 ++ f2)) ODone
| SUnlink l1 hd a e b l2 f :
    spec (mkW (l1 ++ (hd, a ++ e :: b) :: l2) f) (Unlink e)
         (mkW (l1 ++ (hd, a ++ b) :: l2) (e :: f)) ODone
| SUnlinkLoose ls f e : In e f -> spec (mkW ls f) (Unlink e) (mkW ls f) ODone
| SLinkedYes l1 hd a e b l2 f :
    let w := mkW (l1 ++ (hd, a ++ e :: b) :: l2) f in spec w (Linked e) w (OBool true)
| SLinkedNo ls f e : In e f -> spec (mkW ls f) (Linked e) (mkW ls f) (OBool false)
| SEmpty l1 hd l l2 f :
    let w := mkW (l1 ++ (hd, l) :: l2) f in
    spec w (Empty hd) w (OBool (match l with [] => true | _ => false end))
| SFirst l1 hd l l2 f :
    let w := mkW (l1 ++ (hd, l) :: l2) f in spec w (First hd) w (OAddr (first_of hd l))
| SLast l1 hd l l2 f :
    let w := mkW (l1 ++ (hd, l) :: l2) f in spec w (Last hd) w (OAddr (first_of hd (rev l)))
| SWalk l1 hd l l2 f :
    let w := mkW (l1 ++ (hd, l) :: l2) f in spec w (Walk hd) w (ONodes (Some l))
| SWalkRev l1 hd l l2 f :
    let w := mkW (l1 ++ (hd, l) :: l2) f in spec w (WalkRev hd) w (ONodes (Some (rev l)))
| SWalkBut l1 hd a s b l2 f :
    let w := mkW (l1 ++ (hd, a ++ s :: b) :: l2) f in
    spec w (WalkBut s hd) w (ONodes (Some (b ++ a)))
| SWalkRevBut l1 hd a s b l2 f :
    let w := mkW (l1 ++ (hd, a ++ s :: b) :: l2) f in
    spec w (WalkRevBut s hd) w (ONodes (Some (rev a ++ rev b)))
| SDrain l1 hd l l2 f :
    spec (mkW (l1 ++ (hd, l) :: l2) f) (Drain hd)
         (mkW (l1 ++ (hd, []) :: l2) (rev l ++ f)) (ONodes (Some l))
| SDrainRev l1 hd l l2 f :
    spec (mkW (l1 ++ (hd, l) :: l2) f) (DrainRev hd)
         (mkW (l1 ++ (hd, []) :: l2) (l ++ f)) (ONodes (Some (rev l))).

Inductive spec_run : world -> list op -> world -> list out -> Prop :=
| RNil w : spec_run w [] w []
| RCons w o w' x ops w'' xs :
    spec w o w' x -> spec_run w' ops w'' xs -> spec_run w (o :: ops) w'' (x :: xs).

(** Initial memory: zeroed nodes at the given addresses. *)
Definition zeroed (nodes : list N) : N -> option N :=
  fun a => if existsb (N.eqb a) nodes then Some 0 else None.
