(** Property C12: the intrusive list behaves like ordinary sequences. *)
From Verif Require Import Base Dlist_Model Dlist_Spec Dlist_Proofs.

(** C12. Any number of lists over any set of zeroed nodes (at pairwise different
    non-NULL addresses), any legal sequence of operations: nothing undefined
    happens, every result is the one ordinary sequences give, every walk ends
    and visits exactly the members in order, and no other memory changes. *)
Theorem C12_dlist_refines_sequences :
  forall nodes other ops w xs,
  NoDup nodes -> ~ In 0 nodes -> spec_run (mkW [] nodes) ops w xs ->
  let m := fun a => match zeroed nodes a with Some v => Some v | None => other a end in
  exists h', run (length nodes + 2) (mkHeap m m) ops = Ok (h', xs)
    /\ (forall a, ~ In a nodes -> nx h' a = other a /\ pv h' a = other a).
Proof. exact dlist_refines. Qed.
Print Assumptions C12_dlist_refines_sequences.

Example C12_nontrivial :
  let ops := [Init 8; Init 16; Link 8 24; LinkTail 8 32; Link 16 40; Link 8 48;
              Walk 8; WalkBut 24 8; WalkRevBut 32 8; Unlink 24; Linked 24;
              LinkTail 16 24; WalkRev 16; Drain 16; Empty 16; Last 8] in
  let w0 := mkW [] [8; 16; 24; 32; 40; 48] in
  let xs := [ODone; ODone; ODone; ODone; ODone; ODone;
             ONodes (Some [48; 24; 32]); ONodes (Some [32; 48]); ONodes (Some [24; 48]);
             ODone; OBool false;
             ODone; ONodes (Some [24; 40]); ONodes (Some [40; 24]); OBool true; OAddr 32] in
  spec_run w0 ops (mkW [(16, []); (8, [48; 32])] [24; 40]) xs
  /\ exists h, run 9 (mkHeap (zeroed [8; 16; 24; 32; 40; 48]) (zeroed [8; 16; 24; 32; 40; 48])) ops
               = Ok (h, xs).
Proof.
  split; [|eexists; vm_compute; reflexivity]. cbv zeta.
  apply RCons with (w' := mkW [(8, [])] [16; 24; 32; 40; 48]); [apply (SInit [] [])|].
  apply RCons with (w' := mkW [(16, []); (8, [])] [24; 32; 40; 48]); [apply (SInit _ [])|].
  apply RCons with (w' := mkW [(16, []); (8, [24])] [32; 40; 48]); [apply (SLink [_] 8 [] [] [])|].
  apply RCons with (w' := mkW [(16, []); (8, [24; 32])] [40; 48]); [apply (SLinkTail [_] 8 [24] [] [])|].
  apply RCons with (w' := mkW [(16, [40]); (8, [24; 32])] [48]); [apply (SLink [] 16 [] [_] [])|].
  apply RCons with (w' := mkW [(16, [40]); (8, [48; 24; 32])] []); [apply (SLink [_] 8 _ [] [] 48 [])|].
  eapply RCons; [apply (SWalk [_])|].
  eapply RCons; [apply (SWalkBut [_] 8 [48] 24 [32])|].
  eapply RCons; [apply (SWalkRevBut [_] 8 [48; 24] 32 [])|].
  apply RCons with (w' := mkW [(16, [40]); (8, [48; 32])] [24]); [apply (SUnlink [_] 8 [48] 24 [32])|].
  eapply RCons; [apply SLinkedNo; now left|].
  apply RCons with (w' := mkW [(16, [40; 24]); (8, [48; 32])] []); [apply (SLinkTail [] 16 [40] [_] [] 24 [])|].
  eapply RCons; [apply (SWalkRev [] 16 [40; 24])|].
  apply RCons with (w' := mkW [(16, []); (8, [48; 32])] [24; 40]); [apply (SDrain [] 16 [40; 24])|].
  eapply RCons; [apply (SEmpty [] 16 [])|].
  eapply RCons; [apply (SLast [_] 8 [48; 32])|].
  constructor.
Qed.
