(** Property C203: links and peers are kept in maps. *)
From Coq Require Import String.
From Verif Require Import Base Text Map_Model Map_Spec Map_Proofs.
Local Open Scope list_scope.
Local Open Scope N_scope.

(** C203. Any adding, finding, freeing and listing of objects under text keys (the
    peers of a link) gives what a map gives, and the counter is the number of
    objects; addresses of freed objects may be used again. *)
Theorem C203_peers_map : forall w ops, 1 <= w <= 63 -> all_fair w [] ops -> adds ops <= 3 * 2 ^ 28 ->
  exists s m xs, map_run eqb_str hash_str (map_init None) ops = Ret (s, xs) /\ does_all [] ops m xs /\ m_cnt s = lenN m.
Proof. exact str_map. Qed.
Print Assumptions C203_peers_map.
(** The same with numbers (the links of wifid). *)
Theorem C203_links_map : forall w ops, 1 <= w <= 63 -> all_fair w [] ops -> adds ops <= 3 * 2 ^ 28 ->
  exists s m xs, map_run N.eqb hash_num (map_init 0) ops = Ret (s, xs) /\ does_all [] ops m xs /\ m_cnt s = lenN m.
Proof. exact num_map. Qed.
Print Assumptions C203_links_map.

Definition mac (s : string) : option (list byte) := Some (text s).
Definition story : list (@op (option (list byte))) :=
  [Add (mac "aa:bb") 1024 true; Add (mac "cc:dd") 1088 true; Add (mac "aa:bb") 1152 true; Find (mac "cc:dd"); Find (mac "cc:de");
   Free 1024; Find (mac "aa:bb"); Add (mac "ee:ff") 1024 true; Add (Some [195; 164]) 1152 true; Add (mac "x") 1216 false; Find (mac "ee:ff"); Find (Some [195; 164]); Each].
Example C203_ex : exists s l, map_run eqb_str hash_str (map_init None) story =
    Ret (s, [OAdded; OAdded; OAlready; OFound (Some 1088); OFound None; OFreed (Some 1024); OFound None; OAdded; OAdded; ONoMem; OFound (Some 1024); OFound (Some 1152); OEach l])
  /\ m_cnt s = 3 /\ l = [1152; 1024; 1088].
Proof. eexists. eexists. split; [vm_compute; reflexivity|]. split; vm_compute; reflexivity. Qed.
Example C203_hash_ex : hash_str (mac "a") = 177670 /\ hash_str None = hash_str (mac "") /\ eqb_str None (mac "") = false
  /\ hash_str (Some [255; 1]) = (5381 * 33 - 1) * 33 + 1 /\ hash_str (Some [128]) = 5381 * 33 - 128 /\ hash_str (Some [127]) = 5381 * 33 + 127 /\ hash_str (mac "f0:de:f1:11:22:33") < 2 ^ 64.
Proof. vm_compute. auto 10. Qed.
Example C203_fair_ex : all_fair 10 [] [Add (mac "a") 1024 true; Find (mac "a"); Free 1024; Add (mac "b") 1024 false].
Proof.
  cbn [all_fair fair]. split; [split; [lia|exact (fun H => H)]|]. intros m x D. inversion D; subst; [contradiction|]. split; [exact I|].
  intros m' y D'. inversion D'; subst. split; [left; reflexivity|]. intros m'' z D''. inversion D''; subst.
  match goal with H : Permutation.Permutation _ _ |- _ => assert (L := Permutation.Permutation_length H) end. destruct m''; [|discriminate].
  split; [split; [lia|exact (fun H => H)]|auto].
Qed.
