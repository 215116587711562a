(** Properties C10, C51: splitting strings, path prefixes. *)
From Verif Require Import Base Split_Model Split_Spec Split_Proofs.

(** C10. The tokens are exactly the fields of the string (an error is returned
    when their number does not fit an int). *)
Theorem C10_strsplit_fields :
  forall s sep fs, split_of (fun c => In c sep) s fs ->
  (lenN fs < 2 ^ 31 -> strsplit s sep = Some (fs, lenN fs))
  /\ (2 ^ 31 <= lenN fs -> strsplit s sep = None).
Proof. exact strsplit_fields. Qed.
Print Assumptions C10_strsplit_fields.

(** Every string has fields, and only one list of them. *)
Theorem C10_fields_exist :
  forall s sep, exists fs, split_of (fun c => In c sep) s fs.
Proof. exact strsplit_fields_exist. Qed.
Print Assumptions C10_fields_exist.
Theorem C10_fields_unique :
  forall (P : byte -> Prop) s fs, split_of P s fs -> forall fs', split_of P s fs' -> fs = fs'.
Proof. exact split_of_unique. Qed.
Print Assumptions C10_fields_unique.
Example C10_nontrivial :
  strsplit [44; 97; 98; 59; 44; 99] [44; 59] = Some ([[97; 98]; [99]], 2).
Proof. vm_compute. reflexivity. Qed.

(** C51. The path starts with the prefix iff both are absolute or both relative
    and the components of the prefix are the first components of the path; the
    result is then the part of the path behind them. The loop terminates. *)
Theorem C51_path_startswith :
  forall path prefix ps qs,
  split_of (fun c => In c [47]) path ps -> split_of (fun c => In c [47]) prefix qs ->
  exists r, path_startswith (S (length prefix)) path prefix = Done r /\
    match r with
    | Some rest => (rooted path <-> rooted prefix) /\
        exists rs g, ps = qs ++ rs /\ split_of (fun c => In c [47]) rest rs
          /\ path = g ++ rest /\ (forall t, rest <> 47 :: t)
    | None => ~ (rooted path <-> rooted prefix) \/ forall rs, ps <> qs ++ rs
    end.
Proof. exact path_startswith_ok. Qed.
Print Assumptions C51_path_startswith.
Example C51_nontrivial :
  path_startswith 9 [47; 97; 47; 47; 98; 99; 47; 100] [47; 47; 97; 47; 98; 99; 47; 47]
    = Done (Some [100])
  /\ path_startswith 9 [47; 97; 47; 98; 99] [47; 97; 47; 98] = Done None.
Proof. vm_compute. split; reflexivity. Qed.
