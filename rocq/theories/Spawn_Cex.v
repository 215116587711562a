(** Runs of the program that break what should hold when programs are started. *)
From Coq Require Import String.
From Verif Require Import Base Text Spawn_Model Spawn_Spec Spawn_Proofs.
Local Open Scope list_scope.
Local Open Scope N_scope.

(** A directory in PATH that may not be searched: EACCES. *)
Definition fs_priv : files := fun n =>
  if list_eq_dec N.eq_dec n (text "/root/bin/wpa_supplicant") then Blocked 13
  else if list_eq_dec N.eq_dec n (text "/usr/sbin/wpa_supplicant") then File true else Missing.
Lemma cex_blocked : exists f fs, no_colons fs /\ (exists d, In d fs /\ is_program f d)
  /\ supplicant_find (stat_of f) (access_of f) (Some (join fs)) = Error (-13).
Proof.
  exists fs_priv, [text "/root/bin"; text "/usr/sbin"]. split.
  { intros f [<-|[<-|[]]]; vm_compute; intuition discriminate. }
  split; [|vm_compute; reflexivity].
  exists (text "/usr/sbin"). split; [right; left; reflexivity|]. split; [discriminate|vm_compute; reflexivity].
Qed.
(** A directory of that name, which may be searched. *)
Definition fs_dir : files := fun n =>
  if list_eq_dec N.eq_dec n (text "/opt/wpa_supplicant") then Directory true
  else if list_eq_dec N.eq_dec n (text "/usr/sbin/wpa_supplicant") then File true else Missing.
Lemma cex_directory : exists f fs d, no_colons fs /\ (exists d', In d' fs /\ is_program f d')
  /\ supplicant_find (stat_of f) (access_of f) (Some (join fs)) = Found (in_dir d) /\ is_directory f d.
Proof.
  exists fs_dir, [text "/opt"; text "/usr/sbin"], (text "/opt"). split.
  { intros f [<-|[<-|[]]]; vm_compute; intuition discriminate. }
  split.
  { exists (text "/usr/sbin"). split; [right; left; reflexivity|]. split; [discriminate|vm_compute; reflexivity]. }
  split; [vm_compute; reflexivity|]. split; [discriminate|vm_compute; reflexivity].
Qed.
Lemma ex_find :
  supplicant_find (stat_of fs_dir) (access_of fs_dir) (Some (text "/bin::/usr/sbin:/opt")) = Found (text "/usr/sbin/wpa_supplicant")
  /\ supplicant_find (stat_of fs_dir) (access_of fs_dir) (Some (text "/bin:")) = Error (-22)
  /\ supplicant_find (stat_of fs_dir) (access_of fs_dir) None = Error (-22)
  /\ supplicant_find (stat_of (fun _ => File false)) (access_of (fun _ => File false)) (Some (text "/bin")) = Error (-22)
  /\ join [text "/bin"; []; text "/opt"] = text "/bin::/opt".
Proof. repeat split; vm_compute; reflexivity. Qed.

(** ** Descriptors *)
(** The standard ones, the bus, and the events. *)
Definition std : table := [(0, (Thing 0, false)); (1, (Thing 1, false)); (2, (Thing 2, false)); (3, (Thing 10, true)); (4, (Thing 11, true))].
Lemma std_is_open : std_open std.
Proof.
  split; [|split].
  - cbn [std map fst]. repeat constructor; cbn; intuition discriminate.
  - intros n L. destruct (N.eq_dec n 0) as [->|D0]; [exists 0; left; reflexivity|].
    destruct (N.eq_dec n 1) as [->|D1]; [exists 1; right; left; reflexivity|].
    assert (n = 2) by lia. subst n. exists 2. right. right. left. reflexivity.
  - intros n o c I. cbn in I. repeat (destruct I as [I|I]; [injection I as <- <- <-; eexists; reflexivity|]). destruct I.
Qed.
(** Two groups; then the first one is gone. *)
Definition w_two : wifid := spawn_dhcp (spawn_dhcp (start std) true (Some 20)) true None.
Definition w_gone : wifid :=
  free_group w_two (mkGroup 5 1 0) [mkGroup 6 2 1].
Lemma reach_two : reach std w_two.
Proof. eapply R_step; [eapply R_step; [apply R_start|apply S_dhcp]|apply S_dhcp]. Qed.
Lemma reach_gone : reach std w_gone.
Proof.
  eapply R_step; [apply reach_two|]. apply (S_free w_two (mkGroup 5 1 0) [mkGroup 6 2 1] []). vm_compute. reflexivity.
Qed.
Lemma cex_inherit : exists t w c k b k', std_open t /\ reach t w /\ In c (f_kids w) /\ k_chan c = Some (k, b)
  /\ k' <> k /\ holds (k_tab c) (EndA k').
Proof.
  exists std, w_two, (mkKid 2 [(1, (Thing 2, false)); (7, (EndB 1, false)); (5, (EndA 0, false)); (0, (Thing 0, false)); (2, (Thing 2, false))] (Some (1, 7))), 1, 7, 0.
  split; [apply std_is_open|]. split; [apply reach_two|]. split; [vm_compute; left; reflexivity|].
  split; [reflexivity|]. split; [discriminate|]. exists 5, false. right. right. left. reflexivity.
Qed.
(** wifid has closed its end; the program of the channel still lives, and somebody else has the
    end of wifid. *)
Lemma cex_open : exists t w c k b, std_open t /\ reach t w /\ In c (f_kids w) /\ k_chan c = Some (k, b)
  /\ ~ holds (f_tab w) (EndA k) /\ (forall g, In g (f_groups w) -> g_chan g <> k)
  /\ exists c', In c' (f_kids w) /\ holds (k_tab c') (EndA k).
Proof.
  exists std, w_gone, (mkKid 1 [(2, (Thing 20, false)); (1, (Thing 20, false)); (6, (EndB 0, false)); (0, (Thing 0, false))] (Some (0, 6))), 0, 6.
  split; [apply std_is_open|]. split; [apply reach_gone|]. split; [vm_compute; right; left; reflexivity|].
  split; [reflexivity|]. split.
  { intros (n & c & I). vm_compute in I. repeat (destruct I as [I|I]; [discriminate I|]). destruct I. }
  split; [intros g [<-|[]]; discriminate|].
  eexists. split; [vm_compute; left; reflexivity|]. exists 5, false. right. right. left. reflexivity.
Qed.
(** wifid is started with its standard output closed: what the program was told of is its
    standard error. *)
Lemma cex_closed : exists t w c k b, NoDup (map fst t) /\ reach t w /\ In c (f_kids w) /\ k_chan c = Some (k, b)
  /\ ~ holds (k_tab c) (EndB k).
Proof.
  exists [(2, (Thing 2, false))], (spawn_dhcp (start [(2, (Thing 2, false))]) true None),
    (mkKid 1 [(1, (Thing 2, false)); (2, (Thing 2, false))] (Some (0, 1))), 0, 1.
  split; [repeat constructor; intros []|]. split; [eapply R_step; [apply R_start|apply S_dhcp]|].
  split; [vm_compute; left; reflexivity|]. split; [reflexivity|].
  intros (n & c & I). vm_compute in I. destruct I as [I|[I|[]]]; discriminate I.
Qed.
Lemma ex_two :
  f_tab w_two = [(6, (EndA 1, false)); (5, (EndA 0, false))] ++ std
  /\ f_groups w_two = [mkGroup 6 2 1; mkGroup 5 1 0]
  /\ map k_chan (f_kids w_two) = [Some (1, 7); Some (0, 6)]
  /\ f_tab (free_group w_two (mkGroup 5 1 0) [mkGroup 6 2 1]) = (6, (EndA 1, false)) :: std
  /\ f_tab (spawn_dhcp (start std) false None) = std
  /\ map k_tab (f_kids (spawn_wpas (start std) (Some 20))) = [[(2, (Thing 20, false)); (1, (Thing 20, false)); (0, (Thing 0, false))]]
  /\ map k_tab (f_kids (spawn_wpas (start std) None)) = [[(1, (Thing 2, false)); (0, (Thing 0, false)); (2, (Thing 2, false))]]
  /\ f_tab (close_other (open_other (start std) 12) 3) = [(5, (Thing 12, true)); (0, (Thing 0, false)); (1, (Thing 1, false)); (2, (Thing 2, false)); (4, (Thing 11, true))]
  /\ free_fd (f_tab (close_other (start std) 3)) = 3
  /\ f_kids (kid_ends w_two []) = [].
Proof. repeat split; vm_compute; reflexivity. Qed.
