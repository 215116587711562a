(** C212-C215: how wifid starts programs. *)
From Coq Require Import String.
From Verif Require Import Base Text Spawn_Model Spawn_Spec Spawn_Proofs Spawn_Cex.
Local Open Scope list_scope.
Local Open Scope N_scope.

(** C212: wpa_supplicant is found if it is in a directory of PATH. Refuted: a directory that may
    not be searched ends the search, *)
Theorem C212_blocked_refuted : exists f fs, no_colons fs /\ (exists d, In d fs /\ is_program f d)
  /\ supplicant_find (stat_of f) (access_of f) (Some (join fs)) = Error (-13).
Proof. exact cex_blocked. Qed.
(** and a directory of that name is taken for the program. *)
Theorem C212_directory_refuted : exists f fs d, no_colons fs /\ (exists d', In d' fs /\ is_program f d')
  /\ supplicant_find (stat_of f) (access_of f) (Some (join fs)) = Found (in_dir d) /\ is_directory f d.
Proof. exact cex_directory. Qed.
(** Missing: those two. Without them it is found; *)
Theorem C212_found_partial : forall f fs, no_colons fs ->
  (forall d, In d fs -> ~ is_blocked f d /\ ~ is_directory f d) ->
  (exists d, In d fs /\ is_program f d) ->
  exists d, In d fs /\ is_program f d /\ supplicant_find (stat_of f) (access_of f) (Some (join fs)) = Found (in_dir d).
Proof. exact find_total. Qed.
(** in any case the first one is taken that nothing is in front of; *)
Theorem C212_first : forall f fs b, no_colons fs ->
  (supplicant_find (stat_of f) (access_of f) (Some (join fs)) = Found b <->
   exists l d r, fs = l ++ d :: r /\ b = in_dir d /\ (is_program f d \/ is_directory f d)
                 /\ forall d', In d' l -> ~ is_program f d' /\ ~ is_directory f d' /\ ~ is_blocked f d').
Proof. exact find_found. Qed.
(** and every PATH is a list of directories. *)
Theorem C212_every : forall p, exists fs, no_colons fs /\ p = join fs.
Proof. exact join_exists. Qed.
Example C212_ex :
  supplicant_find (stat_of fs_dir) (access_of fs_dir) (Some (text "/bin::/usr/sbin:/opt")) = Found (text "/usr/sbin/wpa_supplicant")
  /\ supplicant_find (stat_of fs_dir) (access_of fs_dir) (Some (text "/bin:")) = Error (-22)
  /\ supplicant_find (stat_of fs_dir) (access_of fs_dir) None = Error (-22)
  /\ supplicant_find (stat_of (fun _ => File false)) (access_of (fun _ => File false)) (Some (text "/bin")) = Error (-22)
  /\ join [text "/bin"; []; text "/opt"] = text "/bin::/opt".
Proof. exact ex_find. Qed.

(** C213: whatever groups come and go and whatever else is opened and closed: a DHCP program has
    the end of its channel under the number that it was told, and nobody else has that end, so
    that wifid notices when the program ends; *)
Theorem C213_own : forall t w c, std_open t -> reach t w -> In c (f_kids w) -> own_end w c.
Proof. exact own_ends. Qed.
(** and wifid has the other end as long as it has the group, and no longer. *)
Theorem C213_group : forall t w, std_open t -> reach t w ->
  (forall g, In g (f_groups w) -> look (f_tab w) (g_comm g) = Some (EndA (g_chan g), false))
  /\ (forall n o c, In (n, (o, c)) (f_tab w) -> channel o -> exists g, In g (f_groups w) /\ g_comm g = n /\ o = EndA (g_chan g)).
Proof. exact group_ends. Qed.
(** The kernel, as modelled, gives the least number that is not in use. *)
Theorem C213_least : forall t n, n < free_fd t -> In n (map fst t).
Proof. exact free_fd_least. Qed.
Example C213_ex :
  f_tab w_two = [(6, (EndA 1, false)); (5, (EndA 0, false))] ++ std
  /\ f_groups w_two = [mkGroup 6 2 1; mkGroup 5 1 0]
  /\ map k_chan (f_kids w_two) = [Some (1, 7); Some (0, 6)]
  /\ f_tab (free_group w_two (mkGroup 5 1 0) [mkGroup 6 2 1]) = (6, (EndA 1, false)) :: std
  /\ f_tab (spawn_dhcp (start std) false None) = std
  /\ map k_tab (f_kids (spawn_wpas (start std) (Some 20))) = [[(2, (Thing 20, false)); (1, (Thing 20, false)); (0, (Thing 0, false))]]
  /\ map k_tab (f_kids (spawn_wpas (start std) None)) = [[(1, (Thing 2, false)); (0, (Thing 0, false)); (2, (Thing 2, false))]]
  /\ f_tab (close_other (open_other (start std) 12) 3) = [(5, (Thing 12, true)); (0, (Thing 0, false)); (1, (Thing 1, false)); (2, (Thing 2, false)); (4, (Thing 11, true))]
  /\ free_fd (f_tab (close_other (start std) 3)) = 3
  /\ f_kids (kid_ends w_two []) = [].
Proof. exact ex_two. Qed.
Example C213_start_ex : std_open std /\ reach std w_two /\ reach std w_gone.
Proof. exact (conj std_is_open (conj reach_two reach_gone)). Qed.

(** C214: a program has no channel but its own. Refuted: the program of the second group has
    wifid's end of the channel of the first one; *)
Theorem C214_other_refuted : exists t w c k b k', std_open t /\ reach t w /\ In c (f_kids w) /\ k_chan c = Some (k, b)
  /\ k' <> k /\ holds (k_tab c) (EndA k').
Proof. exact cex_inherit. Qed.
(** so that a channel that wifid closed stays open at its other end. *)
Theorem C214_open_refuted : exists t w c k b, std_open t /\ reach t w /\ In c (f_kids w) /\ k_chan c = Some (k, b)
  /\ ~ holds (f_tab w) (EndA k) /\ (forall g, In g (f_groups w) -> g_chan g <> k)
  /\ exists c', In c' (f_kids w) /\ holds (k_tab c') (EndA k).
Proof. exact cex_open. Qed.
(** Missing: programs that start while there are groups. If there is none it holds; *)
Theorem C214_alone_partial : forall t w j, std_open t -> reach t w -> f_groups w = [] ->
  (forall c, In c (f_kids (spawn_dhcp w true j)) -> k_pid c = f_pids w -> only_own c)
  /\ (forall c, In c (f_kids (spawn_wpas w j)) -> k_pid c = f_pids w -> only_own c).
Proof. exact alone. Qed.
(** and what a program has is exactly its own end and those of wifid for the groups there are. *)
Theorem C214_inherited : forall t w j o, std_open t -> reach t w -> channel o ->
  (forall c, In c (f_kids (spawn_wpas w j)) -> k_pid c = f_pids w ->
     (holds (k_tab c) o <-> exists g, In g (f_groups w) /\ o = EndA (g_chan g)))
  /\ (forall c, In c (f_kids (spawn_dhcp w true j)) -> k_pid c = f_pids w ->
     (holds (k_tab c) o <-> (exists g, In g (f_groups w) /\ o = EndA (g_chan g)) \/ o = EndB (f_chans w))).
Proof. exact inherited. Qed.

(** C215: C213 whatever descriptors wifid is started with. Refuted: with the standard output
    closed the channel gets its number and is then replaced by the standard error. *)
Theorem C215_closed_refuted : exists t w c k b, NoDup (map fst t) /\ reach t w /\ In c (f_kids w) /\ k_chan c = Some (k, b)
  /\ ~ holds (k_tab c) (EndB k).
Proof. exact cex_closed. Qed.
(** Missing: standard descriptors that are closed. *)
Theorem C215_open_partial : forall t w c, std_open t -> reach t w -> In c (f_kids w) -> own_end w c.
Proof. exact own_ends. Qed.

Print Assumptions C212_blocked_refuted.
Print Assumptions C212_directory_refuted.
Print Assumptions C212_found_partial.
Print Assumptions C212_first.
Print Assumptions C212_every.
Print Assumptions C213_own.
Print Assumptions C213_group.
Print Assumptions C213_least.
Print Assumptions C214_other_refuted.
Print Assumptions C214_open_refuted.
Print Assumptions C214_alone_partial.
Print Assumptions C214_inherited.
Print Assumptions C215_closed_refuted.
Print Assumptions C215_open_partial.
