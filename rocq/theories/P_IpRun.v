(** Property C231: how "ip" is run. *)
From Coq Require Import String ZArith.
From Verif Require Import Base Text IpRun_Model IpRun_Spec IpRun_Proofs.
Local Open Scope list_scope.
Local Open Scope Z_scope.

(** ** Examples *)
Definition ip : list byte := text "/bin/ip".
Definition eth : list byte := text "p2p0".
Definition with_ending (e : option ending) : world := mkWorld 77 (fun _ _ => e) None.
Example good : flush_if_addr (with_ending (Some (Exited 0))) ip eth
  = ([Fork [Unblock; StdoutToStderr; Execve ip [ip; text "addr"; text "flush"; text "dev"; eth]; Exit 1]; Wait 77], 0).
Proof. vm_compute. reflexivity. Qed.
Example good_add : add_if_addr (with_ending (Some (Exited 0))) ip eth (text "192.168.77.1/24")
  = ([Fork [Unblock; StdoutToStderr; Execve ip [ip; text "addr"; text "add"; text "192.168.77.1/24"; text "dev"; eth]; Exit 1]; Wait 77], 0).
Proof. vm_compute. reflexivity. Qed.
Example no_program : snd (flush_if_addr (with_ending None) ip eth) = -14.
Proof. vm_compute. reflexivity. Qed.
Example refused : snd (flush_if_addr (with_ending (Some (Exited 2))) ip eth) = -14.
Proof. vm_compute. reflexivity. Qed.
Example shot : snd (flush_if_addr (with_ending (Some (Killed 9 false))) ip eth) = -14 /\ snd (flush_if_addr (with_ending (Some (Killed 11 true))) ip eth) = -14.
Proof. split; vm_compute; reflexivity. Qed.
(** The words of wait(2). *)
Example C231_words : map status [Exited 0; Exited 2; Exited 300; Killed 9 false; Killed 11 true] = [0; 512; 11264; 9; 139].
Proof. vm_compute. reflexivity. Qed.
Example no_process : flush_if_addr (mkWorld (-11) (fun _ _ => Some (Exited 0)) None) ip eth = ([], -11).
Proof. vm_compute. reflexivity. Qed.
Example not_waited : snd (flush_if_addr (mkWorld 77 (fun _ _ => Some (Exited 0)) (Some (-1))) ip eth) = -14.
Proof. vm_compute. reflexivity. Qed.
(** Words are not split: the address is one word. *)
Example one_word : snd (add_if_addr (mkWorld 77 (fun _ a => if (Nat.eqb (List.length a) 6) then Some (Exited 0) else None) None) ip eth (text "1.2.3.4/24 dev lo")) = 0.
Proof. vm_compute. reflexivity. Qed.

(** ** C231: addresses are set and flushed by "ip" *)
(** 0 is returned if and only if the program ran with these words and ended with status 0. *)
Theorem C231_flush w binary netdev : sane w -> (snd (flush_if_addr w binary netdev) = 0 <-> worked w binary [text "addr"; text "flush"; text "dev"; netdev]).
Proof. exact (flush_works w binary netdev). Qed.
Print Assumptions C231_flush.
Theorem C231_add w binary netdev addr : sane w -> (snd (add_if_addr w binary netdev addr) = 0 <-> worked w binary [text "addr"; text "add"; addr; text "dev"; netdev]).
Proof. exact (add_works w binary netdev addr). Qed.
Print Assumptions C231_add.
Theorem C231_negative w binary netdev addr : (snd (flush_if_addr w binary netdev) <> 0 -> snd (flush_if_addr w binary netdev) < 0)
  /\ (snd (add_if_addr w binary netdev addr) <> 0 -> snd (add_if_addr w binary netdev addr) < 0).
Proof. exact (negative w binary netdev addr). Qed.
Print Assumptions C231_negative.
(** Nothing else is executed, whatever the words are. *)
Theorem C231_flush_only w binary netdev p a : executed (fst (flush_if_addr w binary netdev)) p a -> p = binary /\ a = [binary; text "addr"; text "flush"; text "dev"; netdev].
Proof. exact (flush_only w binary netdev p a). Qed.
Print Assumptions C231_flush_only.
Theorem C231_add_only w binary netdev addr p a : executed (fst (add_if_addr w binary netdev addr)) p a -> p = binary /\ a = [binary; text "addr"; text "add"; addr; text "dev"; netdev].
Proof. exact (add_only w binary netdev addr p a). Qed.
Print Assumptions C231_add_only.
(** The process is waited for. *)
Theorem C231_waits w binary netdev addr acts : (In (Fork acts) (fst (flush_if_addr w binary netdev)) -> In (Wait (w_fork w)) (fst (flush_if_addr w binary netdev)))
  /\ (In (Fork acts) (fst (add_if_addr w binary netdev addr)) -> In (Wait (w_fork w)) (fst (add_if_addr w binary netdev addr))).
Proof. exact (waits w binary netdev addr acts). Qed.
Print Assumptions C231_waits.
