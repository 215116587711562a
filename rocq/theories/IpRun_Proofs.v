From Coq Require Import String ZArith.
From Verif Require Import Base Text IpRun_Model IpRun_Spec.
Local Open Scope list_scope.
Local Open Scope Z_scope.

Lemma exited_zero e : sane_ending e -> (wifexited (status e) = true /\ wexitstatus (status e) = 0 <-> e = Exited 0).
Proof.
  unfold wifexited, wexitstatus. destruct e as [n|s core]; cbn [sane_ending status]; intros S.
  - rewrite Z.eqb_eq. rewrite (Z.mod_small n 256) by lia. split; [intros [_ H]|intros [= ->]; split; reflexivity].
    rewrite Z.div_mul in H by lia. rewrite Z.mod_small in H by lia. subst n. reflexivity.
  - rewrite Z.eqb_eq. split; [|discriminate]. destruct core; intros [H _]; exfalso; lia.
Qed.
Lemma run_ip_works w binary words : sane w -> (snd (run_ip w binary (binary :: words)) = 0 <-> worked w binary words).
Proof.
  intros [F [E W]]. unfold run_ip, worked. destruct (w_fork w <? 0) eqn:N; cbn [snd]; [apply Z.ltb_lt in N; lia|]. apply Z.ltb_ge in N.
  cbn [child outcome]. set (e := match w_exec w binary (binary :: words) with Some e => e | None => Exited 1 end).
  assert (S : sane_ending e) by (unfold e; destruct (w_exec w binary (binary :: words)) eqn:X; [exact (E _ _ _ X)|cbn; lia]).
  pose proof (exited_zero e S) as Z0. destruct W as [W|W]; rewrite W.
  - rewrite Z.eqb_refl. cbn [negb]. destruct (wifexited (status e)) eqn:A; cbn [negb].
    + destruct (wexitstatus (status e) =? 0) eqn:B; cbn [negb].
      * apply Z.eqb_eq in B. assert (X : e = Exited 0) by (apply Z0; split; [reflexivity|exact B]). unfold e in X.
        split; [intros _|reflexivity]. split; [lia|]. split; [reflexivity|]. destruct (w_exec w binary (binary :: words)); [f_equal; exact X|discriminate].
      * apply Z.eqb_neq in B. unfold EFAULT. split; [lia|]. intros [_ [_ X]]. exfalso. apply B. apply Z0. unfold e. rewrite X. reflexivity.
    + unfold EFAULT. split; [lia|]. intros [_ [_ X]]. exfalso. assert (false = true /\ wexitstatus (status e) = 0) as [Y _]; [|discriminate Y]. apply (proj2 Z0). unfold e. rewrite X. reflexivity.
  - destruct (-1 =? w_fork w) eqn:B; [apply Z.eqb_eq in B; lia|]. cbn [negb]. unfold EFAULT. split; [lia|]. intros [_ [Y _]]. discriminate.
Qed.
Lemma run_ip_negative w binary argv : snd (run_ip w binary argv) <> 0 -> snd (run_ip w binary argv) < 0.
Proof.
  unfold run_ip. destruct (w_fork w <? 0) eqn:N; cbn [snd]; [apply Z.ltb_lt in N; lia|]. unfold EFAULT.
  repeat match goal with |- context [if ?b then _ else _] => destruct b end; lia.
Qed.
Lemma run_ip_acts w binary argv : fst (run_ip w binary argv) = if w_fork w <? 0 then [] else [Fork [Unblock; StdoutToStderr; Execve binary argv; Exit 1]; Wait (w_fork w)].
Proof. unfold run_ip. destruct (w_fork w <? 0); reflexivity. Qed.
Lemma run_ip_only w binary argv p a : executed (fst (run_ip w binary argv)) p a -> p = binary /\ a = argv.
Proof.
  rewrite run_ip_acts. intros [acts [I J]]. destruct (w_fork w <? 0); [destruct I|]. destruct I as [I|[I|[]]]; [|discriminate].
  assert (acts = [Unblock; StdoutToStderr; Execve binary argv; Exit 1]) as -> by congruence.
  destruct J as [J|[J|[J|[J|[]]]]]; try discriminate. split; congruence.
Qed.
Lemma run_ip_waits w binary argv acts : In (Fork acts) (fst (run_ip w binary argv)) -> In (Wait (w_fork w)) (fst (run_ip w binary argv)).
Proof. rewrite run_ip_acts. destruct (w_fork w <? 0); [intros []|]. intros _. right. left. reflexivity. Qed.

Lemma flush_works w binary netdev : sane w -> (snd (flush_if_addr w binary netdev) = 0 <-> worked w binary [text "addr"; text "flush"; text "dev"; netdev]).
Proof. apply run_ip_works. Qed.
Lemma add_works w binary netdev addr : sane w -> (snd (add_if_addr w binary netdev addr) = 0 <-> worked w binary [text "addr"; text "add"; addr; text "dev"; netdev]).
Proof. apply run_ip_works. Qed.
Lemma negative w binary netdev addr : (snd (flush_if_addr w binary netdev) <> 0 -> snd (flush_if_addr w binary netdev) < 0)
  /\ (snd (add_if_addr w binary netdev addr) <> 0 -> snd (add_if_addr w binary netdev addr) < 0).
Proof. split; apply run_ip_negative. Qed.
Lemma flush_only w binary netdev p a : executed (fst (flush_if_addr w binary netdev)) p a -> p = binary /\ a = [binary; text "addr"; text "flush"; text "dev"; netdev].
Proof. apply run_ip_only. Qed.
Lemma add_only w binary netdev addr p a : executed (fst (add_if_addr w binary netdev addr)) p a -> p = binary /\ a = [binary; text "addr"; text "add"; addr; text "dev"; netdev].
Proof. apply run_ip_only. Qed.
Lemma waits w binary netdev addr acts : (In (Fork acts) (fst (flush_if_addr w binary netdev)) -> In (Wait (w_fork w)) (fst (flush_if_addr w binary netdev)))
  /\ (In (Fork acts) (fst (add_if_addr w binary netdev addr)) -> In (Wait (w_fork w)) (fst (add_if_addr w binary netdev addr))).
Proof. split; apply run_ip_waits. Qed.
