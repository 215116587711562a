From Verif Require Import Base Ipv4ll_Model Ipv4ll_Spec.


Lemma land_host x : N.land x CLASSB_HOST = x mod 65536.
Proof. change CLASSB_HOST with (N.ones 16). rewrite N.land_ones. reflexivity. Qed.

Lemma random_ip_range rnd fuel n r : random_ip rnd fuel n = Some r ->
  ip 169 254 1 0 <= r <= ip 169 254 254 255.
Proof.
  revert n. induction fuel as [|fuel IH]; intros n H; cbn [random_ip] in H; [discriminate|].
  rewrite land_host in H. destruct (N.ltb_spec (CLASSB_HOST - 512) (rnd n mod 65536)); [eauto|].
  injection H as <-. unfold CLASSB_HOST, LINKLOCAL_ADDR, ip in *. lia.
Qed.

Lemma random_ip_ends rnd : forall fuel n,
  (exists i, (n <= i < n + fuel)%nat /\ usable (rnd i) = true) -> exists r, random_ip rnd fuel n = Some r.
Proof.
  induction fuel as [|fuel IH]; intros n [i [Hi Hu]]; [lia|]. cbn [random_ip]. rewrite land_host.
  destruct (N.ltb_spec (CLASSB_HOST - 512) (rnd n mod 65536)); [|eauto].
  apply IH. exists i. split; [|exact Hu]. destruct (Nat.eq_dec i n) as [->|]; [|lia].
  unfold usable, CLASSB_HOST in *. lia.
Qed.

Lemma random_ip_never rnd : forall fuel n,
  (forall i, (n <= i < n + fuel)%nat -> usable (rnd i) = false) -> random_ip rnd fuel n = None.
Proof.
  induction fuel as [|fuel IH]; intros n H; [reflexivity|]. cbn [random_ip]. rewrite land_host.
  pose proof (H n ltac:(lia)) as Hn.
  replace (CLASSB_HOST - 512 <? rnd n mod 65536) with true by (unfold usable, CLASSB_HOST in *; lia).
  apply IH. intros i Hi. apply H. lia.
Qed.

Lemma random_ip_every r : ip 169 254 1 0 <= r <= ip 169 254 254 255 ->
  exists x, x < 65536 /\ forall rnd fuel n, rnd n = x -> random_ip rnd (S fuel) n = Some r.
Proof.
  intros H. exists (r - ip 169 254 1 0). unfold ip in *. split; [lia|].
  intros rnd fuel n E. cbn [random_ip]. rewrite land_host, E.
  rewrite N.mod_small by lia. unfold CLASSB_HOST, LINKLOCAL_ADDR.
  match goal with |- context [if ?b then _ else _] => replace b with false by lia end. f_equal. lia.
Qed.

Lemma random_delay_ok r secs : 1 <= secs <= 4294967 -> exists d, random_delay_ms r secs = Ok d /\ d < secs * 1000.
Proof.
  intros H. unfold random_delay_ms. rewrite (N.mod_small (secs * 1000)) by lia.
  replace (secs * 1000 =? 0) with false by lia. eexists. split; [reflexivity|]. apply N.mod_lt. lia.
Qed.
Lemma random_delay_undefined r secs : random_delay_ms r secs = UB <-> secs mod 536870912 = 0.
Proof.
  unfold random_delay_ms. change (2 ^ 32) with 4294967296. destruct (N.eqb_spec ((secs * 1000) mod 4294967296) 0) as [E|E].
  - split; [intros _|reflexivity]. apply N.mod_divide; [lia|]. apply N.mod_divide in E; [|lia]. destruct E as [k E].
    apply (N.gauss _ 125); [|vm_compute; reflexivity]. exists k. lia.
  - split; [discriminate|]. intros H. exfalso. apply E. apply N.mod_divide in H; [|lia]. destruct H as [k ->]. apply N.mod_divide; [lia|]. exists (125 * k). lia.
Qed.
