(** Shared vocabulary of all models: outcomes, byte strings, bounded memory. *)
From Coq Require Export List Arith NArith ZArith Lia Bool.
From Coq Require Export ZifyBool ZifyNat ZifyN.
Export ListNotations.
Global Open Scope N_scope.

Ltac Zify.zify_post_hook ::= Z.div_mod_to_equations.
Arguments N.add : simpl never.
Arguments N.sub : simpl never.
Arguments N.mul : simpl never.
Arguments N.pow : simpl never.
Arguments N.of_nat : simpl never.
Arguments N.to_nat : simpl never.
Arguments N.leb : simpl never.
Arguments N.ltb : simpl never.
Arguments N.eqb : simpl never.
Arguments N.div : simpl never.
Arguments N.modulo : simpl never.

(** Outcome of a C function: a value, or undefined behaviour (out-of-bounds
    access, oversized shift, ...). *)
Inductive res (A : Type) : Type :=
| Ok : A -> res A
| UB : res A.
Arguments Ok {A} _.
Arguments UB {A}.

Definition bind {A B} (x : res A) (f : A -> res B) : res B :=
  match x with Ok a => f a | UB => UB end.
Notation "'do' x <- a ; b" := (bind a (fun x => b))
  (at level 200, x pattern, a at level 100, b at level 200).

(** The same with a third outcome, for loops that need fuel in the model: the
    fuel ran out (an endless loop, if that holds for every fuel). *)
Inductive oc (A : Type) := Ret (a : A) | Undef | Endless.
Arguments Ret {A} _.
Arguments Undef {A}.
Arguments Endless {A}.
Definition obind {A B} (x : oc A) (f : A -> oc B) : oc B :=
  match x with Ret a => f a | Undef => Undef | Endless => Endless end.
Notation "'let*' x := a 'in' b" := (obind a (fun x => b))
  (at level 200, x pattern, a at level 100, b at level 200).

Definition lift {A} (x : res (option A)) : oc A :=
  match x with Ok (Some a) => Ret a | Ok None => Endless | UB => Undef end.

(** A byte of the program. *)
Notation byte := N (only parsing).

(** Lengths and slices measured in [N]. *)
Definition lenN {A} (l : list A) : N := N.of_nat (length l).
Definition takeN {A} (n : N) (l : list A) : list A := firstn (N.to_nat n) l.
Definition dropN {A} (n : N) (l : list A) : list A := skipn (N.to_nat n) l.

(** Memory cells; [None] is a byte that was never written. *)
Notation cell := (option N) (only parsing).

(** memcpy out of / into an object, with bounds as C's semantics demands. *)
Definition mem_read {A} (buf : list A) (off n : N) : res (list A) :=
  if off + n <=? lenN buf then Ok (takeN n (dropN off buf)) else UB.
Definition mem_write {A} (buf : list A) (off : N) (d : list A) : res (list A) :=
  if off + lenN d <=? lenN buf
  then Ok (takeN off buf ++ d ++ dropN (off + lenN d) buf) else UB.

(** Freshly allocated, uninitialised object. *)
Definition fresh (n : N) : list cell := repeat None (N.to_nat n).

Definition two64 : N := 2 ^ 64.
Definition wrap64 (n : N) : N := n mod two64.

(** ** Basic facts *)
Lemma lenN_nil {A} : lenN (@nil A) = 0. Proof. reflexivity. Qed.
Lemma lenN_cons {A} (x : A) l : lenN (x :: l) = 1 + lenN l.
Proof. unfold lenN; cbn [length]; lia. Qed.
Lemma lenN_app {A} (l1 l2 : list A) : lenN (l1 ++ l2) = lenN l1 + lenN l2.
Proof. unfold lenN; rewrite app_length; lia. Qed.
Lemma lenN_map {A B} (f : A -> B) l : lenN (map f l) = lenN l.
Proof. unfold lenN; rewrite map_length; reflexivity. Qed.
Lemma lenN_takeN {A} n (l : list A) : lenN (takeN n l) = N.min n (lenN l).
Proof. unfold lenN, takeN; rewrite firstn_length; lia. Qed.
Lemma lenN_dropN {A} n (l : list A) : lenN (dropN n l) = lenN l - n.
Proof. unfold lenN, dropN; rewrite skipn_length; lia. Qed.
Lemma lenN_fresh n : lenN (fresh n) = n.
Proof. unfold lenN, fresh; rewrite repeat_length; lia. Qed.
Lemma lenN_rev {A} (l : list A) : lenN (rev l) = lenN l.
Proof. unfold lenN; rewrite rev_length; reflexivity. Qed.
Lemma lenN_0_nil {A} (l : list A) : lenN l = 0 -> l = [].
Proof. destruct l; [reflexivity|rewrite lenN_cons; lia]. Qed.

Lemma takeN_0 {A} (l : list A) : takeN 0 l = [].
Proof. reflexivity. Qed.
Lemma dropN_0 {A} (l : list A) : dropN 0 l = l.
Proof. reflexivity. Qed.
Lemma takeN_all {A} n (l : list A) : lenN l <= n -> takeN n l = l.
Proof. unfold takeN, lenN; intros; apply firstn_all2; lia. Qed.
Lemma dropN_all {A} n (l : list A) : lenN l <= n -> dropN n l = [].
Proof. unfold dropN, lenN; intros; apply skipn_all2; lia. Qed.
Lemma takeN_app {A} n (l1 l2 : list A) :
  takeN n (l1 ++ l2) = takeN n l1 ++ takeN (n - lenN l1) l2.
Proof. unfold takeN, lenN; rewrite firstn_app; do 2 f_equal; lia. Qed.
Lemma dropN_app {A} n (l1 l2 : list A) :
  dropN n (l1 ++ l2) = dropN n l1 ++ dropN (n - lenN l1) l2.
Proof. unfold dropN, lenN; rewrite skipn_app; do 2 f_equal; lia. Qed.
Lemma takeN_takeN {A} m n (l : list A) : takeN m (takeN n l) = takeN (N.min m n) l.
Proof. unfold takeN; rewrite firstn_firstn; f_equal; lia. Qed.
Lemma skipn_skipn_add {A} (m n : nat) (l : list A) :
  skipn m (skipn n l) = skipn (n + m) l.
Proof.
  revert l; induction n as [|n IH]; intros l; [reflexivity|].
  destruct l; cbn [skipn Nat.add]; [now rewrite skipn_nil|apply IH].
Qed.
Lemma dropN_dropN {A} m n (l : list A) : dropN m (dropN n l) = dropN (n + m) l.
Proof. unfold dropN; rewrite skipn_skipn_add; f_equal; lia. Qed.
Lemma takeN_dropN_comm {A} m n (l : list A) :
  takeN m (dropN n l) = dropN n (takeN (n + m) l).
Proof.
  unfold takeN, dropN; rewrite firstn_skipn_comm; do 2 f_equal; lia.
Qed.
Lemma takeN_dropN {A} n (l : list A) : takeN n l ++ dropN n l = l.
Proof. apply firstn_skipn. Qed.
Lemma takeN_map {A B} (f : A -> B) n l : takeN n (map f l) = map f (takeN n l).
Proof. unfold takeN; apply firstn_map. Qed.
Lemma dropN_map {A B} (f : A -> B) n l : dropN n (map f l) = map f (dropN n l).
Proof. unfold dropN; apply skipn_map. Qed.

Global Hint Rewrite @lenN_app @lenN_takeN @lenN_dropN @lenN_map lenN_fresh
  @lenN_cons @lenN_nil @lenN_rev : lenN.
Ltac len := autorewrite with lenN in *.

(** ** Extensional reasoning on lists *)
Definition nthN {A} (l : list A) (i : N) : option A := nth_error l (N.to_nat i).

Lemma nthN_ext {A} (l1 l2 : list A) : (forall i, nthN l1 i = nthN l2 i) -> l1 = l2.
Proof.
  intros H. revert l2 H; induction l1 as [|x l1 IH]; intros [|y l2] H; auto.
  - specialize (H 0); discriminate.
  - specialize (H 0); discriminate.
  - f_equal.
    + specialize (H 0); injection H; auto.
    + apply IH; intros i. specialize (H (N.succ i)). unfold nthN in *.
      rewrite !N2Nat.inj_succ in H; exact H.
Qed.
Lemma nthN_None {A} (l : list A) i : lenN l <= i -> nthN l i = None.
Proof. unfold nthN, lenN; intros; apply nth_error_None; lia. Qed.
Lemma nthN_Some {A} (l : list A) i : i < lenN l -> exists x, nthN l i = Some x.
Proof.
  unfold nthN, lenN; intros. destruct (nth_error l (N.to_nat i)) eqn:E; eauto.
  apply nth_error_None in E; lia.
Qed.
Lemma nthN_app {A} (l1 l2 : list A) i :
  nthN (l1 ++ l2) i = if i <? lenN l1 then nthN l1 i else nthN l2 (i - lenN l1).
Proof.
  unfold nthN, lenN. destruct (i <? N.of_nat (length l1)) eqn:E.
  - apply nth_error_app1; lia.
  - rewrite nth_error_app2 by lia. f_equal; lia.
Qed.
Lemma nth_error_firstn_lt {A} (n i : nat) (l : list A) :
  (i < n)%nat -> nth_error (firstn n l) i = nth_error l i.
Proof.
  revert i l; induction n as [|n IH]; intros i l H; [lia|].
  destruct l; [now destruct i|]. destruct i; cbn; [reflexivity|apply IH; lia].
Qed.
Lemma nth_error_skipn_add {A} (n i : nat) (l : list A) :
  nth_error (skipn n l) i = nth_error l (n + i).
Proof.
  revert l; induction n as [|n IH]; intros l; [reflexivity|].
  destruct l; cbn; [now destruct i|apply IH].
Qed.
Lemma nthN_takeN {A} n (l : list A) i :
  nthN (takeN n l) i = if i <? n then nthN l i else None.
Proof.
  unfold nthN, takeN. destruct (i <? n) eqn:E.
  - apply nth_error_firstn_lt; lia.
  - apply nth_error_None. rewrite firstn_length; lia.
Qed.
Lemma nthN_dropN {A} n (l : list A) i : nthN (dropN n l) i = nthN l (n + i).
Proof. unfold nthN, dropN. rewrite nth_error_skipn_add. f_equal; lia. Qed.
Lemma nthN_map {A B} (f : A -> B) l i : nthN (map f l) i = option_map f (nthN l i).
Proof. unfold nthN. rewrite nth_error_map. reflexivity. Qed.
Lemma nthN_nil {A} i : nthN (@nil A) i = None.
Proof. unfold nthN. now destruct (N.to_nat i). Qed.

(** Prove equality of list expressions built from ++, takeN, dropN. *)
Ltac list_cases :=
  repeat match goal with
         | |- context [if ?a <? ?b then _ else _] =>
             destruct (N.ltb_spec a b); try (exfalso; lia)
         end.
Ltac list_norm := rewrite ?nthN_app, ?nthN_takeN, ?nthN_dropN, ?nthN_map, ?nthN_nil; len.
Ltac list_norm_all := repeat (progress list_norm).
Ltac list_done :=
  first
    [ reflexivity
    | f_equal; lia
    | rewrite ?nthN_None by lia; reflexivity
    | do 2 f_equal; lia ].
