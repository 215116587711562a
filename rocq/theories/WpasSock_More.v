From Coq Require Import String.
From Verif Require Import Base Text WpasSock_Model WpasSock_Spec WpasSock_Proofs.
From Verif Require Import Cli_Proofs.
Local Open Scope list_scope.
Local Open Scope N_scope.

(** ** Addresses *)
Definition pad (n : N) : list byte := repeat 0 (N.to_nat n).
Lemma pad_snoc n : pad n ++ [0] = pad (n + 1).
Proof.
  unfold pad. replace (N.to_nat (n + 1)) with (N.to_nat n + 1)%nat by lia. now rewrite repeat_app.
Qed.
Lemma lenN_pad n : lenN (pad n) = n.
Proof. unfold lenN, pad. rewrite repeat_length. lia. Qed.
Lemma abstract_split p : is_abstract p = true -> p = ABSTRACT ++ dropN 10 p.
Proof. intros H. unfold is_abstract in H. apply str_eq_spec in H. rewrite <- (takeN_dropN 10 p) at 1. now rewrite H. Qed.
Lemma text_app a b : is_text (a ++ b) <-> is_text a /\ is_text b.
Proof. unfold is_text. rewrite in_app_iff. tauto. Qed.
Lemma path_first p a x : is_text p -> p <> [] -> place_of (mkAddr AF_UNIX (p ++ repeat 0 a ++ x)) = Some (AtPath (cstr (p ++ repeat 0 a ++ x))).
Proof. intros T Np. destruct p as [|[|c] p]; [easy|destruct T; now left|]. reflexivity. Qed.
Lemma place_to_addr p a : is_text p -> to_addr p = Some a -> a_fam a = AF_UNIX /\
  a_path a = (if is_abstract p then [0] ++ dropN 10 p ++ pad (117 - lenN p) else p ++ pad (108 - lenN p)) /\ lenN p <= 107 /\ (is_abstract p = true -> lenN p <= 96 /\ 10 <= lenN p).
Proof.
  intros T H. unfold to_addr in H. destruct (is_abstract p) eqn:A.
  - change (SUN - 12) with 96 in H. destruct (N.ltb_spec 96 (lenN p)) as [L|L]; [discriminate|]. injection H as <-. cbn [a_fam a_path]. split; [reflexivity|].
    assert (Q := f_equal lenN (abstract_split p A)). rewrite lenN_app, lenN_dropN in Q. change (lenN ABSTRACT) with 10 in Q.
    split; [|lia]. cbn [app]. f_equal. unfold strncpy. change (SUN - 2) with 106. rewrite takeN_all by (rewrite lenN_dropN; lia).
    fold (pad (106 - lenN (dropN 10 p))). rewrite <- app_assoc, pad_snoc. f_equal. f_equal. rewrite lenN_dropN. lia.
  - change (SUN - 1) with 107 in H. destruct (N.ltb_spec 107 (lenN p)) as [L|L]; [discriminate|]. injection H as <-. cbn [a_fam a_path]. split; [reflexivity|].
    split; [|split; [lia|discriminate]]. unfold strncpy. rewrite takeN_all by lia. fold (pad (107 - lenN p)). rewrite <- app_assoc, pad_snoc. f_equal. f_equal. lia.
Qed.
Definition place_for (p : list byte) : place :=
  if is_abstract p then AtName (dropN 10 p ++ pad (117 - lenN p)) else match p with [] => AtName (pad 107) | _ => AtPath p end.
Lemma place_ok p a : is_text p -> to_addr p = Some a -> place_of a = Some (place_for p).
Proof.
  intros T H. destruct (place_to_addr p a T H) as (F & P & L & _). destruct a as [fam path]. cbn [a_fam a_path] in F, P. subst fam path. unfold place_of, place_for. cbn [a_fam a_path].
  rewrite N.eqb_refl. destruct (is_abstract p) eqn:A; [reflexivity|]. destruct p as [|[|c] p]; [reflexivity|destruct T; now left|].
  cbn [app]. f_equal. f_equal. exact (cstr_pad (N.pos c :: p) _ T).
Qed.
Lemma drop_text p : is_text p -> is_text (dropN 10 p).
Proof. intros T. rewrite <- (takeN_dropN 10 p), text_app in T. apply T. Qed.
Lemma place_inj p q : is_text p -> is_text q -> place_for p = place_for q -> p = q \/ (p = [] /\ q = ABSTRACT) \/ (q = [] /\ p = ABSTRACT).
Proof.
  intros Tp Tq E. unfold place_for in E.
  assert (Z0 : forall r, is_text r -> is_abstract r = true -> dropN 10 r ++ pad (117 - lenN r) = pad 107 -> r = ABSTRACT).
  { intros r Tr A F. apply (f_equal cstr) in F. unfold pad in F. rewrite (cstr_pad _ _ (drop_text r Tr)) in F. change (cstr (repeat 0 (N.to_nat 107))) with (@nil byte) in F.
    rewrite (abstract_split r A), F, app_nil_r. reflexivity. }
  destruct (is_abstract p) eqn:Ap, (is_abstract q) eqn:Aq.
  - injection E as E. apply (f_equal cstr) in E. unfold pad in E. rewrite !cstr_pad in E by now apply drop_text. left.
    rewrite (abstract_split p Ap), (abstract_split q Aq), E. reflexivity.
  - destruct q as [|c q]; [|discriminate]. injection E as E. right. right. split; [reflexivity|]. apply (Z0 p Tp Ap). exact E.
  - destruct p as [|c p]; [|discriminate]. injection E as E. right. left. split; [reflexivity|]. apply (Z0 q Tq Aq). symmetry. exact E.
  - destruct p as [|c p], q as [|d q]; try discriminate; left; [reflexivity|]. now injection E as -> ->.
Qed.
Lemma addr_inj p q a b : is_text p -> is_text q -> to_addr p = Some a -> to_addr q = Some b -> place_of a = place_of b -> p = q \/ (p = [] /\ q = ABSTRACT) \/ (q = [] /\ p = ABSTRACT).
Proof. intros Tp Tq Ha Hb E. rewrite (place_ok p a Tp Ha), (place_ok q b Tq Hb) in E. injection E as E. now apply place_inj. Qed.
Lemma addr_some p : to_addr p <> None <-> (if is_abstract p then lenN p <= 96 else lenN p <= 107).
Proof. unfold to_addr. change (SUN - 12) with 96. change (SUN - 1) with 107. destruct (is_abstract p); [destruct (N.ltb_spec 96 (lenN p))|destruct (N.ltb_spec 107 (lenN p))]; split; try easy; try lia. Qed.

(** ** Servers *)
Lemma unlink_socks w p : x_socks (k_unlink w p) = x_socks w /\ x_names (k_unlink w p) = x_names w.
Proof. unfold k_unlink. destruct (lookup p (x_files w)) as [n|]; [|auto]. now destruct (match n with NSock _ true => true | _ => x_rm w p end). Qed.
Lemma bind_ok w fd a w1 : k_bind w fd a = (0%Z, w1) -> x_socks w1 = x_socks w /\
  match place_of a with Some (AtPath p) => lookup p (x_files w1) = Some (NSock fd true) | Some (AtName n) => lookup n (x_names w1) = Some fd | None => False end.
Proof.
  unfold k_bind. intros H. destruct (place_of a) as [[p|n]|]; [| |discriminate].
  - destruct (lookup p (x_files w)); [discriminate|]. destruct (x_mk w p); [discriminate|]. injection H as <-. cbn [x_socks x_files lookup]. now rewrite str_eq_refl.
  - destruct (lookup n (x_names w)); [discriminate|]. injection H as <-. cbn [x_socks x_names lookup]. now rewrite str_eq_refl.
Qed.
Lemma bind_sign w fd a r w1 : k_bind w fd a = (r, w1) -> (r <= 0)%Z.
Proof.
  unfold k_bind. intros H. destruct (place_of a) as [[p|n]|]; [| |injection H as <- _; easy].
  - destruct (lookup p (x_files w)); [injection H as <- _; easy|]. destruct (x_mk w p); injection H as <- _; easy.
  - destruct (lookup n (x_names w)); injection H as <- _; easy.
Qed.
Lemma connect_ok w a fd l : x_socks w = mkSock fd true true :: l ->
  match place_of a with Some (AtPath p) => lookup p (x_files w) = Some (NSock fd true) | Some (AtName n) => lookup n (x_names w) = Some fd | None => False end -> k_connect w a = 0%Z.
Proof.
  intros S. unfold k_connect. assert (R : k_reach w fd = 0%Z) by (unfold k_reach, sock_of; rewrite S; cbn [find k_id]; now rewrite N.eqb_refl).
  destruct (place_of a) as [[p|n]|]; [| |easy]; intros ->; exact R.
Qed.
Lemma server_meets w so path fd name w1 : open_server w so path = (Opened fd name, w1) -> connect_client w1 path = 0%Z.
Proof.
  unfold open_server, connect_client. destruct so; [|discriminate]. cbn [negb k_socket].
  set (w0 := mkWorld (x_files w) (x_names w) (mkSock (x_next w) true true :: x_socks w) (x_next w + 1) (x_mk w) (x_rm w)).
  destruct (to_addr path) as [a|]; [|discriminate]. destruct (k_bind w0 (x_next w) a) as [r w2] eqn:B. assert (S := bind_sign _ _ _ _ _ B). destruct (Z.ltb_spec r 0) as [L|L].
  - destruct (is_abstract path); [discriminate|]. destruct (k_connect w2 a <? 0)%Z; [|discriminate]. destruct (k_bind (k_unlink w2 path) (x_next w) a) as [r' w3] eqn:B'.
    assert (S' := bind_sign _ _ _ _ _ B'). destruct (Z.ltb_spec r' 0) as [L'|L']; [discriminate|]. intros [= _ _ <-]. assert (r' = 0%Z) as -> by lia. destruct (bind_ok _ _ _ _ B') as (K & P).
    rewrite (proj1 (unlink_socks w2 path)) in K. assert (W : w2 = w0).
    { unfold k_bind in B. destruct (place_of a) as [[p|n]|]; [| |now injection B as _ <-].
      - destruct (lookup p (x_files w0)); [now injection B as _ <-|]. destruct (x_mk w0 p); [now injection B as _ <-|]. injection B as <- _. lia.
      - destruct (lookup n (x_names w0)); [now injection B as _ <-|]. injection B as <- _. lia. }
    subst w2. eapply connect_ok; [exact K|exact P].
  - intros [= _ _ <-]. assert (r = 0%Z) as -> by lia. destruct (bind_ok _ _ _ _ B) as (K & P). eapply connect_ok; [exact K|exact P].
Qed.
Definition plain_path (p : list byte) : Prop := is_text p /\ p <> [] /\ is_abstract p = false /\ lenN p <= 107.
Lemma plain_addr p : plain_path p -> exists a, to_addr p = Some a /\ place_of a = Some (AtPath p) /\ cstr (a_path a) = p.
Proof.
  intros (T & Np & A & L). destruct (to_addr p) as [a|] eqn:E.
  - exists a. split; [reflexivity|]. split; [rewrite (place_ok p a T E); unfold place_for; rewrite A; now destruct p|].
    destruct (place_to_addr p a T E) as (_ & -> & _). rewrite A. apply (cstr_pad p _ T).
  - destruct (proj2 (addr_some p)); [now rewrite A|exact E].
Qed.
Lemma server_free w path : plain_path path -> lookup path (x_files w) = None -> x_mk w path = None ->
  exists w1, open_server w true path = (Opened (x_next w) path, w1) /\ lookup path (x_files w1) = Some (NSock (x_next w) true).
Proof.
  intros P F M. destruct (plain_addr path P) as (a & E & Pl & C). unfold open_server. cbn [negb k_socket]. rewrite E, C. unfold k_bind. rewrite Pl. cbn [x_files x_mk]. rewrite F, M.
  change (0 <? 0)%Z with false. cbn [x_files]. eexists. split; [reflexivity|]. cbn [x_files lookup]. now rewrite str_eq_refl.
Qed.
Lemma server_dead w path id o : plain_path path -> start w -> lookup path (x_files w) = Some (NSock id o) -> sock_of w id = None -> (o = true \/ x_rm w path = true) -> x_mk w path = None ->
  exists w1, open_server w true path = (Opened (x_next w) path, w1) /\ lookup path (x_files w1) = Some (NSock (x_next w) true).
Proof.
  intros P S F D R M. destruct (plain_addr path P) as (a & E & Pl & C). assert (Hid := S _ _ _ F). assert (A : is_abstract path = false) by apply P.
  unfold open_server. cbn [negb k_socket]. rewrite E, C, A. unfold k_bind, k_connect. rewrite Pl. cbn [x_files]. rewrite F. change (- EADDRINUSE <? 0)%Z with true.
  cbn [x_files]. rewrite F. unfold k_reach, sock_of. cbn [x_socks find k_id]. replace (x_next w =? id) with false by lia. unfold sock_of in D. rewrite D.
  change (- ECONNREFUSED <? 0)%Z with true. unfold k_unlink. cbn [x_files x_rm]. rewrite F.
  assert (G : (if o then true else x_rm w path) = true) by (destruct o; [reflexivity|now destruct R]). replace (match o with true => true | false => x_rm w path end) with true.
  cbn [x_files x_mk]. rewrite lookup_remove, str_eq_refl, M. change (0 <? 0)%Z with false. cbn iota. eexists. split; [reflexivity|]. cbn [x_files lookup]. now rewrite str_eq_refl.
Qed.
Lemma server_live w path id o : plain_path path -> start w -> lookup path (x_files w) = Some (NSock id o) -> k_reach w id = 0%Z ->
  exists w1, open_server w true path = (Failed (- EADDRINUSE), w1) /\ x_files w1 = x_files w /\ k_reach w1 id = 0%Z.
Proof.
  intros P S F R. destruct (plain_addr path P) as (a & E & Pl & C). assert (Hid := S _ _ _ F). assert (A : is_abstract path = false) by apply P.
  unfold open_server. cbn [negb k_socket]. rewrite E, A. unfold k_bind, k_connect. rewrite Pl. cbn [x_files]. rewrite F. change (- EADDRINUSE <? 0)%Z with true.
  cbn [x_files]. rewrite F. assert (R' : k_reach (mkWorld (x_files w) (x_names w) (mkSock (x_next w) true true :: x_socks w) (x_next w + 1) (x_mk w) (x_rm w)) id = 0%Z).
  { unfold k_reach, sock_of in *. cbn [x_socks find k_id]. now replace (x_next w =? id) with false by lia. }
  rewrite R'. change (0 <? 0)%Z with false. eexists. split; [reflexivity|]. split; [reflexivity|].
  unfold k_reach, sock_of in *. cbn [k_close x_socks filter k_id]. rewrite N.eqb_refl. cbn [negb].
  assert (G : forall l, find (fun k => k_id k =? id) (filter (fun k => negb (k_id k =? x_next w)) l) = find (fun k => k_id k =? id) l).
  { induction l as [|k l IH]; [reflexivity|]. cbn [filter find]. destruct (N.eqb_spec (k_id k) (x_next w)) as [Ek|Ek]; cbn [negb]; [replace (k_id k =? id) with false by lia; exact IH|].
    cbn [find]. destruct (k_id k =? id); [reflexivity|exact IH]. }
  rewrite G. exact R.
Qed.

(** ** Peers *)
Lemma set_peer_family l : place_of (set_peer l) = None.
Proof. unfold set_peer. now destruct l as [|[|c] l]. Qed.
Lemma strncpy_pad n l : lenN l <= n -> strncpy n l = l ++ pad (n - lenN l).
Proof. intros H. unfold strncpy, pad. now rewrite takeN_all. Qed.
Lemma get_set p a : is_text p -> to_addr p = Some a -> a_path (set_peer (get_peer a)) = a_path a.
Proof.
  intros T H. destruct (place_to_addr p a T H) as (_ & P & L & La). unfold get_peer. rewrite P. destruct (is_abstract p) eqn:A.
  - destruct (La eq_refl) as (La1 & La2). cbn [app set_peer a_path]. unfold pad at 1. rewrite (cstr_pad _ _ (drop_text p T)). change (SUN - 2) with 106.
    rewrite strncpy_pad by (rewrite lenN_dropN; lia). rewrite <- app_assoc, pad_snoc, lenN_dropN. do 3 f_equal. lia.
  - assert (G : a_path (set_peer (p ++ pad (108 - lenN p))) = strncpy (SUN - 1) (cstr (p ++ pad (108 - lenN p))) ++ [0]).
    { destruct p as [|[|c] p]; [reflexivity|destruct T; now left|reflexivity]. }
    rewrite G. unfold pad at 1. rewrite (cstr_pad _ _ T). change (SUN - 1) with 107. rewrite strncpy_pad by lia. rewrite <- app_assoc, pad_snoc. do 2 f_equal. lia.
Qed.
Lemma escaped p a : is_text p -> to_addr p = Some a -> get_escaped_peer a = match p with [] => ABSTRACT | _ => p end /\ to_addr (get_escaped_peer a) = Some a.
Proof.
  intros T H. destruct (place_to_addr p a T H) as (F & P & L & La). unfold get_escaped_peer. rewrite P. destruct (is_abstract p) eqn:A.
  - cbn [app]. unfold pad. rewrite (cstr_pad _ _ (drop_text p T)), <- (abstract_split p A). split; [|exact H]. now destruct p.
  - destruct p as [|[|c] p].
    + split; [reflexivity|]. revert H. vm_compute. intros [= <-]. reflexivity.
    + destruct T. now left.
    + cbn [app]. assert (C := cstr_pad _ (N.to_nat (108 - lenN (N.pos c :: p))) T). cbn [app] in C. unfold pad. rewrite C. split; [reflexivity|exact H].
Qed.
Lemma reply_back pid n : pid < 2 ^ 32 -> n < 2 ^ 64 -> place_of (reply_peer (mkAddr AF_UNIX (strncpy SUN (client_name pid n)))) = Some (AtPath (client_name pid n)).
Proof. exact (place_name pid n). Qed.

(** ** Opening succeeds *)
Lemma open_works w pid n path sid o : pid < 2 ^ 32 -> n + 1 < 2 ^ 64 -> plain_path path -> start w -> path <> client_name pid (n + 1) ->
  lookup path (x_files w) = Some (NSock sid o) -> k_reach w sid = 0%Z -> x_mk w (client_name pid (n + 1)) = None ->
  (lookup (client_name pid (n + 1)) (x_files w) = None \/ x_rm w (client_name pid (n + 1)) = true \/ exists id, lookup (client_name pid (n + 1)) (x_files w) = Some (NSock id true)) ->
  exists w1, open_client w true pid n path = (Opened (x_next w) (client_name pid (n + 1)), w1, n + 1).
Proof.
  intros Hp Hn P S Np F R M Old. unfold open_client. cbn [negb k_socket]. rewrite (ctr_step n Hn).
  set (w0 := mkWorld (x_files w) (x_names w) (mkSock (x_next w) true true :: x_socks w) (x_next w + 1) (x_mk w) (x_rm w)).
  assert (Pl := place_name pid (n + 1) Hp Hn). set (name := client_name pid (n + 1)) in *.
  assert (B : exists w2, bind_client w0 (x_next w) pid (n + 1) = (0%Z, w2) /\ x_socks w2 = x_socks w0 /\ forall q, q <> name -> lookup q (x_files w2) = lookup q (x_files w)).
  { unfold bind_client. fold name. unfold k_bind at 1. rewrite Pl. change (x_files w0) with (x_files w). change (x_mk w0) with (x_mk w). rewrite M.
    destruct (lookup name (x_files w)) as [nd|] eqn:L.
    - rewrite Z.eqb_refl. unfold k_unlink. change (x_files w0) with (x_files w). rewrite L. change (x_rm w0) with (x_rm w).
      replace (match nd with NSock _ true => true | _ => x_rm w name end) with true by (destruct Old as [E|[E|(id & E)]]; [discriminate|destruct nd as [? []|]; congruence|injection E as ->; reflexivity]).
      unfold k_bind. rewrite Pl. cbn [x_files x_mk]. rewrite lookup_remove, str_eq_refl. change (x_mk w0) with (x_mk w). rewrite M. eexists. split; [reflexivity|]. cbn [x_socks x_files]. split; [reflexivity|].
      intros q Nq. apply not_eq_sym, str_eq_false in Nq. cbn [lookup]. now rewrite Nq, lookup_remove, Nq.
    - change (0 =? - EADDRINUSE)%Z with false. eexists. split; [reflexivity|]. cbn [x_socks x_files]. split; [reflexivity|].
      intros q Nq. apply not_eq_sym, str_eq_false in Nq. cbn [lookup]. now rewrite Nq. }
  destruct B as (w2 & -> & K & Q). change (0 <? 0)%Z with false. cbn iota. destruct (plain_addr path P) as (a & E & Pa & _). unfold connect_client. rewrite E. unfold k_connect. rewrite Pa, (Q path Np), F.
  assert (Rw : k_reach w2 sid = 0%Z). { unfold k_reach, sock_of in *. rewrite K. cbn [w0 x_socks find k_id]. apply S in F. now replace (x_next w =? sid) with false by lia. }
  rewrite Rw. change (0 <? 0)%Z with false. eauto.
Qed.
