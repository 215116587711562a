(** Proofs about the lists and the messages of DHCPv6. *)
From Verif Require Import Base Dhcp6_Model Dhcp6_Spec Dhcp6_Proofs Dhcp6_Ia.
Local Open Scope list_scope.

(** ** Lists *)
Lemma servers_read : forall l r, Forall (fun a : list byte => lenN a = 16) l -> servers (List.length l) (concat l ++ r) = Ret (map VAddr l).
Proof.
  induction l as [|a l IH]; intros r H; [reflexivity|]. inversion H as [|? ? H1 H2]; subst. cbn [List.length concat servers map]. rewrite <- app_assoc.
  rewrite rd_app by now rewrite H1. cbn [obind]. rewrite drop_app_exact by now rewrite H1. rewrite IH by exact H2. reflexivity.
Qed.
Lemma len_concat16 (l : list (list byte)) : Forall (fun a => lenN a = 16) l -> lenN (concat l) = 16 * lenN l.
Proof. induction 1 as [|a l H1 H2 IH]; [reflexivity|]. cbn [concat]. rewrite lenN_app, lenN_cons, IH, H1. lia. Qed.
Theorem server_list b code l r status : code = 23 \/ code = 31 -> Forall (fun a => lenN a = 16) l ->
  value_list b code (lenN (concat l)) (concat l ++ r) status = Ret (map VAddr l, b, status).
Proof.
  intros C H. unfold value_list. replace ((code =? 23) || (code =? 31)) with true by (destruct C as [-> | ->]; reflexivity).
  rewrite len_concat16 by exact H. replace (16 * lenN l mod 16) with 0 by lia. change (negb (0 =? 0)) with false. cbv iota.
  replace (16 * lenN l / 16) with (lenN l) by lia. unfold lenN. rewrite Nnat.Nat2N.id, servers_read by exact H. reflexivity.
Qed.
Theorem server_list_bad b code len m status : code = 23 \/ code = 31 -> len mod 16 <> 0 -> value_list b code len m status = Ret ([], b, status).
Proof.
  intros C H. unfold value_list. replace ((code =? 23) || (code =? 31)) with true by (destruct C as [-> | ->]; reflexivity).
  replace (len mod 16 =? 0) with false by (symmetry; now apply N.eqb_neq). reflexivity.
Qed.

(** Names. *)
Lemma strncpy_text s : forall n r, Forall (fun c => 0 < c) s -> (List.length s < n)%nat -> strncpy n (s ++ 0 :: r) = Ret (s ++ repeat 0 (n - List.length s)).
Proof.
  induction s as [|c s IH]; intros n r H L; destruct n as [|n]; try (cbn [List.length] in L; lia).
  - cbn [strncpy app List.length]. now rewrite Nat.sub_0_r.
  - inversion H; subst. cbn [strncpy app List.length]. replace (c =? 0) with false by lia. cbn [List.length] in L. rewrite IH by (trivial; lia). reflexivity.
Qed.
Definition labels (ls : list (list byte)) : list byte := concat (map (fun l => lenN l :: l) ls).
Definition dots (ls : list (list byte)) : list byte := concat (map (fun l => 46 :: l) ls).
Lemma labels_cons l ls : labels (l :: ls) = (lenN l :: l) ++ labels ls. Proof. reflexivity. Qed.
Lemma dots_cons l ls : dots (l :: ls) = (46 :: l) ++ dots ls. Proof. reflexivity. Qed.
Lemma len_dots ls : lenN (dots ls) = lenN (labels ls).
Proof. induction ls as [|l ls IH]; [reflexivity|]. rewrite dots_cons, labels_cons. len. rewrite IH. reflexivity. Qed.
Lemma nth_mid (a : list byte) x b : nthN (a ++ x :: b) (lenN a) = Some x.
Proof. unfold nthN, lenN. rewrite Nnat.Nat2N.id, nth_error_app2, Nat.sub_diag by lia. reflexivity. Qed.
Lemma walk_labels z : forall ls fuel a, Forall label_ok ls -> (List.length ls < fuel)%nat ->
  walk fuel (a ++ labels ls ++ 0 :: z) (lenN a) = Ret (a ++ dots ls ++ 0 :: z, lenN a + lenN (labels ls)).
Proof.
  induction ls as [|l ls IH]; intros fuel a H L; cbn [List.length] in L; (destruct fuel as [|fuel]; [lia|]); cbn [walk].
  - change (labels []) with (@nil N). change (dots []) with (@nil N). cbn [app]. rewrite nth_mid. change (0 =? 0) with true. cbv iota. do 2 f_equal. change (lenN (@nil N)) with 0. lia.
  - inversion H as [|? ? [H1 _] H2]; subst. rewrite labels_cons, dots_cons. cbn [app]. rewrite nth_mid. replace (lenN l =? 0) with false by lia.
    rewrite take_app_exact by reflexivity.
    replace (dropN (lenN a + 1) (a ++ lenN l :: (l ++ labels ls) ++ 0 :: z)) with (l ++ labels ls ++ 0 :: z).
    2:{ replace (a ++ lenN l :: (l ++ labels ls) ++ 0 :: z) with ((a ++ [lenN l]) ++ l ++ labels ls ++ 0 :: z) by now rewrite <- !app_assoc. rewrite drop_app_exact; [reflexivity|]. len. lia. }
    specialize (IH fuel (a ++ 46 :: l) H2 ltac:(lia)). rewrite <- app_assoc in IH. cbn [app] in IH.
    replace (lenN (a ++ 46 :: l)) with (lenN a + lenN l + 1) in IH by (len; lia). rewrite IH. f_equal. f_equal; [rewrite <- !app_assoc; reflexivity|]. len. lia.
Qed.
Lemma cstr_text s z : Forall (fun c => 0 < c) s -> cstr (s ++ 0 :: z) = Ret s.
Proof. induction 1 as [|c s H1 H2 IH]; [reflexivity|]. cbn [app cstr]. replace (c =? 0) with false by lia. now rewrite IH. Qed.
Lemma labels_pos ls : Forall label_ok ls -> Forall (fun c => 0 < c) (labels ls).
Proof.
  induction 1 as [|l ls [H1 H2] H3 IH]; [constructor|]. rewrite labels_cons. apply Forall_app. split; [|exact IH]. constructor; [lia|].
  eapply Forall_impl; [|exact H2]. cbn beta. intros; lia.
Qed.
Lemma dots_pos ls : Forall label_ok ls -> Forall (fun c => 0 < c) (dots ls).
Proof.
  induction 1 as [|l ls [H1 H2] H3 IH]; [constructor|]. rewrite dots_cons. apply Forall_app. split; [|exact IH]. constructor; [lia|].
  eapply Forall_impl; [|exact H2]. cbn beta. intros; lia.
Qed.
Lemma dots_dotted l ls : dots (l :: ls) = 46 :: dotted (l :: ls).
Proof.
  revert l. induction ls as [|k ls IH]; intros l; [rewrite dots_cons; change (dots []) with (@nil N); now rewrite app_nil_r|].
  rewrite dots_cons, IH. reflexivity.
Qed.
Lemma len_enc_name ls : lenN (enc_name ls) = lenN (labels ls) + 1. Proof. unfold enc_name. fold (labels ls). len. lia. Qed.
Lemma one_name ls r : name_ok ls -> ls <> [] ->
  exists buf, strncpy (N.to_nat 1025) (enc_name ls ++ r) = Ret buf
  /\ exists buf2, walk (N.to_nat 1026) buf 0 = Ret (buf2, lenN (enc_name ls) - 1) /\ cstr (dropN 1 buf2) = Ret (dotted ls).
Proof.
  intros [H L] N. rewrite len_enc_name in *. unfold enc_name. fold (labels ls). rewrite <- app_assoc. cbn [app].
  assert (LL : (List.length (labels ls) <= 254)%nat) by (unfold lenN in L; lia).
  assert (LC : (List.length ls <= List.length (labels ls))%nat).
  { clear. induction ls as [|l ls IH]; [cbn; lia|]. rewrite labels_cons. cbn [List.length]. rewrite app_length. cbn [List.length]. lia. }
  eexists. split; [apply strncpy_text; [now apply labels_pos|lia]|].
  replace (N.to_nat 1025 - List.length (labels ls))%nat with (S (1024 - List.length (labels ls))) by lia. cbn [repeat].
  exists (dots ls ++ 0 :: repeat 0 (1024 - List.length (labels ls))). split.
  - pose proof (walk_labels (repeat 0 (1024 - List.length (labels ls))) ls (N.to_nat 1026) [] H ltac:(lia)) as W. cbn [app] in W. change (lenN (@nil byte)) with 0 in W. rewrite W. do 2 f_equal. lia.
  - destruct ls as [|l ls]; [contradiction|]. pose proof (dots_pos _ H) as P. rewrite dots_dotted in *. cbn [app].
    change (46 :: dotted (l :: ls) ++ 0 :: repeat 0 (1024 - List.length (labels (l :: ls)))) with ([46] ++ dotted (l :: ls) ++ 0 :: repeat 0 (1024 - List.length (labels (l :: ls)))).
    rewrite drop_app_exact by reflexivity. apply cstr_text. now inversion P.
Qed.
Lemma all_names r : forall ns fuel pos len, Forall name_ok ns -> Forall (fun ls => ls <> []) ns -> pos + lenN (concat (map enc_name ns)) = len -> (List.length ns < fuel)%nat ->
  domains fuel (concat (map enc_name ns) ++ r) pos len = Ret (map (fun ls => VName (dotted ls)) ns).
Proof.
  induction ns as [|ls ns IH]; intros fuel pos ln H N E L; cbn [List.length] in L; (destruct fuel as [|fuel]; [lia|]); cbn [domains map concat].
  - cbn [map concat] in E. rewrite lenN_nil in E. replace (pos <? ln) with false by lia. reflexivity.
  - inversion H as [|? ? H1 H2]; subst. inversion N as [|? ? N1 N2]; subst. cbn [map concat]. rewrite lenN_app.
    pose proof (len_enc_name ls). replace (pos <? _) with true by lia. rewrite <- app_assoc.
    destruct (one_name ls (concat (map enc_name ns) ++ r) H1 N1) as (buf & -> & buf2 & W & C). cbn [obind]. rewrite W. cbn [obind]. rewrite C. cbn [obind].
    rewrite (drop_app_exact (enc_name ls)) by lia. rewrite IH; [reflexivity|assumption|assumption| |lia]. lia.
Qed.
Theorem domain_list b ns r status : Forall name_ok ns -> Forall (fun ls => ls <> []) ns ->
  value_list b 24 (lenN (concat (map enc_name ns))) (concat (map enc_name ns) ++ r) status = Ret (map (fun ls => VName (dotted ls)) ns, b, status).
Proof.
  intros H N. unfold value_list. change ((24 =? 23) || (24 =? 31)) with false. change ((24 =? 3) || (24 =? 4) || (24 =? 25)) with false. change (24 =? 24) with true. cbv iota.
  unfold get_domains. destruct ns as [|ls ns].
  - cbn [map concat]. rewrite lenN_nil. reflexivity.
  - assert (3 <= lenN (enc_name ls)).
    { inversion H as [|? ? [H1 _] _]; subst. inversion N; subst. rewrite len_enc_name. destruct ls as [|l ls]; [contradiction|]. rewrite labels_cons. inversion H1 as [|? ? [K _] _]; subst. len. lia. }
    replace (_ <? 3) with false by (symmetry; apply N.ltb_ge; cbn [map concat]; rewrite lenN_app; lia). rewrite all_names; [reflexivity|assumption|assumption|lia|].
    assert (Q : forall m : list (list (list byte)), (List.length m <= List.length (concat (map enc_name m)))%nat).
    { induction m as [|x m IH]; [cbn; lia|]. cbn [map concat List.length]. rewrite app_length. pose proof (len_enc_name x). unfold lenN in *. lia. }
    specialize (Q (ls :: ns)). unfold lenN. lia.
Qed.

(** ** Messages *)
Lemma got_some t xid os r code m len count : lenN xid = 3 -> Forall opt_ok os -> rest_ok r -> get_option (message t xid os ++ rest_bytes r) code = Ret (Some (m, len), count) ->
  exists o q, last_of (with_code code os) = Some o /\ m = o_data o ++ q /\ len = lenN (o_data o) /\ count = lenN (with_code code os).
Proof.
  intros X H R E. pose proof (option_found t xid os r code X H R) as F. rewrite E in F. unfold outcome in F.
  assert (G : exists f, Ret (Some (m, len), count) = Ret (f, lenN (with_code code os)) /\ finds code os f) by (destruct r; [exact F|discriminate F|exact F|discriminate F]).
  destruct G as (f & G & FF). injection G as <- ->. unfold finds in FF. destruct (last_of _) as [o|]; [|discriminate FF]. destruct FF as (q & FF). injection FF as -> ->. eauto 6.
Qed.
Lemma single {A} (l : list A) x : last_of l = Some x -> lenN l = 1 -> l = [x].
Proof. destruct l as [|a [|b l]]; intros E L; [discriminate E|now injection E as ->|len; lia]. Qed.
Lemma rd_prefix m n x : rd m n = Ret x -> exists q, m = x ++ q /\ lenN x = n.
Proof. unfold rd. destruct (N.leb_spec n (lenN m)); [|discriminate]. injection 1 as <-. exists (dropN n m). split; [now rewrite takeN_dropN|]. rewrite lenN_takeN. lia. Qed.
Lemma memcmp_starts known m : memcmp known m = Ret true -> starts known m.
Proof.
  unfold memcmp. destruct (rd m (lenN known)) as [x| |] eqn:E; try discriminate. cbn [obind]. injection 1 as S. unfold same_bytes in S.
  destruct (list_eq_dec N.eq_dec known x) as [->|]; [|discriminate S]. destruct (rd_prefix _ _ _ E) as (q & -> & _). now exists q.
Qed.
Lemma memcmp_same known r : memcmp known (known ++ r) = Ret true.
Proof. unfold memcmp. rewrite rd_app by reflexivity. cbn [obind]. unfold same_bytes. now destruct (list_eq_dec N.eq_dec known known). Qed.
