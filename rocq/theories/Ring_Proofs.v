From Verif Require Import Base Align_Model Align_Proofs Ring_Model Ring_Spec.

(** The ring read in order, starting at [start]. *)
Definition rot (r : ring) : list cell := dropN (start r) (buf r) ++ takeN (start r) (buf r).

Record R (r : ring) (q : queue) : Prop := mkR {
  R_cap : size r = cap q;
  R_used : used r = lenN (bytes q);
  R_len : lenN (buf r) = size r;
  R_pow : size r = 0 \/ exists k, size r = 2 ^ k /\ 12 <= k <= 63;
  R_le : used r <= size r;
  R_start : start r < size r \/ (size r = 0 /\ start r = 0);
  R_data : takeN (used r) (rot r) = map Some (bytes q) }.

Lemma R_init : R ring_init empty_queue.
Proof. constructor; cbn; auto; try lia. Qed.

Lemma pow63 : 2 ^ 63 = 9223372036854775808. Proof. reflexivity. Qed.

Lemma size_bound r q : R r q -> size r <= 9223372036854775808.
Proof.
  intros [_ _ _ Hp _ _ _]. destruct Hp as [H|[k [H Hk]]]; [lia|].
  rewrite H, <- pow63. apply N.pow_le_mono_r; lia.
Qed.

Lemma wrap64_small n : n < 18446744073709551616 -> wrap64 n = n.
Proof. intros; unfold wrap64; apply N.mod_small; rewrite two64_val; lia. Qed.

Lemma mask_mod r q v :
  R r q -> size r <> 0 -> ring_mask r v = v mod size r.
Proof.
  intros HR Hn. pose proof (size_bound _ _ HR) as Hb.
  destruct HR as [_ _ _ Hp _ _ _]. unfold ring_mask.
  destruct Hp as [H|[k [H Hk]]]; [lia|].
  replace (wrap64 (size r + two64 - 1)) with (N.ones k).
  - rewrite N.land_ones, <- H. reflexivity.
  - rewrite N.ones_equiv, <- H. unfold wrap64. rewrite two64_val.
    replace (size r + 18446744073709551616 - 1)
      with (size r - 1 + 1 * 18446744073709551616) by lia.
    rewrite N.mod_add by lia. rewrite N.mod_small by lia. lia.
Qed.

Lemma mod_2x a n : n <> 0 -> a < 2 * n -> a mod n = if a <? n then a else a - n.
Proof.
  intros Hn Ha. destruct (a <? n) eqn:E.
  - apply N.mod_small; lia.
  - replace a with (a - n + 1 * n) at 1 by lia.
    rewrite N.mod_add by lia. apply N.mod_small; lia.
Qed.

Lemma lenN_rot r : lenN (rot r) = lenN (buf r).
Proof. unfold rot; len. lia. Qed.

(** Reading [n <= used] bytes as copy/resize do. *)
Definition read_front (r : ring) (n : N) : res (list cell) :=
  let l := size r - start r in
  if n <=? l then mem_read (buf r) (start r) n
  else do a <- mem_read (buf r) (start r) l;
       do b <- mem_read (buf r) 0 (n - l);
       Ok (a ++ b).

Lemma takeN_rot r q n :
  R r q -> n <= used r -> takeN n (rot r) = takeN n (map Some (bytes q)).
Proof.
  intros HR Hn. rewrite <- (R_data _ _ HR), takeN_takeN. f_equal; lia.
Qed.

Lemma read_front_ok r q n :
  R r q -> n <= used r -> read_front r n = Ok (map Some (takeN n (bytes q))).
Proof.
  intros HR Hn. rewrite <- takeN_map, <- (takeN_rot r q n HR Hn).
  destruct HR as [Hc Hu Hl Hp Hle Hs Hd].
  unfold read_front, mem_read.
  destruct (n <=? size r - start r) eqn:E.
  - destruct (start r + n <=? lenN (buf r)) eqn:E2; [|lia].
    f_equal. unfold rot. rewrite takeN_app.
    replace (n - lenN (dropN (start r) (buf r))) with 0 by (len; lia).
    rewrite takeN_0, app_nil_r. reflexivity.
  - destruct (start r + (size r - start r) <=? lenN (buf r)) eqn:E2; [|lia].
    destruct (0 + (n - (size r - start r)) <=? lenN (buf r)) eqn:E3; [|lia].
    cbn [bind]. f_equal. unfold rot.
    apply nthN_ext; intros i. list_norm_all. list_cases; list_done.
Qed.

Lemma mem_write_ok {A} (b : list A) off d :
  off + lenN d <= lenN b ->
  mem_write b off d = Ok (takeN off b ++ d ++ dropN (off + lenN d) b).
Proof. intros; unfold mem_write. destruct (off + lenN d <=? lenN b) eqn:E; [reflexivity|lia]. Qed.
Lemma mem_read_ok {A} (b : list A) off n :
  off + n <= lenN b -> mem_read b off n = Ok (takeN n (dropN off b)).
Proof. intros; unfold mem_read. destruct (off + n <=? lenN b) eqn:E; [reflexivity|lia]. Qed.

Lemma resize_ok r q n :
  R r q -> used r <= n ->
  exists r', ring_resize r n true = Ok (Some r') /\ size r' = n /\ start r' = 0
    /\ used r' = used r /\ lenN (buf r') = n
    /\ takeN (used r') (buf r') = map Some (bytes q).
Proof.
  intros HR Hn. unfold ring_resize; cbn [negb].
  pose proof (read_front_ok r q (used r) HR ltac:(lia)) as Hread.
  destruct HR as [Hc Hu Hl Hp Hle Hs Hd]. unfold read_front in Hread.
  assert (Hall : takeN (used r) (bytes q) = bytes q) by (apply takeN_all; lia).
  rewrite Hall in Hread.
  assert (Hlm : lenN (map (@Some N) (bytes q)) = used r) by (len; lia).
  destruct (0 <? used r) eqn:E0.
  - destruct (used r <=? size r - start r) eqn:E1.
    + rewrite Hread. cbn [bind]. rewrite mem_write_ok by (len; lia). cbn [bind].
      eexists; split; [reflexivity|]. cbn [size start used buf].
      repeat split; try (len; lia).
      rewrite takeN_0, app_nil_l, takeN_app, Hlm.
      rewrite takeN_all by lia. replace (used r - used r) with 0 by lia.
      rewrite takeN_0, app_nil_r; reflexivity.
    + destruct (mem_read (buf r) (start r) (size r - start r)) as [a|] eqn:Ea;
        cbn [bind] in Hread |- *; [|discriminate].
      assert (La : lenN a = size r - start r).
      { unfold mem_read in Ea. destruct (_ <=? _) eqn:Eq in Ea; [|discriminate].
        injection Ea as <-. len. lia. }
      rewrite mem_write_ok by (len; lia). cbn [bind].
      destruct (mem_read (buf r) 0 (used r - (size r - start r))) as [b|] eqn:Eb;
        cbn [bind] in Hread |- *; [|discriminate].
      injection Hread as Hread.
      assert (Lb : lenN b = used r - (size r - start r)).
      { rewrite <- Hread in Hlm. rewrite lenN_app in Hlm. lia. }
      rewrite mem_write_ok by (len; lia). cbn [bind].
      eexists; split; [reflexivity|]. cbn [size start used buf].
      repeat split; try (len; lia).
      rewrite <- Hread.
      apply nthN_ext; intros i. list_norm_all. list_cases; list_done.
  - assert (bytes q = []) by (apply lenN_0_nil; lia).
    cbn [bind]. eexists; split; [reflexivity|]. cbn [size start used buf].
    repeat split; try (len; lia).
    replace (used r) with 0 by lia. rewrite H. reflexivity.
Qed.

(** Writing behind the used part, enough space available. *)
Lemma push_fits r q d :
  R r q -> 0 < lenN d -> lenN d <= size r - used r ->
  exists r',
    (let src := map Some d in
     let pos := ring_mask r (wrap64 (start r + used r)) in
     let l := size r - pos in
     do b <-
       (if lenN d <=? l then mem_write (buf r) pos src
        else
          do s1 <- mem_read src 0 l;
          do b1 <- mem_write (buf r) pos s1;
          do s2 <- mem_read src l (lenN d - l);
          mem_write b1 0 s2);
     Ok (mkRing b (size r) (start r) (wrap64 (used r + lenN d)), true)) = Ok (r', true)
    /\ R r' (mkQueue (bytes q ++ d) (cap q)).
Proof.
  intros HR Hd0 Hd. pose proof (size_bound _ _ HR) as Hb.
  assert (Hn0 : size r <> 0) by lia.
  cbn zeta. rewrite (mask_mod r q) by assumption.
  destruct HR as [Hc Hu Hl Hp Hle Hs Hdat].
  assert (Hs' : start r < size r) by lia.
  rewrite wrap64_small by lia.
  rewrite mod_2x by lia.
  rewrite (wrap64_small (used r + lenN d)) by lia.
  assert (HRmk : forall b, lenN b = size r ->
     takeN (used r + lenN d) (dropN (start r) b ++ takeN (start r) b)
       = map Some (bytes q ++ d) ->
     R (mkRing b (size r) (start r) (used r + lenN d)) (mkQueue (bytes q ++ d) (cap q))).
  { intros b Hbl Hbd. constructor; cbn [buf size start used bytes cap]; auto; try lia.
    len; lia. }
  assert (Hgoal : forall b, lenN b = size r ->
     (forall i, i < used r -> nthN (dropN (start r) b ++ takeN (start r) b) i = nthN (rot r) i) ->
     (forall i, i < lenN d -> nthN (dropN (start r) b ++ takeN (start r) b) (used r + i) = nthN (map Some d) i) ->
     takeN (used r + lenN d) (dropN (start r) b ++ takeN (start r) b) = map Some (bytes q ++ d)).
  { intros b Hbl H1 H2. rewrite map_app, <- Hdat. apply nthN_ext; intros i.
    rewrite nthN_app, !nthN_takeN. len. rewrite lenN_rot.
    replace (N.min (used r) (lenN (buf r))) with (used r) by lia.
    destruct (i <? used r) eqn:E1.
    - destruct (i <? used r + lenN d) eqn:E2; [|lia]. apply H1; lia.
    - destruct (i <? used r + lenN d) eqn:E2.
      + rewrite <- H2 by lia. f_equal; lia.
      + rewrite nthN_None; [reflexivity|len; lia]. }
  destruct (start r + used r <? size r) eqn:E1.
  - destruct (lenN d <=? size r - (start r + used r)) eqn:E2.
    + rewrite mem_write_ok by (len; lia). cbn [bind].
      eexists; split; [reflexivity|]. apply HRmk; [len; lia|].
      apply Hgoal; [len; lia| |]; intros i Hi; unfold rot;
        list_norm_all; list_cases; list_done.
    + rewrite mem_read_ok by (len; lia). cbn [bind].
      rewrite mem_write_ok by (len; lia). cbn [bind].
      rewrite mem_read_ok by (len; lia). cbn [bind].
      rewrite mem_write_ok by (len; lia). cbn [bind].
      eexists; split; [reflexivity|]. apply HRmk; [len; lia|].
      apply Hgoal; [len; lia| |]; intros i Hi; unfold rot;
        list_norm_all; list_cases; list_done.
  - destruct (lenN d <=? size r - (start r + used r - size r)) eqn:E2; [|lia].
    rewrite mem_write_ok by (len; lia). cbn [bind].
    eexists; split; [reflexivity|]. apply HRmk; [len; lia|].
    apply Hgoal; [len; lia| |]; intros i Hi; unfold rot;
      list_norm_all; list_cases; list_done.
Qed.
