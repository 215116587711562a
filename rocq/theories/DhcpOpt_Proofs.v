From Verif Require Import Base DhcpOpt_Model DhcpOpt_Spec.

(** ** Memory *)
Lemma rd_app l x r : rd (l ++ x :: r) (lenN l) = Ok x.
Proof.
  unfold rd. rewrite nthN_app. replace (lenN l <? lenN l) with false by lia.
  replace (lenN l - lenN l) with 0 by lia. reflexivity.
Qed.
Lemma rd_at p i l x r : p = l ++ x :: r -> i = lenN l -> rd p i = Ok x.
Proof. intros -> ->. apply rd_app. Qed.

Lemma write_at (l old r d : list byte) off : off = lenN l -> lenN old = lenN d ->
  mem_write (l ++ old ++ r) off d = Ok (l ++ d ++ r).
Proof.
  intros -> H. unfold mem_write. len. replace (lenN l + lenN d <=? lenN l + (lenN old + lenN r)) with true by lia.
  f_equal. rewrite takeN_app, dropN_app.
  rewrite takeN_all by lia. replace (lenN l - lenN l) with 0 by lia. rewrite takeN_0, app_nil_r. f_equal. f_equal.
  rewrite (dropN_all (lenN l + lenN d)) by lia. cbn [app].
  rewrite dropN_app. replace (lenN l + lenN d - lenN l) with (lenN d) by lia.
  rewrite dropN_all by lia. rewrite H. replace (lenN d - lenN d) with 0 by lia. now rewrite dropN_0.
Qed.

Lemma enc_len o : lenN (enc o) = 2 + lenN (snd o).
Proof. unfold enc. len. lia. Qed.
Lemma encs_app a b : encs (a ++ b) = encs a ++ encs b.
Proof. unfold encs. now rewrite flat_map_app. Qed.
Lemma encs_cons o os : encs (o :: os) = enc o ++ encs os.
Proof. reflexivity. Qed.


(** ** Finding the end *)
Lemma end_loop_ok os : Forall good_opt os -> forall fuel pre rest, (length os < fuel)%nat ->
  end_loop fuel (pre ++ encs os ++ 255 :: rest) (lenN pre) = Ok (Some (lenN pre + lenN (encs os))).
Proof.
  induction 1 as [|[c d] os [Hc0 [Hc1 [Hc2 Hd]]] Hos IH]; intros fuel pre rest Hf; (destruct fuel as [|fuel]; [cbn in Hf; lia|]); cbn [end_loop].
  - cbn [encs flat_map app]. rewrite rd_app. cbn [bind]. change (255 =? END) with true. cbv iota.
    unfold lenN at 3. cbn [length]. do 2 f_equal. lia.
  - rewrite encs_cons. unfold enc. cbn [fst snd app] in *.
    rewrite (rd_app pre). cbn [bind].
    replace (c =? END) with false by (unfold END; lia). replace (c =? PADDING) with false by (unfold PADDING; lia).
    rewrite (rd_at _ _ (pre ++ [c]) (lenN d) (d ++ encs os ++ 255 :: rest)); [|now rewrite <- !app_assoc|len; lia].
    cbn [bind]. specialize (IH fuel (pre ++ c :: lenN d :: d) rest ltac:(cbn in Hf; lia)).
    replace (lenN pre + lenN d + 2 - 1 + 1) with (lenN (pre ++ c :: lenN d :: d)) by (len; lia).
    replace (pre ++ c :: lenN d :: (d ++ encs os) ++ 255 :: rest)
      with ((pre ++ c :: lenN d :: d) ++ encs os ++ 255 :: rest) by (now rewrite <- !app_assoc).
    rewrite IH. do 2 f_equal. len. lia.
Qed.
Lemma end_padded l : Forall (fun o => match o with Some (c, _) => c <> 0 /\ c <> 255 | None => True end) l ->
  forall fuel pre rest, (length l < fuel)%nat ->
  end_loop fuel (pre ++ padded l ++ 255 :: rest) (lenN pre) = Ok (Some (lenN pre + lenN (padded l))).
Proof.
  induction 1 as [|o l Ho _ IH]; intros fuel pre rest Hf; (destruct fuel as [|fuel]; [cbn in Hf; lia|]); cbn [end_loop].
  - cbn [padded flat_map app]. rewrite rd_app. cbn [bind]. change (255 =? END) with true. cbv iota.
    unfold lenN at 3. cbn [length]. do 2 f_equal. lia.
  - unfold padded. cbn [flat_map]. fold (padded l). cbn [length] in Hf. destruct o as [[c d]|].
    + destruct Ho as (Hc0 & Hc1). unfold enc. cbn [fst snd app].
      rewrite (rd_app pre). cbn [bind].
      replace (c =? END) with false by (unfold END; lia). replace (c =? PADDING) with false by (unfold PADDING; lia).
      rewrite (rd_at _ _ (pre ++ [c]) (lenN d) (d ++ padded l ++ 255 :: rest)); [|now rewrite <- !app_assoc|len; lia].
      cbn [bind]. specialize (IH fuel (pre ++ c :: lenN d :: d) rest ltac:(lia)).
      replace (lenN pre + lenN d + 2 - 1 + 1) with (lenN (pre ++ c :: lenN d :: d)) by (len; lia).
      replace (pre ++ c :: lenN d :: (d ++ padded l) ++ 255 :: rest)
        with ((pre ++ c :: lenN d :: d) ++ padded l ++ 255 :: rest) by (now rewrite <- !app_assoc).
      rewrite IH. do 2 f_equal. len. lia.
    + cbn [app]. rewrite (rd_app pre). cbn [bind]. change (0 =? END) with false. change (0 =? PADDING) with true. cbv iota.
      specialize (IH fuel (pre ++ [0]) rest ltac:(lia)). rewrite <- app_assoc in IH. cbn [app] in IH.
      replace (lenN pre + 1) with (lenN (pre ++ [0])) by (len; lia). rewrite IH. do 2 f_equal. len. lia.
Qed.
Lemma end_found l rest : Forall (fun o => match o with Some (c, _) => c <> 0 /\ c <> 255 | None => True end) l ->
  (length l < 400)%nat -> end_option (padded l ++ 255 :: rest) = Ok (Some (lenN (padded l))).
Proof. intros F L. apply (end_padded l F 400%nat [] rest L). Qed.

Lemma encs_count os : 2 * N.of_nat (length os) <= lenN (encs os).
Proof.
  induction os as [|o os IH]; [cbn; lia|]. rewrite encs_cons. len. rewrite enc_len. cbn [length]. lia.
Qed.

(** ** Adding *)
Definition inv (os : list opt) : Prop := Forall good_opt os /\ lenN (encs os) <= 306.

Lemma header_len t : lenN (header t) = 240.
Proof. unfold header. destruct (_ || _); reflexivity. Qed.
Lemma packet_opts h os : lenN h = 240 ->
  dropN HDR (packet_with h os) = encs os ++ 255 :: repeat 0 (N.to_nat (387 - lenN (encs os))).
Proof.
  intros Hh. unfold packet_with. rewrite dropN_app. rewrite (dropN_all HDR h) by (rewrite Hh; unfold HDR; lia).
  rewrite Hh. change (HDR - 240) with 0. rewrite dropN_0. reflexivity.
Qed.
Lemma lenN_repeat {A} (x : A) n : lenN (repeat x (N.to_nat n)) = n.
Proof. unfold lenN. rewrite repeat_length. lia. Qed.
Lemma packet_len t os : lenN (encs os) <= 387 -> lenN (packet t os) = 628.
Proof. intros. unfold packet, packet_with. len. rewrite header_len, lenN_repeat. lia. Qed.

Definition grow (os : list opt) (x : opt) : list opt :=
  if lenN (encs os) + lenN (enc x) + 1 <=? 307 then os ++ [x] else os.

Lemma grow_inv os x : inv os -> good_opt x -> inv (grow os x).
Proof.
  intros [H1 H2] Hx. unfold grow. destruct (N.leb_spec (lenN (encs os) + lenN (enc x) + 1) 307); [|now split].
  split; [apply Forall_app; split; [exact H1|constructor; [exact Hx|constructor]]|].
  rewrite encs_app. cbn [encs flat_map]. len. lia.
Qed.

Lemma add_binary_with h os x : lenN h = 240 -> inv os -> good_opt x ->
  add_binary (packet_with h os) (enc x) = Ok (Some (packet_with h (grow os x))).
Proof.
  intros Hh [H1 H2] Hx. destruct x as [c d]. unfold add_binary. rewrite (packet_opts h os Hh).
  pose proof (encs_count os) as Hcnt. unfold end_option.
  pose proof (end_loop_ok os H1 400%nat [] (repeat 0 (N.to_nat (387 - lenN (encs os))))) as He.
  cbn [app] in He. change (lenN (@nil N)) with 0 in He. rewrite He by lia. clear He.
  cbn [bind]. rewrite N.add_0_l. unfold enc at 1. cbn [fst snd].
  change (rd (c :: lenN d :: d) 1) with (Ok (lenN d)). cbn [bind].
  unfold grow. rewrite enc_len. cbn [snd].
  destruct (N.leb_spec BUFSIZE (lenN (encs os) + (2 + lenN d) + 1)) as [Hb|Hb];
    destruct (N.leb_spec (lenN (encs os) + (2 + lenN d) + 1) 307); unfold BUFSIZE in Hb; try lia; [reflexivity|].
  unfold mem_read. rewrite enc_len. cbn [snd].
  replace (0 + (2 + lenN d) <=? 2 + lenN d) with true by lia. cbn [bind].
  rewrite dropN_0, takeN_all by (rewrite enc_len; cbn [snd]; lia).
  unfold packet_with at 1.
  assert (Hz : repeat 0 (N.to_nat (387 - lenN (encs os)))
             = repeat 0 (N.to_nat (2 + lenN d)) ++ repeat 0 (N.to_nat (387 - (lenN (encs os) + (2 + lenN d))))).
  { rewrite <- repeat_app. f_equal. lia. }
  assert (Hsw : [255] ++ repeat 0 (N.to_nat (387 - lenN (encs os))) =
     (255 :: repeat 0 (N.to_nat (1 + lenN d))) ++ [0] ++ repeat 0 (N.to_nat (387 - (lenN (encs os) + (2 + lenN d))))).
  { rewrite Hz. cbn [app]. f_equal. replace (N.to_nat (2 + lenN d)) with (N.to_nat (1 + lenN d) + 1)%nat by lia.
    rewrite repeat_app. rewrite <- app_assoc. reflexivity. }
  rewrite Hsw, (app_assoc h).
  rewrite (write_at (h ++ encs os)); [|len; rewrite Hh; reflexivity|len; rewrite lenN_repeat, enc_len; cbn [snd]; lia].
  cbn [bind].
  replace ((h ++ encs os) ++ enc (c, d) ++ [0] ++ repeat 0 (N.to_nat (387 - (lenN (encs os) + (2 + lenN d)))))
    with ((h ++ encs os ++ enc (c, d)) ++ [0] ++ repeat 0 (N.to_nat (387 - (lenN (encs os) + (2 + lenN d)))))
    by (now rewrite <- !app_assoc).
  rewrite write_at; [|len; rewrite Hh, enc_len; cbn [snd]; unfold HDR; lia|reflexivity].
  cbn [bind]. do 2 f_equal. unfold packet_with. rewrite encs_app. cbn [encs flat_map]. rewrite app_nil_r.
  len. rewrite enc_len. cbn [snd]. now rewrite <- !app_assoc.
Qed.

Lemma add_binary_ok t os x : inv os -> good_opt x ->
  add_binary (packet t os) (enc x) = Ok (Some (packet t (grow os x))).
Proof. apply add_binary_with, header_len. Qed.

Lemma be32_eq v : be32 v = [v / 2 ^ 24; v / 2 ^ 16 mod 256; v / 2 ^ 8 mod 256; v mod 256].
Proof.
  unfold be32, be16. cbn [app]. change (2 ^ 24) with 16777216. change (2 ^ 16) with 65536. change (2 ^ 8) with 256.
  f_equal; [lia|]. f_equal. f_equal; [lia|]. f_equal. lia.
Qed.

Lemma existsb_eqb c l : existsb (N.eqb c) l = true -> In c l.
Proof. rewrite existsb_exists. intros [x [H1 H2]]. apply N.eqb_eq in H2. now subst. Qed.

Lemma check_codes c n : check_option c n =
  if existsb (N.eqb c) [1; 3; 6; 42; 50; 51; 54] then 4 =? n
  else if c =? 57 then 2 =? n
  else if existsb (N.eqb c) [12; 15; 53; 60; 61; 252] then 1 =? n else false.
Proof.
  unfold check_option, client_options. cbn [find fst existsb].
  repeat match goal with |- context [N.eqb ?k c] => rewrite (N.eqb_sym k c) end.
  repeat match goal with |- context [c =? ?k] => destruct (N.eqb_spec c k); [subst; reflexivity|] end. reflexivity.
Qed.

Lemma add_op_wanted p o : add_op p o = match wanted o with None => Ok (Some p) | Some x => add_binary p (enc x) end.
Proof.
  destruct o as [c d|c v|c v|c v]; cbn [add_op wanted]; [reflexivity| | |].
  - unfold add_u32, add_sized. rewrite <- be32_eq. change (lenN (be32 v)) with 4.
    rewrite check_codes. destruct (existsb _ _); [reflexivity|]. destruct (c =? 57); [reflexivity|].
    destruct (existsb _ _); reflexivity.
  - unfold add_u16, add_sized. fold (be16 v). change (lenN (be16 v)) with 2.
    rewrite check_codes. destruct (N.eqb_spec c 57) as [->|]; [reflexivity|]. destruct (existsb _ _); [reflexivity|].
    destruct (existsb _ _); reflexivity.
  - unfold add_u8, add_sized. change (lenN [v]) with 1.
    rewrite check_codes. destruct (existsb _ [12; _; _; _; _; _]) eqn:E.
    + apply existsb_eqb in E. cbn [In] in E.
      replace (existsb (N.eqb c) [1; 3; 6; 42; 50; 51; 54]) with false by (cbn [existsb]; lia).
      replace (c =? 57) with false by lia. reflexivity.
    + clear E. destruct (existsb _ _); [reflexivity|]. destruct (c =? 57); reflexivity.
Qed.

Lemma wanted_good o x : good_add o -> wanted o = Some x -> good_opt x.
Proof.
  destruct o as [c d|c v|c v|c v]; cbn [good_add wanted]; intros Hg Hw.
  - injection Hw as <-. exact Hg.
  - destruct (existsb _ _) eqn:E; [|discriminate]. injection Hw as <-. apply existsb_eqb in E.
    unfold good_opt. cbn [fst snd]. change (lenN (be32 v)) with 4. cbn [In] in E. lia.
  - destruct (N.eqb_spec c 57) as [->|]; [|discriminate]. injection Hw as <-.
    unfold good_opt. cbn [fst snd]. change (lenN (be16 v)) with 2. lia.
  - destruct (existsb _ _) eqn:E; [|discriminate]. injection Hw as <-. apply existsb_eqb in E.
    unfold good_opt. cbn [fst snd]. change (lenN [v]) with 1. cbn [In] in E. lia.
Qed.

Lemma add_ops_with h ops : lenN h = 240 -> forall os, inv os -> Forall good_add ops ->
  add_ops (packet_with h os) ops = Ok (Some (packet_with h (fold_left add_opt ops os))) /\ inv (fold_left add_opt ops os).
Proof.
  intros Hh. induction ops as [|o ops IH]; intros os Hi Hg; cbn [add_ops fold_left]; [split; [reflexivity|exact Hi]|].
  inversion Hg as [|? ? Ho Hg']; subst. rewrite add_op_wanted.
  unfold add_opt at 2 4. destruct (wanted o) as [x|] eqn:E.
  - pose proof (wanted_good o x Ho E) as Hx. rewrite (add_binary_with h os x Hh Hi Hx). cbn [bind].
    fold (grow os x). apply IH; [now apply grow_inv|exact Hg'].
  - cbn [bind]. now apply IH.
Qed.
Lemma add_ops_ok t ops : forall os, inv os -> Forall good_add ops ->
  add_ops (packet t os) ops = Ok (Some (packet t (fold_left add_opt ops os))) /\ inv (fold_left add_opt ops os).
Proof. apply add_ops_with, header_len. Qed.

Lemma inv_nil : inv []. Proof. unfold inv. split; [apply Forall_nil|]. change (lenN (encs [])) with 0. lia. Qed.
Lemma init_header_ok t : init_header t = Ok (Some (packet t [(53, [t])])) /\ inv [(53, [t])].
Proof.
  assert (Hx : good_opt (53, [t])) by (unfold good_opt; cbn [fst snd]; change (lenN [t]) with 1; lia).
  split.
  - unfold init_header.
    replace ([if (t =? 2) || (t =? 5) || (t =? 6) then 2 else 1; 1; 6] ++ repeat 0 233 ++ [99; 130; 83; 99] ++ [END] ++ repeat 0 387)
      with (packet t []).
    + change (add_u8 (packet t []) MESSAGE_TYPE t) with (add_binary (packet t []) (enc (53, [t]))).
      rewrite (add_binary_ok t [] (53, [t]) inv_nil Hx). reflexivity.
    + unfold packet, packet_with, header. rewrite <- !app_assoc. reflexivity.
  - apply (grow_inv [] (53, [t]) inv_nil Hx).
Qed.

Lemma build_ok t ops : Forall good_add ops ->
  build t ops = Ok (Some (packet t (options_of t ops))) /\ inv (options_of t ops).
Proof.
  intros Hg. unfold build, options_of. destruct (init_header_ok t) as [-> Hi]. cbn [bind]. now apply add_ops_ok.
Qed.

(** ** Reading back *)
Lemma sub_int_ok r n : (- 2 ^ 31 <= r - Z.of_N n)%Z -> sub_int r n = Ok (r - Z.of_N n)%Z.
Proof. intros. unfold sub_int. replace (r - Z.of_N n <? - 2 ^ 31)%Z with false by lia. reflexivity. Qed.

Lemma get_loop_list plen code os : Forall good_opt os -> forall fuel pre rest r,
  (length os < fuel)%nat -> lenN pre + lenN (encs os) < plen ->
  (Z.of_N (lenN (encs os)) < r <= 388)%Z ->
  exists res, get_loop fuel (pre ++ encs os ++ 255 :: rest) plen code (mkSt (lenN pre) r 0) = Ok (Some res)
  /\ match first code os with
     | None => res = None
     | Some d => exists l1 l2, pre ++ encs os ++ 255 :: rest = l1 ++ d ++ l2 /\ res = Some (lenN l1)
         /\ nthN (pre ++ encs os ++ 255 :: rest) (lenN l1 - 1) = Some (lenN d)
     end.
Proof.
  induction 1 as [|[c d] os [Hc0 [Hc1 [Hc2 Hd]]] Hos IH]; intros fuel pre rest r Hf Hp Hr;
    (destruct fuel as [|fuel]; [cbn in Hf; lia|]); cbn [get_loop]; unfold get_step; cbn [ptr rem ovl].
  - replace (plen <=? lenN pre) with false by (cbn in Hp; unfold lenN in *; lia). rewrite andb_false_r.
    cbn [encs flat_map app]. rewrite rd_app. cbn [bind]. change (255 =? PADDING) with false. change (255 =? END) with true.
    cbv iota. rewrite !N.bits_0. cbn [bind first find option_map]. eauto.
  - rewrite encs_cons in *. unfold enc in *. cbn [fst snd app] in *. len.
    replace (plen <=? lenN pre) with false by lia. rewrite andb_false_r.
    rewrite (rd_app pre). cbn [bind].
    replace (c =? PADDING) with false by (unfold PADDING; lia). replace (c =? END) with false by (unfold END; lia).
    replace (plen <=? lenN pre + 1) with false by lia.
    rewrite (rd_at _ _ (pre ++ [c]) (lenN d) (d ++ encs os ++ 255 :: rest)); [|now rewrite <- !app_assoc|len; lia].
    cbn [bind]. rewrite sub_int_ok by lia. cbn [bind].
    replace (r - Z.of_N (2 + lenN d) <? 0)%Z with false by lia.
    unfold first. cbn [find fst].
    destruct (N.eqb_spec c code) as [->|Hne].
    + replace (plen <=? lenN pre + 2 + lenN d) with false by lia. cbn [option_map snd bind].
      eexists. split; [reflexivity|].
      exists (pre ++ [code; lenN d]), (encs os ++ 255 :: rest). split; [now rewrite <- !app_assoc|].
      split; [f_equal; len; lia|]. rewrite nthN_app. len.
      replace (lenN pre + (1 + (1 + 0)) - 1 <? lenN pre) with false by lia.
      replace (lenN pre + (1 + (1 + 0)) - 1 - lenN pre) with 1 by lia. reflexivity.
    + replace (c =? OVERLOAD) with false by (unfold OVERLOAD; lia). cbn [bind].
      specialize (IH fuel (pre ++ c :: lenN d :: d) rest (r - Z.of_N (2 + lenN d))%Z).
      replace (lenN (pre ++ c :: lenN d :: d)) with (lenN pre + 2 + lenN d) in IH by (len; lia).
      replace ((pre ++ c :: lenN d :: d) ++ encs os ++ 255 :: rest)
        with (pre ++ c :: lenN d :: (d ++ encs os) ++ 255 :: rest) in IH by (now rewrite <- !app_assoc).
      apply IH; [cbn in Hf; lia|lia|lia].
Qed.

Lemma read_back t ops plen code fuel : Forall good_add ops -> 548 <= plen <= 628 -> (400 <= fuel)%nat ->
  exists p res, build t ops = Ok (Some p) /\ get_option fuel p plen code = Ok (Some res) /\
  match first code (options_of t ops) with
  | None => res = None
  | Some d => exists i, res = Some i /\ mem_read p i (lenN d) = Ok d /\ nthN p (i - 1) = Some (lenN d)
  end.
Proof.
  intros Hg Hp Hf. destruct (build_ok t ops Hg) as [Hb [H1 H2]]. set (os := options_of t ops) in *.
  exists (packet t os). pose proof (encs_count os) as Hcnt.
  destruct (get_loop_list plen code os H1 fuel (header t) (repeat 0 (N.to_nat (387 - lenN (encs os)))) 388%Z) as [res [Hr Hm]].
  { lia. } { rewrite header_len. lia. } { lia. }
  exists res. split; [exact Hb|]. split.
  { unfold get_option, packet. change ([255] ++ ?x) with (255 :: x). rewrite header_len in Hr. exact Hr. }
  destruct (first code os) as [d|]; [|exact Hm]. destruct Hm as [l1 [l2 [E1 [E2 E3]]]].
  exists (lenN l1). split; [exact E2|]. split; [|exact E3].
  unfold packet, packet_with. change ([255] ++ ?x) with (255 :: x). rewrite E1.
  unfold mem_read. len. replace (lenN l1 + lenN d <=? lenN l1 + (lenN d + lenN l2)) with true by lia.
  f_equal. rewrite dropN_app, (dropN_all (lenN l1) l1) by lia.
  replace (lenN l1 - lenN l1) with 0 by lia. rewrite dropN_0. cbn [app].
  rewrite takeN_app, takeN_all by lia. replace (lenN d - lenN d) with 0 by lia. now rewrite takeN_0, app_nil_r.
Qed.

(** ** Received packets *)
Lemma nthN_lt {A} (l : list A) i x : nthN l i = Some x -> i < lenN l.
Proof. intros H. destruct (N.ltb_spec i (lenN l)); [lia|]. rewrite nthN_None in H by lia. discriminate. Qed.

Lemma get_well_formed p plen code : lenN p = 628 -> plen <= 628 ->
  forall i, well_formed p i -> i <= 628 -> forall fuel, (N.to_nat (628 - i) < fuel)%nat ->
  exists r, get_loop fuel p plen code (mkSt i (628 - Z.of_N i) 0) = Ok (Some r)
  /\ forall o, r = Some o -> i + 2 <= o /\ exists l, nthN p (o - 2) = Some code /\ nthN p (o - 1) = Some l /\ o + l < plen.
Proof.
  intros Hl Hpl. induction 1 as [|i E|i E W IH|i c l Ec C0 C1 C2 El Hfit W IH|]; intros Hi fuel Hf;
    (destruct fuel as [|fuel]; [lia|]); cbn [get_loop]; unfold get_step; cbn [ptr rem ovl].
  - replace (plen <=? 628) with true by lia. cbn [andb Z.leb]. cbn. exists None. split; [reflexivity|discriminate].
  - pose proof (nthN_lt _ _ _ E). replace (628 - Z.of_N i <=? 0)%Z with false by lia. cbn [andb].
    unfold rd at 1. rewrite E. cbn [bind]. change (255 =? PADDING) with false. change (255 =? END) with true.
    cbv iota. rewrite !N.bits_0. cbn [bind]. exists None. split; [reflexivity|discriminate].
  - pose proof (nthN_lt _ _ _ E). replace (628 - Z.of_N i <=? 0)%Z with false by lia. cbn [andb].
    unfold rd at 1. rewrite E. cbn [bind]. change (0 =? PADDING) with true. cbv iota.
    rewrite sub_int_ok by lia. cbn [bind].
    replace (628 - Z.of_N i - Z.of_N 1)%Z with (628 - Z.of_N (i + 1))%Z by lia.
    destruct (IH ltac:(lia) fuel ltac:(lia)) as [r [Hr Ho]]. exists r. split; [exact Hr|].
    intros o Eo. destruct (Ho o Eo) as [H1 H2]. split; [lia|exact H2].
  - pose proof (nthN_lt _ _ _ Ec). pose proof (nthN_lt _ _ _ El).
    replace (628 - Z.of_N i <=? 0)%Z with false by lia. cbn [andb].
    unfold rd at 1. rewrite Ec. cbn [bind].
    replace (c =? PADDING) with false by (unfold PADDING; lia). replace (c =? END) with false by (unfold END; lia).
    destruct (N.leb_spec plen (i + 1)); [exists None; split; [reflexivity|discriminate]|].
    unfold rd at 1. rewrite El. cbn [bind]. rewrite sub_int_ok by lia. cbn [bind].
    replace (628 - Z.of_N i - Z.of_N (2 + l) <? 0)%Z with false by lia.
    destruct (N.eqb_spec c code) as [->|Hne].
    + cbn [bind]. eexists. split; [reflexivity|]. intros o Eo. destruct (N.leb_spec plen (i + 2 + l)); [discriminate|].
      injection Eo as <-. split; [lia|]. exists l. replace (i + 2 - 2) with i by lia. replace (i + 2 - 1) with (i + 1) by lia.
      repeat split; auto.
    + replace (c =? OVERLOAD) with false by (unfold OVERLOAD; lia). cbn [bind].
      replace (628 - Z.of_N i - Z.of_N (2 + l))%Z with (628 - Z.of_N (i + 2 + l))%Z by lia.
      destruct (IH Hfit fuel ltac:(lia)) as [r [Hr Ho]]. exists r. split; [exact Hr|].
      intros o Eo. destruct (Ho o Eo) as [Q1 Q2]. split; [lia|exact Q2].
  - destruct (nthN_Some p 627) as [c Ec]; [lia|]. cbn [Z.of_N]. change (628 - 627 <=? 0)%Z with false. cbn [andb].
    unfold rd at 1. rewrite Ec. cbn [bind].
    destruct (c =? PADDING).
    + rewrite sub_int_ok by lia. cbn [bind]. destruct fuel as [|fuel]; [lia|]. cbn [get_loop]. unfold get_step. cbn [ptr rem ovl].
      change (627 + 1) with 628. replace (plen <=? 628) with true by lia. cbn [andb Z.leb].
      change (628 - 627 - Z.of_N 1 <=? 0)%Z with true. cbn [andb bind]. exists None. split; [reflexivity|discriminate].
    + destruct (c =? END); [rewrite !N.bits_0; exists None; split; [reflexivity|discriminate]|].
      change (627 + 1) with 628. replace (plen <=? 628) with true by lia. exists None. split; [reflexivity|discriminate].
Qed.

(** Once an option overruns, the loop spins without progress. *)
Lemma spin p plen code i c l : nthN p i = Some c -> c <> 0 -> c <> 255 ->
  nthN p (i + 1) = Some l -> i + 1 < plen ->
  forall fuel r ov, (r < Z.of_N (2 + l))%Z -> forall x, get_loop fuel p plen code (mkSt i r ov) <> Ok (Some x).
Proof.
  intros Ec C0 C1 El Hp. induction fuel as [|fuel IH]; intros r ov Hr x; [discriminate|].
  cbn [get_loop]. unfold get_step. cbn [ptr rem ovl].
  replace (plen <=? i) with false by lia. rewrite andb_false_r.
  unfold rd at 1. rewrite Ec. cbn [bind].
  replace (c =? PADDING) with false by (unfold PADDING; lia). replace (c =? END) with false by (unfold END; lia).
  replace (plen <=? i + 1) with false by lia.
  unfold rd at 1. rewrite El. cbn [bind]. unfold sub_int. destruct (_ <? - 2 ^ 31)%Z; cbn [bind]; [discriminate|].
  replace (r - Z.of_N (2 + l) <? 0)%Z with true by lia. cbn [bind]. apply IH. lia.
Qed.

Lemma get_overruns p plen code : lenN p = 628 ->
  forall i, overruns p plen code i -> forall fuel x,
  get_loop fuel p plen code (mkSt i (628 - Z.of_N i) 0) <> Ok (Some x).
Proof.
  intros Hl. induction 1 as [i c l Ec C0 C1 El Hi Hov|i E O IH|i c l Ec C0 C1 C2 C3 El Hi Hfit O IH]; intros fuel x.
  - eapply spin; eauto. lia.
  - destruct fuel as [|fuel]; [discriminate|]. cbn [get_loop]. unfold get_step. cbn [ptr rem ovl].
    pose proof (nthN_lt _ _ _ E). replace (628 - Z.of_N i <=? 0)%Z with false by lia. cbn [andb].
    unfold rd at 1. rewrite E. cbn [bind]. change (0 =? PADDING) with true. cbv iota.
    rewrite sub_int_ok by lia. cbn [bind].
    replace (628 - Z.of_N i - Z.of_N 1)%Z with (628 - Z.of_N (i + 1))%Z by lia. apply IH.
  - destruct fuel as [|fuel]; [discriminate|]. cbn [get_loop]. unfold get_step. cbn [ptr rem ovl].
    pose proof (nthN_lt _ _ _ Ec). pose proof (nthN_lt _ _ _ El).
    replace (628 - Z.of_N i <=? 0)%Z with false by lia. cbn [andb].
    unfold rd at 1. rewrite Ec. cbn [bind].
    replace (c =? PADDING) with false by (unfold PADDING; lia). replace (c =? END) with false by (unfold END; lia).
    replace (plen <=? i + 1) with false by lia.
    unfold rd at 1. rewrite El. cbn [bind]. rewrite sub_int_ok by lia. cbn [bind].
    replace (628 - Z.of_N i - Z.of_N (2 + l) <? 0)%Z with false by lia.
    replace (c =? code) with false by lia. replace (c =? OVERLOAD) with false by (unfold OVERLOAD; lia). cbn [bind].
    replace (628 - Z.of_N i - Z.of_N (2 + l))%Z with (628 - Z.of_N (i + 2 + l))%Z by lia. apply IH.
Qed.

Lemma lookup_well_formed p plen code : lenN p = 628 -> plen <= 628 -> well_formed p 240 ->
  exists r, get_option 400 p plen code = Ok (Some r)
  /\ forall o, r = Some o -> 242 <= o /\ exists l, nthN p (o - 2) = Some code /\ nthN p (o - 1) = Some l /\ o + l < plen.
Proof.
  intros Hl Hp W. destruct (get_well_formed p plen code Hl Hp 240 W ltac:(lia) 400%nat ltac:(lia)) as [r [Hr Ho]].
  exists r. split; [exact Hr|exact Ho].
Qed.
Lemma lookup_overruns p plen code : lenN p = 628 -> overruns p plen code 240 ->
  forall fuel x, get_option fuel p plen code <> Ok (Some x).
Proof. intros Hl O fuel x. unfold get_option, HDR. apply (get_overruns p plen code Hl 240 O). Qed.

(** An overload option inside the file field starts the field again, for ever. *)
Definition loop_packet : list byte :=
  repeat 0 108 ++ [52; 1; 1; 255] ++ repeat 0 128 ++ [52; 1; 1; 255] ++ repeat 0 384.
Lemma loop_file : forall fuel x, get_loop fuel loop_packet 628 53 (mkSt 108 128 0) <> Ok (Some x).
Proof.
  assert (H : forall k x, get_loop k loop_packet 628 53 (mkSt 108 128 0) <> Ok (Some x)
    /\ get_loop k loop_packet 628 53 (mkSt 111 125 1) <> Ok (Some x)).
  { induction k as [|k IH]; intros x; [split; discriminate|]. cbn [get_loop].
    replace (get_step loop_packet 628 53 (mkSt 108 128 0)) with (Ok (Goto (mkSt 111 125 1))) by (vm_compute; reflexivity).
    replace (get_step loop_packet 628 53 (mkSt 111 125 1)) with (Ok (Goto (mkSt 108 128 0))) by (vm_compute; reflexivity).
    cbn [bind]. destruct (IH x) as [I1 I2]. split; assumption. }
  intros. apply H.
Qed.
Lemma loop_packet_endless fuel x : get_option fuel loop_packet 628 53 <> Ok (Some x).
Proof.
  unfold get_option. do 2 (destruct fuel as [|fuel]; [discriminate|]). cbn [get_loop].
  replace (get_step loop_packet 628 53 (mkSt HDR 388 0)) with (Ok (Goto (mkSt 243 385 1))) by (vm_compute; reflexivity).
  cbn [bind].
  replace (get_step loop_packet 628 53 (mkSt 243 385 1)) with (Ok (Goto (mkSt 108 128 0))) by (vm_compute; reflexivity).
  cbn [bind]. apply loop_file.
Qed.

(** ** Overloaded fields *)
Definition found (P : list byte) (d : list byte) (i : N) : Prop := exists l1 l2, P = l1 ++ d ++ l2 /\ i = lenN l1 /\ nthN P (i - 1) = Some (lenN d).
Lemma field_list plen code os : Forall any_opt os -> forall fuel pre rest r o,
  lenN pre + lenN (encs os) < plen -> (Z.of_N (lenN (encs os)) < r <= 388)%Z ->
  match first code os with
  | Some d => exists i, get_loop (length os + fuel) (pre ++ encs os ++ 255 :: rest) plen code (mkSt (lenN pre) r o) = Ok (Some (Some i))
      /\ found (pre ++ encs os ++ 255 :: rest) d i
  | None => exists r', (0 < r' <= 388)%Z /\ get_loop (length os + fuel) (pre ++ encs os ++ 255 :: rest) plen code (mkSt (lenN pre) r o)
      = get_loop fuel (pre ++ encs os ++ 255 :: rest) plen code (mkSt (lenN pre + lenN (encs os)) r' (N.lor o (overloads os)))
  end.
Proof.
  induction 1 as [|[c d] os [Hc0 [Hc1 [Hd Hc2]]] Hos IH]; intros fuel pre rest r o Hp Hr.
  - cbn [first find option_map]. exists r. cbn in Hr. split; [lia|]. cbn [length plus overloads fold_right]. rewrite N.lor_0_r. change (lenN (encs [])) with 0. rewrite N.add_0_r. reflexivity.
  - cbn [length plus get_loop]. unfold get_step; cbn [ptr rem ovl]. rewrite encs_cons in *. unfold enc in *. cbn [fst snd app] in *. len.
    replace (plen <=? lenN pre) with false by lia. rewrite andb_false_r.
    rewrite (rd_app pre). cbn [bind].
    replace (c =? PADDING) with false by (unfold PADDING; lia). replace (c =? END) with false by (unfold END; lia).
    replace (plen <=? lenN pre + 1) with false by lia.
    rewrite (rd_at _ _ (pre ++ [c]) (lenN d) (d ++ encs os ++ 255 :: rest)); [|now rewrite <- !app_assoc|len; lia].
    cbn [bind]. rewrite sub_int_ok by lia. cbn [bind].
    replace (r - Z.of_N (2 + lenN d) <? 0)%Z with false by lia.
    unfold first. cbn [find fst].
    destruct (N.eqb_spec c code) as [->|Hne].
    + replace (plen <=? lenN pre + 2 + lenN d) with false by lia. cbn [option_map snd bind].
      eexists. split; [reflexivity|].
      exists (pre ++ [code; lenN d]), (encs os ++ 255 :: rest). split; [now rewrite <- !app_assoc|].
      split; [len; lia|]. rewrite nthN_app. len.
      replace (lenN pre + 2 - 1 <? lenN pre) with false by lia.
      replace (lenN pre + 2 - 1 - lenN pre) with 1 by lia. reflexivity.
    + fold (first code os).
      assert (Eo : (if c =? OVERLOAD then do v <- rd (pre ++ c :: lenN d :: (d ++ encs os) ++ 255 :: rest) (lenN pre + 2); Ok (N.lor o v) else Ok o)
        = Ok (N.lor o (if c =? 52 then hd 0 d else 0))).
      { change OVERLOAD with 52. destruct (N.eqb_spec c 52) as [E|E]; [|rewrite N.lor_0_r; reflexivity]. destruct d as [|v d]; [exfalso; apply Hc2; auto|].
        rewrite (rd_at _ _ (pre ++ [c; lenN (v :: d)]) v ((d ++ encs os) ++ 255 :: rest)); [reflexivity|now rewrite <- !app_assoc|len; lia]. }
      rewrite Eo. cbn [bind].
      assert (Hos' : overloads (@cons opt (c, d) os) = N.lor (if c =? 52 then hd 0 d else 0) (overloads os)).
      { cbn [overloads fold_right fst snd]. destruct (c =? 52); [reflexivity|]. rewrite N.lor_0_l. reflexivity. }
      rewrite Hos', N.lor_assoc.
      specialize (IH fuel (pre ++ c :: lenN d :: d) rest (r - Z.of_N (2 + lenN d))%Z (N.lor o (if c =? 52 then hd 0 d else 0))).
      replace (lenN (pre ++ c :: lenN d :: d)) with (lenN pre + 2 + lenN d) in IH by (len; lia).
      replace ((pre ++ c :: lenN d :: d) ++ encs os ++ 255 :: rest)
        with (pre ++ c :: lenN d :: (d ++ encs os) ++ 255 :: rest) in IH by (now rewrite <- !app_assoc).
      replace (lenN pre + (1 + (1 + (lenN d + lenN (encs os))))) with (lenN pre + 2 + lenN d + lenN (encs os)) by lia.
      apply IH; lia.
Qed.
Lemma at_end plen code P i r o fuel rest pre : P = pre ++ 255 :: rest -> lenN pre = i -> i < plen ->
  get_loop (S fuel) P plen code (mkSt i r o) =
    if N.testbit o 0 then get_loop fuel P plen code (mkSt FILE 128 (N.clearbit o 0))
    else if N.testbit o 1 then get_loop fuel P plen code (mkSt SNAME 64 (N.clearbit o 1)) else Ok (Some None).
Proof.
  intros -> <- Hi. cbn [get_loop]. unfold get_step. cbn [ptr rem ovl]. replace (plen <=? lenN pre) with false by lia. rewrite andb_false_r, rd_app. cbn [bind].
  change (255 =? PADDING) with false. change (255 =? END) with true. cbv iota. destruct (N.testbit o 0); [reflexivity|]. destruct (N.testbit o 1); reflexivity.
Qed.
Lemma no_overloads os : Forall good_opt os -> overloads os = 0.
Proof. induction 1 as [|[c d] os (_ & _ & H & _) _ IH]; [reflexivity|]. cbn [overloads fold_right fst] in *. destruct (N.eqb_spec c 52); [contradiction|]. exact IH. Qed.
Lemma good_any os : Forall good_opt os -> Forall any_opt os.
Proof. intros H. eapply Forall_impl; [|exact H]. intros [c d] (H1 & H2 & H3 & H4). repeat split; auto. Qed.
Lemma first_app code a b : first code (a ++ b) = match first code a with Some d => Some d | None => first code b end.
Proof. unfold first. induction a as [|x a IH]; simpl; [reflexivity|]. destruct (fst x =? code); [reflexivity|exact IH]. Qed.
Lemma mem_found P d i : found P d i -> mem_read P i (lenN d) = Ok d /\ nthN P (i - 1) = Some (lenN d).
Proof.
  intros (l1 & l2 & E & -> & H). split; [|exact H]. rewrite E. unfold mem_read. len. replace (lenN l1 + lenN d <=? lenN l1 + (lenN d + lenN l2)) with true by lia.
  f_equal. rewrite dropN_app, (dropN_all (lenN l1) l1) by lia. replace (lenN l1 - lenN l1) with 0 by lia. rewrite dropN_0. cbn [app].
  rewrite takeN_app, takeN_all by lia. replace (lenN d - lenN d) with 0 by lia. now rewrite takeN_0, app_nil_r.
Qed.
Lemma overload_lookup p plen code os fs ss : overloaded p os fs ss -> 240 + lenN (encs os) < plen <= 628 ->
  Forall any_opt os -> Forall good_opt fs -> Forall good_opt ss ->
  let all := os ++ (if N.testbit (overloads os) 0 then fs else []) ++ (if N.testbit (overloads os) 1 then ss else []) in
  exists res, get_option 700 p plen code = Ok (Some res) /\
  match first code all with
  | None => res = None
  | Some d => exists i, res = Some i /\ mem_read p i (lenN d) = Ok d /\ nthN p (i - 1) = Some (lenN d)
  end.
Proof.
  intros (h & xs & xf & ck & xo & Ep & Lh & Ls & Lf & Lc & Lo) Hpl Ho Hf Hs. simpl. rewrite !first_app. len.
  assert (N1 := encs_count os). assert (N2 := encs_count fs). assert (N3 := encs_count ss).
  set (P0 := h ++ (encs ss ++ 255 :: xs) ++ (encs fs ++ 255 :: xf) ++ ck).
  set (P1 := h ++ (encs ss ++ 255 :: xs)).
  assert (E0 : p = P0 ++ encs os ++ 255 :: xo) by (rewrite Ep; unfold P0; repeat (rewrite <- app_assoc; cbn [app]); reflexivity).
  assert (E1 : p = P1 ++ encs fs ++ 255 :: (xf ++ ck ++ encs os ++ 255 :: xo)) by (rewrite Ep; unfold P1; repeat (rewrite <- app_assoc; cbn [app]); reflexivity).
  assert (E2 : p = h ++ encs ss ++ 255 :: (xs ++ (encs fs ++ 255 :: xf) ++ ck ++ encs os ++ 255 :: xo)) by (rewrite Ep; repeat (rewrite <- app_assoc; cbn [app]); reflexivity).
  assert (L0 : lenN P0 = 240) by (unfold P0; len; lia). assert (L1 : lenN P1 = 108) by (unfold P1; len; lia).
  assert (Fo : forall fuel r o, (Z.of_N (lenN (encs os)) < r <= 388)%Z -> match first code os with
    | Some d => exists i, get_loop (length os + fuel) p plen code (mkSt 240 r o) = Ok (Some (Some i)) /\ found p d i
    | None => exists r', get_loop (length os + S fuel) p plen code (mkSt 240 r o) = get_loop (S fuel) p plen code (mkSt (240 + lenN (encs os)) r' (N.lor o (overloads os))) end).
  { intros fuel r o Hr. assert (H := fun fuel => field_list plen code os Ho fuel P0 xo r o). rewrite L0, <- E0 in H. destruct (first code os).
    - apply H; lia.
    - destruct (H (S fuel)) as (r' & _ & E); [lia|lia|]. eauto. }
  assert (Ff : forall fuel o, match first code fs with
    | Some d => exists i, get_loop (length fs + fuel) p plen code (mkSt 108 128 o) = Ok (Some (Some i)) /\ found p d i
    | None => exists r', get_loop (length fs + S fuel) p plen code (mkSt 108 128 o) = get_loop (S fuel) p plen code (mkSt (108 + lenN (encs fs)) r' o) end).
  { intros fuel o. assert (H := fun fuel => field_list plen code fs (good_any fs Hf) fuel P1 (xf ++ ck ++ encs os ++ 255 :: xo) 128%Z o). rewrite L1, <- E1, (no_overloads fs Hf), N.lor_0_r in H. destruct (first code fs).
    - apply H; lia.
    - destruct (H (S fuel)) as (r' & _ & E); [lia|lia|]. eauto. }
  assert (Fs : forall fuel o, match first code ss with
    | Some d => exists i, get_loop (length ss + fuel) p plen code (mkSt 44 64 o) = Ok (Some (Some i)) /\ found p d i
    | None => exists r', get_loop (length ss + S fuel) p plen code (mkSt 44 64 o) = get_loop (S fuel) p plen code (mkSt (44 + lenN (encs ss)) r' o) end).
  { intros fuel o. assert (H := fun fuel => field_list plen code ss (good_any ss Hs) fuel h (xs ++ (encs fs ++ 255 :: xf) ++ ck ++ encs os ++ 255 :: xo) 64%Z o). rewrite Lh, <- E2, (no_overloads ss Hs), N.lor_0_r in H. destruct (first code ss).
    - apply H; lia.
    - destruct (H (S fuel)) as (r' & _ & E); [lia|lia|]. eauto. }
  assert (Ao : forall fuel r o, get_loop (S fuel) p plen code (mkSt (240 + lenN (encs os)) r o) =
    if N.testbit o 0 then get_loop fuel p plen code (mkSt FILE 128 (N.clearbit o 0)) else if N.testbit o 1 then get_loop fuel p plen code (mkSt SNAME 64 (N.clearbit o 1)) else Ok (Some None)).
  { intros. apply at_end with (pre := P0 ++ encs os) (rest := xo); [rewrite <- app_assoc; exact E0|len; lia|lia]. }
  assert (Af : forall fuel r o, get_loop (S fuel) p plen code (mkSt (108 + lenN (encs fs)) r o) =
    if N.testbit o 0 then get_loop fuel p plen code (mkSt FILE 128 (N.clearbit o 0)) else if N.testbit o 1 then get_loop fuel p plen code (mkSt SNAME 64 (N.clearbit o 1)) else Ok (Some None)).
  { intros. eapply at_end with (pre := P1 ++ encs fs); [rewrite <- app_assoc; exact E1|len; lia|lia]. }
  assert (As : forall fuel r o, get_loop (S fuel) p plen code (mkSt (44 + lenN (encs ss)) r o) =
    if N.testbit o 0 then get_loop fuel p plen code (mkSt FILE 128 (N.clearbit o 0)) else if N.testbit o 1 then get_loop fuel p plen code (mkSt SNAME 64 (N.clearbit o 1)) else Ok (Some None)).
  { intros. eapply at_end with (pre := h ++ encs ss); [rewrite <- app_assoc; exact E2|len; lia|lia]. }
  assert (Ret1 : forall d i, found p d i -> exists j, Some i = Some j /\ mem_read p j (lenN d) = Ok d /\ nthN p (j - 1) = Some (lenN d)).
  { intros d i H. exists i. split; [reflexivity|]. apply mem_found, H. }
  assert (Sn : forall fuel o, (length ss + 1 <= fuel)%nat -> N.testbit o 0 = false -> N.testbit o 1 = false ->
    exists res, get_loop fuel p plen code (mkSt SNAME 64 o) = Ok (Some res) /\
      match first code ss with None => res = None | Some d => exists i, res = Some i /\ mem_read p i (lenN d) = Ok d /\ nthN p (i - 1) = Some (lenN d) end).
  { intros fuel o Hfu B0 B1. change SNAME with 44. destruct (first code ss) as [d|] eqn:E.
    - specialize (Fs (fuel - length ss)%nat o). replace (length ss + (fuel - length ss))%nat with fuel in Fs by lia. destruct Fs as (i & G & F). eauto.
    - specialize (Fs (fuel - length ss - 1)%nat o). replace (length ss + S (fuel - length ss - 1))%nat with fuel in Fs by lia. destruct Fs as (r' & G). rewrite G, As, B0, B1. eauto. }
  unfold get_option. change HDR with 240.
  destruct (first code os) as [d|] eqn:Eo.
  { destruct (Fo (700 - length os)%nat 388%Z 0) as (i & G & F); [lia|]. replace (length os + (700 - length os))%nat with 700%nat in G by lia. eauto. }
  destruct (Fo (699 - length os)%nat 388%Z 0) as (r' & G); [lia|]. replace (length os + S (699 - length os))%nat with 700%nat in G by lia.
  rewrite G, Ao, N.lor_0_l. clear G Fo. set (o := overloads os). destruct (N.testbit o 0) eqn:B0.
  - change FILE with 108. destruct (first code fs) as [d|] eqn:Ef.
    { destruct (Ff (699 - length os - length fs)%nat (N.clearbit o 0)) as (i & G & F).
      replace (length fs + (699 - length os - length fs))%nat with (699 - length os)%nat in G by lia. eauto. }
    destruct (Ff (698 - length os - length fs)%nat (N.clearbit o 0)) as (r2 & G).
    replace (length fs + S (698 - length os - length fs))%nat with (699 - length os)%nat in G by lia. rewrite G, Af, N.clearbit_eq, N.clearbit_neq by lia.
    destruct (N.testbit o 1) eqn:B1; [|exists None; split; reflexivity]. apply Sn; [lia| |rewrite N.clearbit_eq; reflexivity]. rewrite N.clearbit_neq, N.clearbit_eq by lia. reflexivity.
  - cbn [first find option_map]. destruct (N.testbit o 1) eqn:B1; [|exists None; split; reflexivity]. apply Sn; [lia| |rewrite N.clearbit_eq; reflexivity]. rewrite N.clearbit_neq by lia. exact B0.
Qed.
