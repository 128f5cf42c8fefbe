(** Proofs about armn_compress. *)
From Coq Require Import ZArith List Lia Bool.
From Verif Require Import Bits BitIO BitIOFacts CompactInt CompactIntMain TileCodec ZfstLib StreamFacts TileFacts MinFacts ParaFacts ParaMain SpecZfst.
Import ListNotations.
Open Scope Z_scope.
Open Scope opt_scope.

Lemma swap16_eq w : 0 <= w < 2 ^ 32 -> swap16 w = w / 2 ^ 16 + (w mod 2 ^ 16) * 2 ^ 16.
Proof.
  intros H. unfold swap16. rewrite Z.shiftr_div_pow2, Z.shiftl_mul_pow2 by lia.
  assert (E : (w * 2 ^ 16) mod 2 ^ 32 = (w mod 2 ^ 16) * 2 ^ 16).
  { change (2 ^ 32) with (2 ^ 16 * 2 ^ 16). rewrite Z.mul_mod_distr_r by lia. reflexivity. }
  rewrite E. set (a := w / 2 ^ 16). set (b := w mod 2 ^ 16).
  assert (Ha : 0 <= a < 2 ^ 16).
  { unfold a. split; [apply Z.div_pos; lia|apply Z.div_lt_upper_bound; lia]. }
  assert (L : Z.land a (b * 2 ^ 16) = 0).
  { rewrite <- (Z.mod_small a (2 ^ 16)) by lia. rewrite <- Z.shiftl_mul_pow2 by lia.
    rewrite <- Z.land_ones by lia. apply Z.bits_inj'. intros n Hn.
    rewrite !Z.land_spec, Z.bits_0, Z.shiftl_spec by lia. rewrite Z.testbit_ones by lia.
    destruct (Z.ltb_spec n 16); [rewrite (Z.testbit_neg_r b) by lia|]; rewrite ?andb_false_r; auto. }
  symmetry. rewrite Z.add_nocarry_lxor by exact L. apply Z.lxor_lor. exact L.
Qed.

Lemma half_bound w : 0 <= w < 2 ^ 32 -> 0 <= w / 2 ^ 16 < 2 ^ 16 /\ 0 <= w mod 2 ^ 16 < 2 ^ 16.
Proof.
  intros H. split; [|apply Z.mod_pos_bound; lia].
  split; [apply Z.div_pos; lia|apply Z.div_lt_upper_bound; lia].
Qed.

Lemma swap16_parts w : 0 <= w < 2 ^ 32 ->
  0 <= swap16 w < 2 ^ 32 /\ swap16 w / 2 ^ 16 = w mod 2 ^ 16 /\ swap16 w mod 2 ^ 16 = w / 2 ^ 16.
Proof.
  intros H. rewrite swap16_eq by auto. destruct (half_bound w H) as [A B]. split; [lia|].
  split.
  - rewrite Z.div_add by lia. rewrite (Z.div_small (w / 2 ^ 16)) by lia. lia.
  - rewrite Z.mod_add by lia. apply Z.mod_small. lia.
Qed.

Lemma swap16_invol w : 0 <= w < 2 ^ 32 -> swap16 (swap16 w) = w.
Proof.
  intros H. destruct (swap16_parts w H) as (A & B & C). rewrite swap16_eq by auto. rewrite B, C.
  rewrite Z.mul_comm. rewrite Z.add_comm. symmetry. apply Z.div_mod. lia.
Qed.

Lemma swap_loop_spec n l : (n <= length l)%nat -> swap_loop n l = Some (map swap16 (firstn n l) ++ skipn n l).
Proof.
  revert l. induction n as [|n IH]; intros l H.
  - destruct l; reflexivity.
  - destruct l as [|w r]; [cbn in H; lia|]. cbn [swap_loop]. rewrite IH by (cbn in H; lia). reflexivity.
Qed.

Lemma swap_loop_some n l l' : swap_loop n l = Some l' -> (n <= length l)%nat.
Proof.
  revert l l'. induction n as [|n IH]; intros l l' H; [lia|].
  destruct l as [|w r]; [discriminate|]. cbn [swap_loop] in H.
  destruct (swap_loop n r) eqn:E; [|discriminate]. apply IH in E. cbn. lia.
Qed.

Lemma swap_loop_invol n l l' : words32 l -> swap_loop n l = Some l' ->
  swap_loop n l' = Some l /\ length l' = length l /\ words32 l'.
Proof.
  intros F H. pose proof (swap_loop_some _ _ _ H) as L. rewrite swap_loop_spec in H by auto. injection H as <-.
  assert (L1 : length (map swap16 (firstn n l)) = n) by (rewrite map_length, firstn_length; lia).
  split; [|split].
  - rewrite swap_loop_spec by (rewrite app_length, L1; lia).
    rewrite firstn_app, skipn_app, L1, Nat.sub_diag, firstn_O, app_nil_r.
    rewrite firstn_all2 by lia. rewrite (skipn_all2 (map swap16 (firstn n l))) by lia.
    cbn [app skipn]. f_equal. rewrite map_map.
    rewrite <- (firstn_skipn n l) at 3. f_equal. rewrite <- (map_id (firstn n l)) at 2.
    apply map_ext_in. intros w Hw. apply swap16_invol.
    assert (In w l) by (rewrite <- (firstn_skipn n l); apply in_or_app; auto).
    unfold words32 in F. rewrite Forall_forall in F. auto.
  - rewrite app_length, L1, skipn_length. lia.
  - unfold words32 in *. rewrite <- (firstn_skipn n l), Forall_app in F. destruct F as [F1 F2].
    apply Forall_app; split; auto. apply Forall_map. eapply Forall_impl; [|exact F1].
    intros w Hw. apply swap16_parts; auto.
Qed.

Lemma swap_nth n l l' i : words32 l -> swap_loop n l = Some l' ->
  nth i l' 0 = if (i <? n)%nat then swap16 (nth i l 0) else nth i l 0.
Proof.
  intros F H. pose proof (swap_loop_some _ _ _ H) as L. rewrite swap_loop_spec in H by auto. injection H as <-.
  assert (L1 : length (map swap16 (firstn n l)) = n) by (rewrite map_length, firstn_length; lia).
  destruct (Nat.ltb_spec i n).
  - rewrite app_nth1 by lia. change 0 with (swap16 0) at 1. rewrite map_nth. f_equal.
    rewrite <- (firstn_skipn n l) at 2. rewrite app_nth1 by (rewrite firstn_length; lia). reflexivity.
  - rewrite app_nth2 by lia. rewrite L1. rewrite <- (firstn_skipn n l) at 2.
    rewrite app_nth2 by (rewrite firstn_length; lia). rewrite firstn_length. f_equal. lia.
Qed.

Lemma words32_nth l i : words32 l -> 0 <= nth i l 0 < 2 ^ 32.
Proof.
  intros F. destruct (Nat.lt_ge_cases i (length l)).
  - unfold words32 in F. rewrite Forall_forall in F. apply F, nth_In; auto.
  - rewrite nth_overflow by auto. lia.
Qed.

Lemma tok16_swap n l l' k : words32 l -> swap_loop n l = Some l' -> (k < 2 * n)%nat ->
  tok16 false l' k = tok16 true l k /\ tok16 true l' k = tok16 false l k.
Proof.
  intros F H Hk. unfold tok16. rewrite (swap_nth _ _ _ _ F H).
  assert (k / 2 < n)%nat by (apply Nat.div_lt_upper_bound; lia).
  destruct (Nat.ltb_spec (k / 2) n); [|lia].
  destruct (swap16_parts (nth (k / 2) l 0) (words32_nth _ _ F)) as (A & B & C). rewrite B, C.
  destruct (Nat.even k); cbn [Bool.eqb]; auto.
Qed.

Lemma halves_length l : length (halves l) = (2 * length l)%nat.
Proof. induction l as [|w r IH]; [reflexivity|]. unfold halves in *. cbn [flat_map app length]. rewrite IH. lia. Qed.

Lemma halves_nth l k : el (halves l) k = tok16 false l k.
Proof.
  revert k. induction l as [|w r IH]; intros k.
  - unfold el, tok16. cbn [halves flat_map].
    destruct k as [|k]; [reflexivity|]. destruct (S k / 2)%nat; cbn [nth]; destruct (Bool.eqb _ _); reflexivity.
  - change (halves (w :: r)) with (w mod 2 ^ 16 :: w / 2 ^ 16 :: halves r).
    destruct k as [|[|k]]; [reflexivity|reflexivity|].
    unfold el, tok16 in *. cbn [nth]. rewrite IH. cbn [Nat.even].
    replace (S (S k) / 2)%nat with (S (k / 2)); [reflexivity|].
    change (S (S k)) with (2 + k)%nat. rewrite <- (Nat.add_comm k). change 2%nat with (1 * 2)%nat at 2.
    rewrite Nat.div_add by lia. lia.
Qed.

Lemma words_of_spec u : forall m, length u = (2 * m)%nat ->
  length (words_of u) = m /\ (forall i, (i < m)%nat -> nth i (words_of u) 0 = el u (2 * i) + el u (2 * i + 1) * 2 ^ 16).
Proof.
  intros m. revert u. induction m as [|m IH]; intros u H.
  - destruct u; [|discriminate]. split; auto. intros i Hi; lia.
  - destruct u as [|a [|b u]]; try (cbn in H; lia). cbn [words_of length].
    destruct (IH u) as [A B]; [cbn in H; lia|]. split; [lia|]. intros i Hi.
    destruct i as [|i]; [reflexivity|]. cbn [nth]. rewrite B by lia.
    replace (2 * S i)%nat with (S (S (2 * i))) by lia. reflexivity.
Qed.

Lemma nth_error_el u k v : nth_error u k = Some v -> el u k = v.
Proof. intros H. unfold el. apply nth_error_nth. exact H. Qed.

Lemma copy_bytes_spec fld z p f : copy_bytes fld z p = Some f -> words32 fld ->
  length f = length fld /\ firstn p f = firstn p z /\ (p < length fld)%nat /\ (p < length z)%nat /\
  (words32 z -> words32 f) /\ skipn (S p) f = skipn (S p) fld.
Proof.
  unfold copy_bytes. intros H F.
  destruct (Nat.leb_spec p (length z)), (Nat.leb_spec p (length fld)); try discriminate. cbn [andb] in H.
  destruct (rd fld p) as [a|] eqn:Ea; [|discriminate]. destruct (rd z p) as [b|] eqn:Eb; [|discriminate].
  cbn [bind] in H.
  assert (Hf : f = firstn p z ++ (a - a mod 2 ^ 8 + b mod 2 ^ 8) :: skipn (S p) fld) by congruence. clear H. subst f.
  pose proof (rd_lt _ _ _ Ea) as La. pose proof (rd_lt _ _ _ Eb) as Lb.
  assert (L1 : length (firstn p z) = p) by (rewrite firstn_length; lia).
  split; [rewrite app_length; cbn [length]; rewrite L1, skipn_length; lia|].
  split; [rewrite firstn_app, L1, Nat.sub_diag, firstn_O, app_nil_r; apply firstn_all2; lia|].
  split; auto. split; auto. split.
  - intros Fz. apply Forall_app. split; [apply Forall_firstn; auto|]. constructor; [|apply Forall_skipn; auto].
    assert (Ha : 0 <= a < 2 ^ 32) by (unfold words32 in F; rewrite Forall_forall in F; apply F; eapply nth_error_In; exact Ea).
    pose proof (Z.mod_pos_bound b (2 ^ 8) ltac:(lia)). pose proof (Z.mod_pos_bound a (2 ^ 8) ltac:(lia)).
    pose proof (Z.div_mod a (2 ^ 8) ltac:(lia)).
    assert (a / 2 ^ 8 < 2 ^ 24) by (apply Z.div_lt_upper_bound; lia).
    assert (0 <= a / 2 ^ 8) by (apply Z.div_pos; lia).
    lia.
  - rewrite skipn_app, L1. replace (S p - p)%nat with 1%nat by lia.
    rewrite (skipn_all2 (firstn p z)) by lia. reflexivity.
Qed.

Lemma hdr_fields pr dg st nb : 0 <= pr < 2 ^ 4 -> 0 <= dg < 2 ^ 3 -> 0 <= st < 2 ^ 3 -> 0 <= nb < 2 ^ 5 ->
  let h := zip_header pr dg st nb 1 0 in
  inr32 h /\ hdr_predictor h = pr /\ hdr_step h = Z.to_nat st /\ hdr_nbits h = Z.to_nat nb.
Proof.
  intros H1 H2 H3 H4 h. unfold hdr_predictor, hdr_step, hdr_nbits.
  assert (E1 : h = pr + (dg + st * 2 ^ 3 + nb * 2 ^ 6 + 2 ^ 11) * 2 ^ 4) by (unfold h, zip_header; lia).
  assert (E2 : h = (pr + dg * 2 ^ 4) + (st + (nb + 2 ^ 5) * 2 ^ 3) * 2 ^ 7) by (unfold h, zip_header; lia).
  assert (E3 : h = (pr + dg * 2 ^ 4 + st * 2 ^ 7) + (nb + 1 * 2 ^ 5) * 2 ^ 10) by (unfold h, zip_header; lia).
  split; [unfold inr32; rewrite E1; lia|]. split; [|split].
  - rewrite E1, Z.mod_add by lia. apply Z.mod_small; lia.
  - rewrite E2, Z.div_add, (Z.div_small (pr + dg * 2 ^ 4)) by lia. rewrite Z.add_0_l, Z.mod_add by lia.
    rewrite Z.mod_small by lia. reflexivity.
  - rewrite E3, Z.div_add, (Z.div_small (pr + dg * 2 ^ 4 + st * 2 ^ 7)) by lia. rewrite Z.add_0_l, Z.mod_add by lia.
    rewrite Z.mod_small by lia. reflexivity.
Qed.

(** ** C12, C13 *)
Theorem compress_fail orc fast swap g fld ni nj nk nbits fld' :
  words32 fld -> armn_compress orc fast swap g fld ni nj nk nbits = Some (-1, fld') -> fld' = fld.
Proof.
  intros F. unfold armn_compress. destruct (_ || _ || _)%bool.
  { intros H. injection H as <-. reflexivity. }
  destruct (_ <=? _); [discriminate|]. cbv zeta.
  set (limite := ((1 + ni * nj) / 2)%nat).
  destruct (if swap then swap_loop limite fld else Some fld) as [f1|] eqn:E1; [|discriminate]. cbn [bind].
  match goal with |- context [bind ?x _] => destruct x as [[z p]|] end; [|discriminate]. cbn [bind].
  destruct (Z.leb_spec (1 + 2 * Z.of_nat (ni * nj * nk)) (1 + 4 * Z.of_nat p)).
  - destruct swap.
    + destruct (swap_loop_invol _ _ _ F E1) as (E & _). rewrite E. cbn [bind]. intros H'. injection H' as <-. reflexivity.
    + injection E1 as <-. cbn [bind]. intros H'. injection H' as <-. reflexivity.
  - destruct (copy_bytes f1 z p); [|discriminate]. cbn [bind]. intros H'.
    assert (1 + 4 * Z.of_nat p = -1) by congruence. lia.
Qed.

Theorem compress_size orc fast swap g fld ni nj nk nbits len fld' :
  words32 fld -> armn_compress orc fast swap g fld ni nj nk nbits = Some (len, fld') -> len <> -1 ->
  0 < len < 2 * Z.of_nat (ni * nj * nk) /\ len <= 4 * Z.of_nat (length fld) /\ length fld' = length fld.
Proof.
  intros F. unfold armn_compress. destruct (_ || _ || _)%bool.
  { intros H. injection H as <- <-. lia. }
  destruct (_ <=? _); [discriminate|]. cbv zeta.
  set (limite := ((1 + ni * nj) / 2)%nat).
  destruct (if swap then swap_loop limite fld else Some fld) as [f1|] eqn:E1; [|discriminate]. cbn [bind].
  assert (X : words32 f1 /\ length f1 = length fld).
  { destruct swap; [destruct (swap_loop_invol _ _ _ F E1) as (_ & A & B); auto|injection E1 as <-; auto]. }
  destruct X as [F1 L1].
  match goal with |- context [bind ?x _] => destruct x as [[z p]|] end; [|discriminate]. cbn [bind].
  destruct (Z.leb_spec (1 + 2 * Z.of_nat (ni * nj * nk)) (1 + 4 * Z.of_nat p)).
  - destruct (if swap then swap_loop limite f1 else Some f1); [|discriminate]. cbn [bind].
    intros H'. injection H' as <- _. lia.
  - destruct (copy_bytes f1 z p) as [f2|] eqn:E2; [|discriminate]. cbn [bind]. intros H'.
    assert (len = 1 + 4 * Z.of_nat p) by congruence. assert (fld' = f2) by congruence. subst fld'.
    destruct (copy_bytes_spec _ _ _ _ E2 F1) as (A & _ & B & _). intros _. lia.
Qed.

(** ** C10, C11 *)
Lemma uncompress_from orc swap u g16 gt mem ni nj nk nbits :
  (2 <= ni)%nat -> (2 <= nj)%nat -> (nbits <= 16)%nat ->
  length g16 = (2 * (ni * nj))%nat -> words16 g16 -> words32 mem -> (1 + ni * nj / 2 <= length mem)%nat ->
  (forall k, (k < ni * nj)%nat -> 0 <= el u k < 2 ^ 16) ->
  (exists arr', fstunzip orc g16 gt mem ni nj = Some arr' /\ length arr' = length g16 /\
     (forall k, (k < ni * nj)%nat -> nth_error arr' k = Some (el u k)) /\
     (forall k, (ni * nj <= k)%nat -> nth_error arr' k = nth_error g16 k)) ->
  exists mem', armn_uncompress orc swap g16 gt mem ni nj nk nbits = Some (Z.of_nat (ni * nj) * 2, mem') /\
    length mem' = length mem /\ words32 mem' /\
    (forall k, (k < ni * nj)%nat -> tok16 swap mem' k = el u k) /\
    (forall i, (1 + ni * nj / 2 <= i)%nat -> nth_error mem' i = nth_error mem i).
Proof.
  intros Hi Hj Hnb Lg Fg Fm Lm Hu (arr' & E & L & In' & Out').
  assert (Hn : (4 <= ni * nj)%nat) by nia. set (n := (ni * nj)%nat) in *.
  unfold armn_uncompress. destruct (Nat.ltb_spec 16 nbits); [lia|].
  destruct (Nat.eqb_spec ni 1) as [|Ni1]; [lia|]. destruct (Nat.eqb_spec nj 1) as [|Nj1]; [lia|]. cbn [orb].
  rewrite E. cbn [bind]. cbv zeta. fold n. rewrite Lg in L.
  destruct (words_of_spec arr' n L) as [LW NW]. rewrite LW.
  set (m := (1 + n / 2)%nat) in *.
  assert (Hm2 : (n / 2 * 2 <= n < (n / 2 + 1) * 2)%nat).
  { pose proof (Nat.div_mod n 2 ltac:(lia)). pose proof (Nat.mod_upper_bound n 2 ltac:(lia)). lia. }
  assert (Hm : (m <= n)%nat) by lia.
  destruct (Nat.ltb_spec n m); [lia|]. destruct (Nat.ltb_spec (length mem) m); [lia|]. cbn [orb].
  set (f1 := firstn m (words_of arr') ++ skipn m mem).
  assert (Lf : length f1 = length mem).
  { unfold f1. rewrite app_length, firstn_length, skipn_length, LW. lia. }
  assert (A16 : forall k, (k < 2 * n)%nat -> 0 <= el arr' k < 2 ^ 16).
  { intros k Hk. destruct (Nat.lt_ge_cases k n).
    - rewrite (nth_error_el _ _ _ (In' k ltac:(auto))). auto.
    - specialize (Out' k ltac:(auto)). destruct (nth_error g16 k) as [v|] eqn:Ev.
      + rewrite (nth_error_el _ _ _ Out'). unfold words16 in Fg. rewrite Forall_forall in Fg. apply Fg. eapply nth_error_In; eauto.
      + apply nth_error_None in Ev. lia. }
  assert (FW : words32 (words_of arr')).
  { apply Forall_forall. intros w Hw. apply (In_nth _ _ 0) in Hw. destruct Hw as (i & Hil & <-). rewrite NW by lia.
    pose proof (A16 (2 * i)%nat ltac:(lia)). pose proof (A16 (2 * i + 1)%nat ltac:(lia)). lia. }
  assert (F1 : words32 f1).
  { apply Forall_app; split; [apply Forall_firstn; auto|apply Forall_skipn; auto]. }
  assert (T1 : forall k, (k < n)%nat -> tok16 false f1 k = el u k).
  { intros k Hk. rewrite <- (nth_error_el _ _ _ (In' k Hk)). unfold tok16.
    assert (Hk2 : (k / 2 < m)%nat) by (apply Nat.div_lt_upper_bound; lia).
    assert (Nf : nth (k / 2) f1 0 = nth (k / 2) (words_of arr') 0).
    { unfold f1. rewrite app_nth1 by (rewrite firstn_length; lia).
      rewrite <- (firstn_skipn m (words_of arr')) at 2. rewrite app_nth1 by (rewrite firstn_length; lia). reflexivity. }
    rewrite Nf, NW by lia.
    pose proof (A16 (2 * (k / 2))%nat ltac:(lia)) as B1. pose proof (A16 (2 * (k / 2) + 1)%nat ltac:(lia)) as B2.
    pose proof (Nat.div_mod k 2 ltac:(lia)) as DM.
    destruct (Nat.even k) eqn:Ek; cbn [Bool.eqb].
    - rewrite Z.mod_add, Z.mod_small by lia. f_equal. apply Nat.even_spec in Ek. destruct Ek as [q ->].
      rewrite (Nat.mul_comm 2 q), Nat.div_mul by lia. lia.
    - rewrite Z.div_add, Z.div_small by lia. rewrite Z.add_0_l. f_equal.
      assert (Ok : Nat.odd k = true) by (unfold Nat.odd; rewrite Ek; reflexivity).
      apply Nat.odd_spec in Ok. destruct Ok as [q ->].
      replace (2 * q + 1)%nat with (1 + q * 2)%nat by lia. rewrite Nat.div_add by lia. cbn. lia. }
  assert (O1 : forall i, (m <= i)%nat -> nth_error f1 i = nth_error mem i).
  { intros i Hi'. unfold f1. rewrite nth_error_app2 by (rewrite firstn_length; lia).
    rewrite <- (firstn_skipn m mem) at 2. rewrite nth_error_app2 by (rewrite firstn_length; lia).
    rewrite !firstn_length. f_equal. lia. }
  destruct swap.
  - set (limite := ((1 + n) / 2)%nat).
    assert (Hl : (limite <= m /\ n <= 2 * limite)%nat).
    { unfold limite. pose proof (Nat.div_mod (1 + n) 2 ltac:(lia)). pose proof (Nat.mod_upper_bound (1 + n) 2 ltac:(lia)).
      lia. }
    destruct (swap_loop limite f1) as [f2|] eqn:E2; [|rewrite swap_loop_spec in E2 by lia; discriminate].
    cbn [bind]. exists f2. split; auto. destruct (swap_loop_invol _ _ _ F1 E2) as (_ & L2 & W2). split; [lia|]. split; [exact W2|]. split.
    + intros k Hk. destruct (tok16_swap _ _ _ k F1 E2 ltac:(lia)) as [_ ->]. auto.
    + intros i Hi'. rewrite <- O1 by auto. rewrite swap_loop_spec in E2 by lia. injection E2 as <-.
      rewrite nth_error_app2 by (rewrite map_length, firstn_length; lia).
      rewrite <- (firstn_skipn limite f1) at 3. rewrite nth_error_app2 by (rewrite firstn_length; lia).
      rewrite map_length. reflexivity.
  - cbn [bind]. exists f1. split; auto.
Qed.

Theorem compress_lossless_words orc fast swap g fld ni nj nk nbits :
  (2 <= ni)%nat -> (2 <= nj)%nat -> (1 <= nk)%nat -> (1 <= nbits <= 16)%nat ->
  Z.of_nat (ni * nj * nk) * 16 < 2 ^ 31 ->
  words32 fld -> words32 g -> length g = (ni * nj * nk)%nat -> (1 + ni * nj * nk / 2 <= length fld)%nat ->
  (forall k, (k < ni * nj)%nat -> tok16 swap fld k < 2 ^ Z.of_nat nbits) ->
  exists len fld', armn_compress orc fast swap g fld ni nj nk nbits = Some (len, fld') /\
    length fld' = length fld /\ words32 fld' /\
    (len <> -1 -> exists p, len = 1 + 4 * Z.of_nat p /\
       forall orc' g16 gt mem, words32 mem -> (p < length mem)%nat -> firstn p mem = firstn p fld' ->
         (1 + ni * nj / 2 <= length mem)%nat ->
         words16 g16 -> length g16 = (2 * (ni * nj))%nat -> length gt = (ni * nj)%nat ->
         exists mem', armn_uncompress orc' swap g16 gt mem ni nj nk nbits = Some (Z.of_nat (ni * nj) * 2, mem') /\
           length mem' = length mem /\ words32 mem' /\
           (forall k, (k < ni * nj)%nat -> tok16 swap mem' k = tok16 swap fld k) /\
           (forall i, (1 + ni * nj / 2 <= i)%nat -> nth_error mem' i = nth_error mem i)).
Proof.
  intros Hi Hj Hk Hnb Hov Ff Fg Lg Lf HT. unfold armn_compress.
  assert (Hn : (4 <= ni * nj)%nat) by nia.
  assert (Hnn : (ni * nj <= ni * nj * nk)%nat) by nia.
  assert (Hlf : (1 + ni * nj / 2 <= length fld)%nat).
  { assert (ni * nj / 2 <= ni * nj * nk / 2)%nat by (apply Nat.div_le_mono; lia). lia. }
  destruct (Nat.ltb_spec 16 nbits); [lia|].
  destruct (Nat.eqb_spec ni 1) as [|Ni1]; [lia|]. destruct (Nat.eqb_spec nj 1) as [|Nj1]; [lia|]. cbn [orb].
  destruct (Z.leb_spec (2 ^ 31) (Z.of_nat (ni * nj * nk) * 16)); [lia|]. cbv zeta.
  set (n := (ni * nj)%nat) in *. set (limite := ((1 + n) / 2)%nat).
  assert (Hl : (limite <= 1 + n / 2 /\ n <= 2 * limite)%nat).
  { unfold limite. pose proof (Nat.div_mod (1 + n) 2 ltac:(lia)). pose proof (Nat.mod_upper_bound (1 + n) 2 ltac:(lia)).
    pose proof (Nat.div_mod n 2 ltac:(lia)). pose proof (Nat.mod_upper_bound n 2 ltac:(lia)). lia. }
  assert (X : exists f1, (if swap then swap_loop limite fld else Some fld) = Some f1 /\ words32 f1 /\
     length f1 = length fld /\ (forall k, (k < n)%nat -> el (halves f1) k = tok16 swap fld k)).
  { destruct swap.
    - destruct (swap_loop limite fld) as [f1|] eqn:E1; [|rewrite swap_loop_spec in E1 by lia; discriminate].
      exists f1. destruct (swap_loop_invol _ _ _ Ff E1) as (_ & A & B). repeat split; auto.
      intros k Hk'. rewrite halves_nth. apply (tok16_swap _ _ _ k Ff E1). lia.
    - exists fld. repeat split; auto. intros k Hk'. apply halves_nth. }
  destruct X as (f1 & E1 & F1 & L1 & T1). rewrite E1. cbn [bind].
  assert (U : forall k, (k < ni * nj)%nat -> 0 <= el (halves f1) k < 2 ^ Z.of_nat nbits).
  { intros k Hk'. split; [|rewrite T1 by auto; auto]. rewrite halves_nth. unfold tok16.
    destruct (half_bound (nth (k / 2) f1 0) (words32_nth _ _ F1)). destruct (Bool.eqb _ _); lia. }
  assert (P16 : 2 ^ Z.of_nat nbits <= 2 ^ 16) by (apply Z.pow_le_mono_r; lia).
  assert (LU : (ni * nj <= length (halves f1))%nat).
  { rewrite halves_length. pose proof (Nat.div_mod n 2 ltac:(lia)). pose proof (Nat.mod_upper_bound n 2 ltac:(lia)). fold n. lia. }
  assert (Gz : (ni * nj <= length g)%nat) by (fold n; lia).
  set (pk := if fast || (ni <? 16)%nat || (nj <? 16)%nat || (nbits <=? 4)%nat
     then fstzip_minimum orc g (halves f1) ni nj nbits else fstzip_parallelogram orc g (halves f1) ni nj nbits).
  assert (Y : exists z p, pk = Some (z, p) /\ length z = length g /\ words32 z /\
     forall orc' g16 gt mem, words32 mem -> (p < length mem)%nat -> firstn p mem = firstn p z ->
       (2 * n <= length g16)%nat -> (n <= length gt)%nat ->
       exists arr', fstunzip orc' g16 gt mem ni nj = Some arr' /\ length arr' = length g16 /\
         (forall k, (k < ni * nj)%nat -> nth_error arr' k = Some (el (halves f1) k)) /\
         (forall k, (ni * nj <= k)%nat -> nth_error arr' k = nth_error g16 k)).
  { unfold pk. destruct (fast || _ || _ || _)%bool eqn:EM.
    - destruct (hdr_fields MINIMUM 0 5 (Z.of_nat nbits)) as (Q0 & Q1 & Q2 & Q3); try (unfold MINIMUM; lia).
      unfold fstzip_minimum. rewrite Nat2Z.id in Q3. change (Z.to_nat 5) with 5%nat in Q2.
      destruct (min_roundtrip orc g (halves f1) ni nj nbits (zip_header MINIMUM 0 5 (Z.of_nat nbits) 1 0))
        as (z & p & E & Lz & Fz & R0 & Hp & D); auto.
      exists z, p. split; auto. split; auto. split; auto. intros orc' g16 gt mem Fm Hpm Hpre HG HT'.
      unfold fstunzip. assert (Rm : rd mem 0 = Some (zip_header MINIMUM 0 5 (Z.of_nat nbits) 1 0)).
      { rewrite <- R0. destruct p as [|p]; [lia|]. destruct mem as [|a mem]; [cbn in Hpm; lia|].
        destruct z as [|b z]; [cbn in Lz; lia|]. cbn in Hpre. injection Hpre as ->. reflexivity. }
      rewrite Rm. cbn [bind]. rewrite Q1, Q2, Q3. rewrite Z.eqb_refl.
      apply D; auto. fold n. lia.
    - destruct (hdr_fields PARALLELOGRAM 1 3 (Z.of_nat nbits)) as (Q0 & Q1 & Q2 & Q3); try (unfold PARALLELOGRAM; lia).
      unfold fstzip_parallelogram. rewrite Nat2Z.id in Q3. change (Z.to_nat 3) with 3%nat in Q2.
      assert (n5 : (5 <= ni * nj)%nat).
      { apply orb_false_iff in EM. destruct EM as [EM _]. apply orb_false_iff in EM. destruct EM as [EM M2].
        apply orb_false_iff in EM. destruct EM as [_ M1]. apply Nat.ltb_ge in M1, M2. nia. }
      destruct (para16_roundtrip orc g (halves f1) ni nj nbits (zip_header PARALLELOGRAM 1 3 (Z.of_nat nbits) 1 0))
        as (z & p & E & Lz & Fz & R0 & Hp & D); auto.
      exists z, p. split; auto. split; auto. split; auto. intros orc' g16 gt mem Fm Hpm Hpre HG HT'.
      unfold fstunzip. assert (Rm : rd mem 0 = Some (zip_header PARALLELOGRAM 1 3 (Z.of_nat nbits) 1 0)).
      { rewrite <- R0. destruct p as [|p]; [lia|]. destruct mem as [|a mem]; [cbn in Hpm; lia|].
        destruct z as [|b z]; [cbn in Lz; lia|]. cbn in Hpre. injection Hpre as ->. reflexivity. }
      rewrite Rm. cbn [bind]. rewrite Q1, Q2, Q3. change (PARALLELOGRAM =? MINIMUM) with false. rewrite Z.eqb_refl.
      cbv iota. apply D; auto. fold n. lia. }
  destruct Y as (z & p & E2 & Lz & Fz & D). rewrite E2. cbn [bind].
  destruct (Z.leb_spec (1 + 2 * Z.of_nat (n * nk)) (1 + 4 * Z.of_nat p)).
  - exists (-1), fld. split; [|split; [|split]; auto; intros C; elim C; reflexivity].
    destruct swap.
    + destruct (swap_loop_invol _ _ _ Ff E1) as (-> & _). reflexivity.
    + injection E1 as <-. reflexivity.
  - assert (Hp : (p < 1 + n * nk / 2)%nat).
    { pose proof (Nat.div_mod (n * nk) 2 ltac:(lia)). pose proof (Nat.mod_upper_bound (n * nk) 2 ltac:(lia)). lia. }
    destruct (copy_bytes f1 z p) as [f2|] eqn:E3.
    2:{ exfalso. unfold copy_bytes in E3. destruct (Nat.leb_spec p (length z)); [|lia].
        destruct (Nat.leb_spec p (length f1)); [|lia]. cbn [andb] in E3.
        destruct (rd_some f1 p) as [a Ea]; [lia|]. destruct (rd_some z p) as [b Eb]; [lia|].
        rewrite Ea, Eb in E3. discriminate. }
    cbn [bind]. destruct (copy_bytes_spec _ _ _ _ E3 F1) as (L3 & P3 & _ & _ & F3 & _).
    exists (1 + 4 * Z.of_nat p), f2. split; auto. split; [lia|]. split; auto.
    intros _. exists p. split; auto. intros orc' g16 gt mem Fm Hpm Hpre Hlm Fg16 Lg16 Lgt.
    destruct (uncompress_from orc' swap (halves f1) g16 gt mem ni nj nk nbits) as (mem' & E & L & W & T & O); auto; try lia.
    + intros k Hk'. specialize (U k Hk'). lia.
    + apply D; auto; try (fold n; lia). rewrite Hpre. exact P3.
    + exists mem'. split; auto. split; auto. split; auto. split; auto. intros k Hk'. rewrite T by auto. apply T1; auto.
Qed.
Theorem compress_lossless orc fast swap g fld ni nj nk nbits :
  (2 <= ni)%nat -> (2 <= nj)%nat -> (1 <= nk)%nat -> (1 <= nbits <= 16)%nat ->
  Z.of_nat (ni * nj * nk) * 16 < 2 ^ 31 ->
  words32 fld -> words32 g -> length g = (ni * nj * nk)%nat -> (1 + ni * nj * nk / 2 <= length fld)%nat ->
  (forall k, (k < ni * nj)%nat -> tok16 swap fld k < 2 ^ Z.of_nat nbits) ->
  exists len fld', armn_compress orc fast swap g fld ni nj nk nbits = Some (len, fld') /\
    length fld' = length fld /\ words32 fld' /\
    (len <> -1 -> exists p, len = 1 + 4 * Z.of_nat p /\
       forall orc' g16 gt mem, words32 mem -> (p < length mem)%nat -> firstn p mem = firstn p fld' ->
         (1 + ni * nj / 2 <= length mem)%nat ->
         words16 g16 -> length g16 = (2 * (ni * nj))%nat -> length gt = (ni * nj)%nat ->
         exists mem', armn_uncompress orc' swap g16 gt mem ni nj nk nbits = Some (Z.of_nat (ni * nj) * 2, mem') /\
           length mem' = length mem /\
           (forall k, (k < ni * nj)%nat -> tok16 swap mem' k = tok16 swap fld k) /\
           (forall i, (1 + ni * nj / 2 <= i)%nat -> nth_error mem' i = nth_error mem i)).
Proof.
  intros Hi Hj Hk Hnb Hov Ff Fg Lg Lf HT. destruct (compress_lossless_words orc fast swap g fld ni nj nk nbits Hi Hj Hk Hnb Hov Ff Fg Lg Lf HT) as (len & fld' & E & L & W & D).
  exists len, fld'. split; [exact E|]. split; [exact L|]. split; [exact W|]. intros N. destruct (D N) as (p & P & Q). exists p. split; [exact P|].
  intros orc' g16 gt mem A1 A2 A3 A4 A5 A6 A7. destruct (Q orc' g16 gt mem A1 A2 A3 A4 A5 A6 A7) as (mem' & B1 & B2 & _ & B3). exists mem'. auto.
Qed.
