(** Round trip of the compression of 32-bit fields. *)
From Coq Require Import ZArith List Lia Bool.
From Verif Require Import Bits BitIO BitIOFacts CompactInt CompactIntMain TileCodec ZfstLib StreamFacts TileFacts MinFacts
  ParaFacts ParaMain ZfstFacts Compress32 Rle1Facts.
Import ListNotations.
Open Scope Z_scope.
Open Scope opt_scope.

Lemma nth_error_ext' {A} (a b : list A) : (forall k, nth_error a k = nth_error b k) -> a = b.
Proof.
  revert b. induction a as [|x a IH]; intros [|y b] H; auto.
  - specialize (H 0%nat). discriminate.
  - specialize (H 0%nat). discriminate.
  - pose proof (H 0%nat) as H0. cbn in H0. injection H0 as ->. f_equal. apply IH. intros k. exact (H (S k)).
Qed.

Lemma nth_error_firstn' {A} (l : list A) n k : nth_error (firstn n l) k = if (k <? n)%nat then nth_error l k else None.
Proof.
  revert n k. induction l as [|a l IH]; intros [|n] [|k]; cbn [firstn nth_error]; auto.
  - destruct (S k <? S n)%nat; auto.
  - rewrite IH. reflexivity.
Qed.
Lemma nth_error_skipn' {A} (l : list A) n k : nth_error (skipn n l) k = nth_error l (n + k).
Proof. revert l. induction n as [|n IH]; intros [|a l]; cbn [skipn Nat.add nth_error]; auto. destruct k; auto. Qed.

Definition agree (lo hi : nat) (a b : list Z) : Prop := forall k, (lo <= k < hi)%nat -> nth_error a k = nth_error b k.

Lemma agree_sect p q a b : agree p q a b -> firstn (q - p) (skipn p a) = firstn (q - p) (skipn p b).
Proof.
  intros H. apply nth_error_ext'. intros k. rewrite !nth_error_firstn', !nth_error_skipn'.
  destruct (Nat.ltb_spec k (q - p)); auto. apply H. lia.
Qed.
Lemma agree_firstn q a b : firstn q a = firstn q b -> agree 0 q a b.
Proof.
  intros H k Hk. assert (X : nth_error (firstn q a) k = nth_error (firstn q b) k) by (rewrite H; auto).
  rewrite !nth_error_firstn' in X. destruct (Nat.ltb_spec k q); [auto|lia].
Qed.
Lemma agree_trans lo hi a b c : agree lo hi a b -> agree lo hi b c -> agree lo hi a c.
Proof. intros H1 H2 k Hk. rewrite H1 by auto. apply H2; auto. Qed.
Lemma agree_sub lo hi lo' hi' a b : agree lo hi a b -> (lo <= lo')%nat -> (hi' <= hi)%nat -> agree lo' hi' a b.
Proof. intros H ? ? k Hk. apply H. lia. Qed.
Lemma agree_wr lo hi a i v b : wr a i v = Some b -> (i < lo \/ hi <= i)%nat -> agree lo hi b a.
Proof. intros H Hi k Hk. apply (wr_other _ _ _ _ _ H). lia. Qed.
Lemma wr_inr32 a i v b : wr a i v = Some b -> Forall inr32 a -> inr32 v -> Forall inr32 b.
Proof.
  intros H F Hv. rewrite (wr_eq _ _ _ _ H). apply Forall_app. split; [apply Forall_firstn; auto|].
  constructor; auto. apply Forall_skipn; auto.
Qed.

(** ** One parallelogram stream inside a larger array *)
Section Stage.
Variables (pc : pcoder) (container W : nat) (M : Z) (ni nj nbits : nat) (u : list Z).
Hypothesis Hgood : pc_good pc container M W.
Hypothesis HW : (W <= 31)%nat.
Hypothesis Hcont : (1 <= container <= 5)%nat.
Hypothesis Hni : (2 <= ni)%nat.
Hypothesis Hnj : (2 <= nj)%nat.
Hypothesis Hnb : (1 <= nbits <= 31)%nat.
Hypothesis HnbW : (nbits <= 5 + W)%nat.
Hypothesis Hmod : 2 ^ Z.of_nat nbits <= pc_mod pc.
Hypothesis Hlen : (ni * nj <= length u)%nat.
Hypothesis Hval : forall k, (k < ni * nj)%nat -> 0 <= el u k < 2 ^ Z.of_nat nbits.
Hypothesis Hcast : forall k, (k < ni * nj)%nat -> inside ni k = true ->
  pc_cast pc (el u k - pred_of u ni k) = el u k - pred_of u ni k.
Hypothesis HM : forall k, (k < ni * nj)%nat -> Z.abs (dval pc ni u k) <= M.

Lemma stage_pack orc z p : Forall inr32 z -> (p < length z)%nat ->
  (32 * p + (5 + W) * (ni * nj) + 35 < 32 * (length z + 1))%nat ->
  exists z' q, pack_stream orc z p (ptokens pc container ni nj nbits u) = Some (z', q) /\ length z' = length z /\
    Forall inr32 z' /\ firstn p z' = firstn p z /\ (p <= q <= length z)%nat /\
    (32 * q <= 32 * p + (5 + W) * (ni * nj) + 35)%nat /\
    forall orc' mem arr tmp, Forall inr32 mem -> (q < length mem)%nat -> agree p q mem z' ->
      (ni * nj <= length arr)%nat -> (ni * nj <= length tmp)%nat ->
      exists arr', unpackTokensParallelogram orc' pc arr tmp mem p ni nj nbits 3 = Some arr' /\
        length arr' = length arr /\
        (forall k, (k < ni * nj)%nat -> nth_error arr' k = Some (el u k)) /\
        (forall k, (ni * nj <= k)%nat -> nth_error arr' k = nth_error arr k).
Proof.
  intros F Hp Hroom.
  destruct (ptokens_ok pc container W M ni nj nbits u) as [TO TS]; auto; try lia.
  set (toks := ptokens pc container ni nj nbits u) in *.
  destruct (pack_stream_spec orc z p toks) as (z' & q & E & L & F' & Hq & Hfst & Hl & Hsl); auto.
  { assert ((32 * p + toklen toks + 32) / 32 < length z + 1)%nat; [|lia].
    apply Nat.div_lt_upper_bound; [lia|]. generalize dependent ((5 + W) * (ni * nj))%nat. intros. lia. }
  exists z', q. split; auto. split; auto. split; auto. split; auto. split; [lia|].
  split; [generalize dependent ((5 + W) * (ni * nj))%nat; intros; lia|].
  intros orc' mem arr tmp Fm Hql Hag Ha Ht.
  apply (para_decode pc container W M); auto; try lia.
  - fold toks. lia.
  - fold toks. rewrite <- Hsl. apply slice_words_eq with (q := q); [lia|]. apply agree_sect; auto.
Qed.
End Stage.

(** ** Exponents *)
Lemma nb8_bitlen mx : 0 <= mx < 2 ^ 16 -> nb8 mx = bitlen mx.
Proof.
  intros H. unfold nb8, fastlog. destruct (Z.eqb_spec mx 0) as [->|]; [reflexivity|].
  destruct (Z.ltb_spec mx 256); [reflexivity|]. apply bitlen_shift8. lia.
Qed.

Lemma bitlen_good (f : Z -> nat) pc container M W :
  (forall mx, 0 <= mx <= M -> pc_nb pc mx = bitlen mx) -> (forall nb, pc_w pc nb = Z.to_nat (nb + 1)) ->
  M < 2 ^ (Z.of_nat W - 1) -> (1 <= W)%nat -> Z.of_nat W <= 2 ^ Z.of_nat container ->
  pc_good pc container M W.
Proof.
  intros Hf Hw HM HW Hc mx Hmx. rewrite Hf by auto.
  pose proof (bitlen_spec mx ltac:(lia)) as B.
  assert (BL : (bitlen mx <= W - 1)%nat).
  { apply bitlen_le. replace (Z.of_nat (W - 1)) with (Z.of_nat W - 1) by lia. lia. }
  split; [lia|]. split; [intros X; apply bitlen_zero in X; lia|]. intros X. rewrite Hw.
  replace (Z.to_nat (Z.of_nat (bitlen mx) + 1)) with (S (bitlen mx)) by lia. split; [lia|].
  replace (S (bitlen mx) - 1)%nat with (bitlen mx) by lia. exact B.
Qed.

Lemma pc8_good : pc_good pc8 4 510 10.
Proof.
  apply (bitlen_good nb8); try reflexivity; try (cbn; lia).
  intros mx H. cbn [pc_nb pc8]. apply nb8_bitlen. lia.
Qed.
Lemma pc32_good : pc_good pc32 5 (2 ^ 24 - 2) 25.
Proof. apply (bitlen_good bitlen); try reflexivity; try (cbn; lia). Qed.

Lemma dval_bound pc (u : list Z) ni nj nbits k : (forall v, Z.abs v < 2 ^ 31 -> pc_cast pc v = v) -> (nbits <= 24)%nat ->
  (forall k, (k < ni * nj)%nat -> 0 <= el u k < 2 ^ Z.of_nat nbits) -> (k < ni * nj)%nat ->
  pc_cast pc (el u k - pred_of u ni k) = el u k - pred_of u ni k /\
  Z.abs (dval pc ni u k) <= 2 * (2 ^ Z.of_nat nbits - 1).
Proof.
  intros Hc Hn HV Hk.
  assert (B : Z.abs (el u k - pred_of u ni k) <= 2 * (2 ^ Z.of_nat nbits - 1)).
  { apply pred_bound. intros x Hx. specialize (HV x ltac:(lia)). lia. }
  assert (P : 2 ^ Z.of_nat nbits <= 2 ^ 24) by (apply Z.pow_le_mono_r; lia).
  assert (C : pc_cast pc (el u k - pred_of u ni k) = el u k - pred_of u ni k) by (apply Hc; lia).
  split; auto. unfold dval. destruct (inside ni k); [|change (Z.abs 0) with 0; pose proof (pow2_pos nbits); lia].
  rewrite C. auto.
Qed.

Lemma stage8 orc z p u ni nj nbits : Forall inr32 z -> (p < length z)%nat ->
  (2 <= ni)%nat -> (2 <= nj)%nat -> (1 <= nbits <= 8)%nat -> (ni * nj <= length u)%nat ->
  (forall k, (k < ni * nj)%nat -> 0 <= el u k < 2 ^ Z.of_nat nbits) ->
  (32 * p + 15 * (ni * nj) + 35 < 32 * (length z + 1))%nat ->
  exists z' q, packTokensParallelogram_8 orc z p u ni nj nbits 3 = Some (z', q) /\ length z' = length z /\
    Forall inr32 z' /\ firstn p z' = firstn p z /\ (p <= q <= length z)%nat /\
    (32 * q <= 32 * p + 15 * (ni * nj) + 35)%nat /\
    forall orc' mem arr tmp, Forall inr32 mem -> (q < length mem)%nat -> agree p q mem z' ->
      (ni * nj <= length arr)%nat -> (ni * nj <= length tmp)%nat ->
      exists arr', unpackTokensParallelogram orc' pc8 arr tmp mem p ni nj nbits 3 = Some arr' /\
        length arr' = length arr /\
        (forall k, (k < ni * nj)%nat -> nth_error arr' k = Some (el u k)) /\
        (forall k, (ni * nj <= k)%nat -> nth_error arr' k = nth_error arr k).
Proof.
  intros F Hp Hi Hj Hnb Hu HV Hroom. unfold packTokensParallelogram_8.
  rewrite diffs_spec by auto. cbn [bind]. change (map (dval pc8 ni u) (seq 0 (ni * nj))) with (dlist pc8 ni nj u).
  assert (P8 : 2 ^ Z.of_nat nbits <= 2 ^ 8) by (apply Z.pow_le_mono_r; lia).
  assert (HD : forall k, (k < ni * nj)%nat -> Z.abs (dval pc8 ni u k) <= 510).
  { intros k Hk. destruct (dval_bound pc8 u ni nj nbits k) as [_ X]; auto; lia. }
  rewrite (para_stream_spec pc8 4 10) by (auto; try lia; try exact pc8_good; reflexivity). cbn [bind].
  apply (stage_pack pc8 4 10 510); auto; try lia. apply pc8_good.
Qed.

Lemma stuffs_app orc a b s : stuffs orc (a ++ b) s = bind (stuffs orc a s) (stuffs orc b).
Proof.
  revert s. induction a as [|[t n] a IH]; intros s; [reflexivity|]. cbn [app stuffs].
  destruct (stuff orc t n s); cbn [bind]; auto.
Qed.

Lemma stuff_tiles_spec orc d nbits p rem rest ts s s' :
  (forall ks k, In ks ts -> In k ks -> (k < length d)%nat) ->
  stuffs orc (flat_map (ptoks pc32 5 d) ts ++ rest) s = Some s' ->
  stuff_tiles32 orc d nbits p rem ts s = Some None \/
  exists s1, stuff_tiles32 orc d nbits p rem ts s = Some (Some s1) /\ stuffs orc rest s1 = Some s'.
Proof.
  revert s. induction ts as [|ks r IH]; intros s HB H.
  - right. exists s. split; auto.
  - cbn [flat_map] in H. rewrite <- app_assoc, stuffs_app in H. cbn [stuff_tiles32].
    rewrite gets_spec by (intros k Hk; apply (HB ks); [left|]; auto). cbn [bind].
    change (para_tile_tokens pc32 5 (map (el d) ks)) with (ptoks pc32 5 d ks) in *.
    destruct (stuffs orc (ptoks pc32 5 d ks) s) as [s1|] eqn:E; [|discriminate]. cbn [bind] in *.
    match goal with |- context [if ?c then _ else _] => destruct c end; [left; auto|].
    apply IH; auto. intros ks' k H1 H2. apply (HB ks'); auto. right; auto.
Qed.

Lemma s32_small v : Z.abs v < 2 ^ 31 -> s32 (v mod 2 ^ 32) = v.
Proof.
  intros H. unfold s32. destruct (Z.ltb_spec v 0).
  - rewrite <- (Z.mod_add v 1) by lia. rewrite Z.mod_small by lia. destruct (Z.ltb_spec (v + 1 * 2 ^ 32) (2 ^ 31)); lia.
  - rewrite Z.mod_small by lia. destruct (Z.ltb_spec v (2 ^ 31)); lia.
Qed.

Lemma stage32 orc z p u ni nj nbits rem : Forall inr32 z -> (p < length z)%nat ->
  (2 <= ni)%nat -> (2 <= nj)%nat -> (1 <= nbits <= 23)%nat -> (ni * nj <= length u)%nat ->
  (forall k, (k < ni * nj)%nat -> 0 <= el u k < 2 ^ Z.of_nat nbits) ->
  (32 * p + 30 * (ni * nj) + 35 < 32 * (length z + 1))%nat ->
  packTokensParallelogram32 orc z p u ni nj 3 nbits rem = Some None \/
  exists z' q, packTokensParallelogram32 orc z p u ni nj 3 nbits rem = Some (Some (z', q)) /\ length z' = length z /\
    Forall inr32 z' /\ firstn p z' = firstn p z /\ (p <= q <= length z)%nat /\
    (32 * q <= 32 * p + 30 * (ni * nj) + 35)%nat /\
    forall orc' mem arr tmp, Forall inr32 mem -> (q < length mem)%nat -> agree p q mem z' ->
      (ni * nj <= length arr)%nat -> (ni * nj <= length tmp)%nat ->
      exists arr', unpackTokensParallelogram orc' pc32 arr tmp mem p ni nj nbits 3 = Some arr' /\
        length arr' = length arr /\
        (forall k, (k < ni * nj)%nat -> nth_error arr' k = Some (el u k)) /\
        (forall k, (ni * nj <= k)%nat -> nth_error arr' k = nth_error arr k).
Proof.
  intros F Hp Hi Hj Hnb Hu HV Hroom. unfold packTokensParallelogram32.
  rewrite diffs_spec by auto. cbn [bind]. change (map (dval pc32 ni u) (seq 0 (ni * nj))) with (dlist pc32 ni nj u).
  assert (P8 : 2 ^ Z.of_nat nbits <= 2 ^ 23) by (apply Z.pow_le_mono_r; lia).
  assert (HD : forall k, (k < ni * nj)%nat -> pc_cast pc32 (el u k - pred_of u ni k) = el u k - pred_of u ni k /\
     Z.abs (dval pc32 ni u k) <= 2 ^ 24 - 2).
  { intros k Hk. destruct (dval_bound pc32 u ni nj nbits k) as [X Y]; auto; try lia. intros v. apply s32_small. }
  destruct (stage_pack pc32 5 25 (2 ^ 24 - 2) ni nj nbits u) with (orc := orc) (z := z) (p := p)
    as (z' & q & E & R); auto; try lia.
  { apply pc32_good. }
  { cbn [pc_mod pc32]. lia. }
  { intros k Hk _. apply HD; auto. }
  { intros k Hk. apply HD; auto. }
  unfold pack_stream in E. destruct (wr z p 0) as [z1|]; [|discriminate]. cbn [bind] in *.
  rewrite gets_spec by (intros k Hk; apply border_in in Hk; lia). cbn [bind].
  unfold ptokens in E.
  change (?a :: (?b ++ ?c)) with ((a :: b) ++ c) in E. rewrite <- app_assoc, stuffs_app in E.
  change (Z.of_nat 5) with 5 in E.
  match goal with |- context [stuffs orc ?l ?s] => destruct (stuffs orc l s) as [s1|]; [|discriminate] end.
  cbn [bind] in *.
  match type of E with bind (stuffs orc ?l s1) _ = _ => destruct (stuffs orc l s1) as [s2|] eqn:E2; [|discriminate] end.
  cbn [bind] in E.
  destruct (stuff_tiles_spec orc (dlist pc32 ni nj u) nbits p rem [(0, 16%nat); (0, 16%nat)] (tiles 2 3 ni nj) s1 s2)
    as [X|(s3 & X & Y)]; auto.
  { intros ks k H1 H2. rewrite dlist_length. apply (tiles2_bound 5 25 ni nj nbits u) with (ks := ks); auto; lia. }
  - left. rewrite X. reflexivity.
  - right. exists z', q. rewrite X. cbn [bind]. rewrite Y. cbn [bind]. split; [|exact R]. congruence.
Qed.

(** ** Signs *)
Lemma fold_lor_bit ws a b : 0 <= b -> Z.testbit (fold_left Z.lor ws a) b = Z.testbit a b || existsb (fun w => Z.testbit w b) ws.
Proof.
  intros Hb. revert a. induction ws as [|w ws IH]; intros a; cbn [fold_left existsb]; [rewrite orb_false_r; auto|].
  rewrite IH, Z.lor_spec. rewrite orb_assoc. reflexivity.
Qed.
Lemma fold_land_bit ws a b : 0 <= b -> Z.testbit (fold_left Z.land ws a) b = Z.testbit a b && forallb (fun w => Z.testbit w b) ws.
Proof.
  intros Hb. revert a. induction ws as [|w ws IH]; intros a; cbn [fold_left forallb]; [rewrite andb_true_r; auto|].
  rewrite IH, Z.land_spec. rewrite andb_assoc. reflexivity.
Qed.

Lemma lor_inr32 a b : inr32 a -> inr32 b -> inr32 (Z.lor a b).
Proof.
  unfold inr32. intros Ha Hb. split; [apply Z.lor_nonneg; lia|].
  destruct (Z.eq_dec (Z.lor a b) 0) as [->|N]; [lia|].
  assert (0 <= Z.lor a b) by (apply Z.lor_nonneg; lia).
  apply Z.log2_lt_pow2; [lia|]. rewrite Z.log2_lor by lia.
  apply Z.max_lub_lt.
  - destruct (Z.eq_dec a 0) as [->|]; [cbn; lia|]. apply Z.log2_lt_pow2; lia.
  - destruct (Z.eq_dec b 0) as [->|]; [cbn; lia|]. apply Z.log2_lt_pow2; lia.
Qed.
Lemma land_inr32 a b : inr32 a -> inr32 b -> inr32 (Z.land a b).
Proof.
  unfold inr32. intros Ha Hb. assert (0 <= Z.land a b) by (apply Z.land_nonneg; lia).
  split; [lia|]. apply Z.le_lt_trans with a; [|lia].
  replace a with (Z.lor (Z.land a b) (Z.ldiff a b)) at 2.
  - apply Z.ldiff_le; [apply Z.lor_nonneg; split; [lia|apply Z.ldiff_nonneg; lia]|].
    apply Z.bits_inj'. intros i Hi. rewrite Z.ldiff_spec, Z.lor_spec, Z.ldiff_spec, Z.land_spec, Z.bits_0.
    destruct (Z.testbit a i), (Z.testbit b i); auto.
  - apply Z.bits_inj'. intros i Hi. rewrite Z.lor_spec, Z.ldiff_spec, Z.land_spec.
    destruct (Z.testbit a i), (Z.testbit b i); auto.
Qed.

Lemma shiftr31 w : inr32 w -> Z.shiftr w 31 = Z.b2z (Z.testbit w 31).
Proof.
  unfold inr32. intros H. rewrite Z.shiftr_div_pow2 by lia. rewrite Z.testbit_spec' by lia.
  symmetry. apply Z.mod_small. split; [apply Z.div_pos; lia|]. apply Z.div_lt_upper_bound; lia.
Qed.

Lemma f_sign_bound w : inr32 w -> 0 <= f_sign w < 2.
Proof. intros H. unfold f_sign. rewrite shiftr31 by auto. destruct (Z.testbit w 31); cbn; lia. Qed.

Lemma fold_inr32 (f : Z -> Z -> Z) ws a : (forall x y, inr32 x -> inr32 y -> inr32 (f x y)) -> Forall inr32 ws -> inr32 a ->
  inr32 (fold_left f ws a).
Proof. intros Hf F. revert a. induction F as [|w ws Hw F IH]; intros a Ha; cbn [fold_left]; auto. Qed.

Lemma same_signs ws : Forall inr32 ws -> ws <> [] ->
  Z.shiftr (fold_left Z.lor ws 0) 31 = Z.shiftr (fold_left Z.land ws 0xFFFFFFFF) 31 ->
  forall w, In w ws -> f_sign w = Z.shiftr (fold_left Z.lor ws 0) 31.
Proof.
  intros F NE H w Hw.
  assert (O32 : inr32 (fold_left Z.lor ws 0)) by (apply fold_inr32; auto using lor_inr32; unfold inr32; lia).
  assert (A32 : inr32 (fold_left Z.land ws 0xFFFFFFFF)) by (apply fold_inr32; auto using land_inr32; unfold inr32; lia).
  rewrite (shiftr31 _ A32) in H. rewrite (shiftr31 _ O32) in *. unfold f_sign.
  rewrite shiftr31 by (rewrite Forall_forall in F; auto). f_equal. apply Z.b2z_inj in H.
  rewrite fold_lor_bit, fold_land_bit in H by lia. rewrite fold_lor_bit by lia.
  change (Z.testbit 0 31) with false in *. change (Z.testbit 0xFFFFFFFF 31) with true in H. cbn [orb andb] in *.
  destruct (existsb (fun w => Z.testbit w 31) ws) eqn:E.
  - symmetry in H. rewrite forallb_forall in H. apply H; auto.
  - destruct (Z.testbit w 31) eqn:B; auto.
    assert (existsb (fun w => Z.testbit w 31) ws = true) by (apply existsb_exists; exists w; auto). congruence.
Qed.

Lemma round4_word k : round4 (1 + 4 * Z.of_nat k) = 4 * Z.of_nat (S k).
Proof.
  unfold round4. replace ((1 + 4 * Z.of_nat k) mod 4) with 1.
  - change (1 =? 0) with false. cbv iota. lia.
  - rewrite (Z.mul_comm 4), Z.mod_add by lia. reflexivity.
Qed.

Definition same_code (code : Z) (sg : nat -> Z) (n : nat) : Prop :=
  (code = MEME_SIGNE_POSITIF /\ forall k, (k < n)%nat -> sg k = 0) \/
  (code = MEME_SIGNE_NEGATIF /\ forall k, (k < n)%nat -> sg k = 1) \/ code = DIFF_SIGNE_PACKED.

Lemma fill_all v n (arr : list Z) : (n <= length arr)%nat -> exists a, fill_tile v (seq 0 n) arr = Some a /\ length a = length arr /\
  forall k, (k < n)%nat -> nth_error a k = Some v.
Proof.
  intros H. destruct (fill_tile_spec v (seq 0 n) arr (fun _ => v)) as (a & E & UL & UI & UO); auto.
  { intros k Hk. apply in_seq in Hk. split; [lia|auto]. }
  exists a. split; auto. split; auto. intros k Hk. apply UI. apply in_seq. lia.
Qed.

Lemma signs_stage orc z ws gs npts : length ws = npts -> (0 < length gs)%nat -> (256 <= npts)%nat -> Forall inr32 ws -> Forall inr32 z ->
  (npts <= length z)%nat -> Z.of_nat npts < 2 ^ 31 ->
  exists z1 p1 code lng, compress32_signs orc z (map f_sign ws ++ gs) (fold_left Z.lor ws 0) (fold_left Z.land ws 0xFFFFFFFF) npts
      = Some (z1, p1, code, lng) /\
    length z1 = length z /\ Forall inr32 z1 /\ (2 <= p1)%nat /\ (32 * p1 <= 8 * (npts + 6) / 7 + 160)%nat /\ inr32 lng /\
    same_code code (fun k => f_sign (el ws k)) npts /\
    forall orc' gs' mem, Forall inr32 mem -> (p1 <= length mem)%nat -> agree 2 p1 mem z1 -> (npts <= length gs')%nat ->
      exists sg, uncompress32_signs orc' gs' mem code npts = Some (sg, p1) /\
        forall k, (k < npts)%nat -> nth_error sg k = Some (f_sign (el ws k)).
Proof.
  intros Hn Hgs Hnp Fw F Hz Hbig. unfold compress32_signs.
  assert (Wk : forall k, (k < npts)%nat -> In (el ws k) ws) by (intros k Hk; apply nth_In; lia).
  assert (Dv : (8 * (npts + 6) / 7 <= 2 * npts)%nat).
  { assert (8 * (npts + 6) / 7 < 2 * npts + 1)%nat; [|lia]. apply Nat.div_lt_upper_bound; lia. }
  destruct (Z.eqb_spec (Z.shiftr (fold_left Z.lor ws 0) 31) (Z.shiftr (fold_left Z.land ws 0xFFFFFFFF) 31)) as [E|E].
  - assert (NE : ws <> []) by (intros ->; cbn in Hn; lia).
    pose proof (same_signs ws Fw NE E) as S. set (s := Z.shiftr (fold_left Z.lor ws 0) 31) in *.
    assert (Hs : s = 0 \/ s = 1).
    { pose proof (S _ (Wk 0%nat ltac:(lia))). pose proof (f_sign_bound (el ws 0)).
      assert (inr32 (el ws 0)) by (rewrite Forall_forall in Fw; apply Fw, Wk; lia). specialize (H0 H1). lia. }
    do 4 eexists. split; [reflexivity|]. split; auto. split; auto. split; [lia|]. split; [lia|].
    split; [unfold inr32; lia|]. split.
    { destruct (Z.eqb_spec s 1); [right; left|left]; (split; [reflexivity|]); intros k Hk; rewrite S by auto; lia. }
    intros orc' gs' mem Fm Lm A Hg. unfold uncompress32_signs.
    set (code := if s =? 1 then MEME_SIGNE_NEGATIF else MEME_SIGNE_POSITIF).
    assert (C1 : (code =? DIFF_SIGNE_PACKED) || (code =? DIFF_SIGNE_STREAM) = false) by (unfold code; destruct (s =? 1); reflexivity).
    rewrite C1. destruct (fill_all (if code =? MEME_SIGNE_POSITIF then 0 else 1) npts gs' Hg) as (a & Ea & La & Ia).
    rewrite Ea. cbn [bind]. exists a. split; auto. intros k Hk. rewrite Ia by auto. f_equal. rewrite S by auto.
    unfold code. destruct Hs as [-> | ->]; reflexivity.
  - set (signe := map f_sign ws ++ gs).
    assert (Es : forall k, (k < npts)%nat -> el signe k = f_sign (el ws k)).
    { intros k Hk. unfold el, signe. rewrite app_nth1 by (rewrite map_length; lia).
      change 0 with (f_sign 0) at 1. rewrite map_nth. reflexivity. }
    destruct (rle1_roundtrip orc signe npts z 3) as (za & q & E3 & La & Fa & Pa & Qa & Ra & Da); auto.
    { unfold signe. rewrite app_length, map_length. lia. }
    { intros k Hk. rewrite Es by auto. apply f_sign_bound. rewrite Forall_forall in Fw; auto. }
    { lia. }
    { assert ((32 * 3 + 8 * (npts + 6) / 7 + 32) / 32 < length z + 1)%nat; [|lia].
      apply Nat.div_lt_upper_bound; lia. }
    rewrite E3. cbn [bind]. cbv zeta.
    assert (Q4 : (4 * (q - 3) + 1 <= npts / 4)%nat).
    { assert (8 * (npts + 6) / 7 < npts + npts / 4 + 20)%nat.
      { apply Nat.div_lt_upper_bound; [lia|]. pose proof (Nat.div_mod npts 4 ltac:(lia)). pose proof (Nat.mod_upper_bound npts 4 ltac:(lia)). lia. }
      assert (64 <= npts / 4)%nat by (apply Nat.div_le_lower_bound; lia).
      pose proof (Nat.div_mod npts 4 ltac:(lia)). pose proof (Nat.mod_upper_bound npts 4 ltac:(lia)). lia. }
    destruct (Z.ltb_spec (Z.of_nat npts / 4) (1 + 4 * Z.of_nat (q - 3))) as [X|_].
    { exfalso. change 4 with (Z.of_nat 4) in X. rewrite <- (Nat2Z.inj_div npts 4) in X. lia. }
    cbn [bind]. rewrite round4_word.
    assert (R4 : (3 + Z.to_nat (4 * Z.of_nat (S (q - 3)) / 4) = S q)%nat).
    { rewrite (Z.mul_comm 4), Z.div_mul by lia. lia. }
    rewrite R4.
    destruct (wr_some za 2 (4 * Z.of_nat (S (q - 3)))) as [zc Ec]; [lia|]. rewrite Ec. cbn [bind].
    assert (Lg : inr32 (4 * Z.of_nat (S (q - 3)))).
    { unfold inr32. lia. }
    do 4 eexists. split; [reflexivity|]. split; [rewrite (wr_length _ _ _ _ Ec); auto|].
    split; [apply (wr_inr32 _ _ _ _ Ec); auto|]. split; [lia|]. split; [lia|]. split; auto.
    split; [right; right; reflexivity|].
    intros orc' gs' mem Fm Lm A Hg. unfold uncompress32_signs.
    change ((DIFF_SIGNE_PACKED =? DIFF_SIGNE_PACKED) || (DIFF_SIGNE_PACKED =? DIFF_SIGNE_STREAM)) with true. cbv iota.
    unfold rd. rewrite (A 2%nat) by lia. rewrite (wr_same _ _ _ _ Ec). cbn [bind].
    destruct (Da orc' mem gs') as (sg & Eg & Lsg & Ig & _); auto.
    { apply agree_sect. apply agree_trans with zc; [apply (agree_sub 2 (S q)); auto; lia|].
      apply (agree_wr _ _ _ _ _ _ Ec). lia. }
    rewrite Eg. cbn [bind]. exists sg. split.
    + f_equal. f_equal. rewrite Z.shiftr_div_pow2 by lia. change (2 ^ 2) with 4. exact R4.
    + intros k Hk. rewrite Ig by auto. rewrite Es by auto. reflexivity.
Qed.
