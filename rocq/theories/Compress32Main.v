(** Round trip of the compression of 32-bit fields, continued. *)
From Coq Require Import ZArith List Lia Bool.
From Verif Require Import Bits BitIO BitIOFacts CompactInt CompactIntMain TileCodec ZfstLib StreamFacts TileFacts MinFacts
  ParaFacts ParaMain ZfstFacts Compress32 Rle1Facts Compress32Facts.
Import ListNotations.
Open Scope Z_scope.
Open Scope opt_scope.

(** ** Parts of a float *)
Lemma f_exp_bound w : 0 <= f_exp w < 2 ^ 8.
Proof.
  unfold f_exp. change 0xff with (Z.ones 8). rewrite Z.land_ones by lia. apply Z.mod_pos_bound. lia.
Qed.

Lemma f_mant_eq nb w : (1 <= nb <= 23)%nat -> f_mant nb w = (w mod 2 ^ 23) / 2 ^ Z.of_nat (23 - nb).
Proof.
  intros H. unfold f_mant. change 0x07fffff with (Z.ones 23). rewrite Z.land_ones by lia.
  destruct (Nat.ltb_spec nb 23).
  - apply Z.shiftr_div_pow2. lia.
  - replace (23 - nb)%nat with 0%nat by lia. change (2 ^ Z.of_nat 0) with 1. rewrite Z.div_1_r. reflexivity.
Qed.

Lemma f_mant_bound nb w : (1 <= nb <= 23)%nat -> 0 <= f_mant nb w < 2 ^ Z.of_nat nb.
Proof.
  intros H. rewrite f_mant_eq by auto. pose proof (Z.mod_pos_bound w (2 ^ 23) ltac:(lia)).
  assert (2 ^ 23 = 2 ^ Z.of_nat nb * 2 ^ Z.of_nat (23 - nb)) as E.
  { rewrite <- Z.pow_add_r by lia. f_equal. lia. }
  split; [apply Z.div_pos; [lia|apply pow2_pos]|]. apply Z.div_lt_upper_bound; [apply pow2_pos|]. rewrite Z.mul_comm, <- E. lia.
Qed.

Lemma small_testbit b i n : 0 <= b < 2 ^ n -> 0 <= n <= i -> Z.testbit b i = false.
Proof.
  intros Hb Hi. destruct (Z.eq_dec b 0) as [->|]; [apply Z.testbit_0_l|].
  apply Z.bits_above_log2; [lia|]. assert (Z.log2 b < n) by (apply Z.log2_lt_pow2; lia). lia.
Qed.

Lemma lor_disjoint a b n : 0 <= n -> 0 <= b < 2 ^ n -> Z.lor (a * 2 ^ n) b = a * 2 ^ n + b.
Proof.
  intros Hn Hb. rewrite <- Z.shiftl_mul_pow2 by lia.
  assert (E : Z.land (Z.shiftl a n) b = 0).
  { apply Z.bits_inj'; intros i Hi. rewrite Z.land_spec, Z.bits_0, Z.shiftl_spec by lia.
    destruct (Z.ltb_spec i n); [rewrite Z.testbit_neg_r by lia; reflexivity|].
    rewrite (small_testbit b i n) by lia. apply andb_false_r. }
  rewrite Z.add_nocarry_lxor by auto. rewrite Z.lxor_lor by auto. reflexivity.
Qed.

Lemma join_spec code w nb : inr32 w -> (1 <= nb <= 23)%nat ->
  (code = MEME_SIGNE_POSITIF /\ f_sign w = 0 \/ code = MEME_SIGNE_NEGATIF /\ f_sign w = 1 \/ code = DIFF_SIGNE_PACKED) ->
  join_float code (f_sign w) (f_exp w) (f_mant nb w) nb = w - w mod 2 ^ Z.of_nat (23 - nb).
Proof.
  intros Hw Hnb Hc. unfold inr32 in Hw.
  set (k := Z.of_nat (23 - nb)). assert (Hk : 0 <= k <= 22) by (unfold k; lia).
  assert (Pk : 0 < 2 ^ k) by (apply Z.pow_pos_nonneg; lia).
  assert (E1 : f_sign w = w / 2 ^ 31) by (unfold f_sign; apply Z.shiftr_div_pow2; lia).
  assert (E2 : f_exp w = (w / 2 ^ 23) mod 2 ^ 8).
  { unfold f_exp. change 0xff with (Z.ones 8). rewrite Z.land_ones, Z.shiftr_div_pow2 by lia. reflexivity. }
  assert (E3 : f_mant nb w = (w mod 2 ^ 23) / 2 ^ k) by (apply f_mant_eq; auto).
  assert (D : w = (w / 2 ^ 31) * 2 ^ 31 + ((w / 2 ^ 23) mod 2 ^ 8) * 2 ^ 23 + w mod 2 ^ 23).
  { pose proof (Z.div_mod w (2 ^ 23) ltac:(lia)). pose proof (Z.div_mod (w / 2 ^ 23) (2 ^ 8) ltac:(lia)) as H0.
    rewrite Z.div_div in H0 by lia. change (2 ^ 23 * 2 ^ 8) with (2 ^ 31) in H0. lia. }
  assert (M : w mod 2 ^ k = (w mod 2 ^ 23) mod 2 ^ k).
  { replace (2 ^ 23) with (2 ^ k * 2 ^ (23 - k)) by (rewrite <- Z.pow_add_r by lia; f_equal; lia).
    rewrite Z.rem_mul_r by (try apply Z.pow_nonzero; lia).
    rewrite (Z.mul_comm (2 ^ k) (_ mod _)), Z.mod_add by lia. rewrite Z.mod_mod by lia. reflexivity. }
  pose proof (Z.mod_pos_bound w (2 ^ 23) ltac:(lia)) as Bm.
  pose proof (Z.div_mod (w mod 2 ^ 23) (2 ^ k) ltac:(lia)) as Dm.
  pose proof (Z.mod_pos_bound (w mod 2 ^ 23) (2 ^ k) Pk) as Bk.
  pose proof (Z.mod_pos_bound (w / 2 ^ 23) (2 ^ 8) ltac:(lia)) as Be.
  assert (Bs : 0 <= w / 2 ^ 31 < 2) by (split; [apply Z.div_pos; lia|apply Z.div_lt_upper_bound; lia]).
  rewrite E1 in *. rewrite E2, E3, M. unfold join_float. fold k.
  rewrite !Z.shiftl_mul_pow2 by lia.
  set (s := w / 2 ^ 31) in *. set (e := (w / 2 ^ 23) mod 2 ^ 8) in *. set (m0 := w mod 2 ^ 23) in *.
  assert (Sg : (if code =? MEME_SIGNE_POSITIF then 0 else if code =? MEME_SIGNE_NEGATIF then 2147483648 else (s * 2 ^ 31) mod 2 ^ 32) = s * 2 ^ 31).
  { destruct Hc as [[-> ->]|[[-> ->]| ->]]; [reflexivity|reflexivity|].
    change (DIFF_SIGNE_PACKED =? MEME_SIGNE_POSITIF) with false. change (DIFF_SIGNE_PACKED =? MEME_SIGNE_NEGATIF) with false. cbv iota.
    apply Z.mod_small. lia. }
  rewrite Sg. rewrite (Z.mod_small (e * 2 ^ 23)) by lia.
  assert (0 <= m0 / 2 ^ k * 2 ^ k) by (apply Z.mul_nonneg_nonneg; [apply Z.div_pos; lia|lia]).
  rewrite (Z.mod_small (m0 / 2 ^ k * 2 ^ k)) by lia.
  rewrite (lor_disjoint s (e * 2 ^ 23) 31) by lia.
  replace (s * 2 ^ 31 + e * 2 ^ 23) with ((s * 2 ^ 8 + e) * 2 ^ 23) by lia.
  rewrite lor_disjoint by lia. lia.
Qed.

Lemma join_loop_spec n i code nb ss es ms fld (f : nat -> Z) :
  (forall k, (i <= k < i + n)%nat -> exists s e m, nth_error ss k = Some s /\ nth_error es k = Some e /\ nth_error ms k = Some m /\
     join_float code s e m nb = f k) ->
  (i + n <= length fld)%nat ->
  exists fld', join_loop n i code nb ss es ms fld = Some fld' /\ upd f (seq i n) fld fld'.
Proof.
  revert i fld. induction n as [|n IH]; intros i fld H L.
  - exists fld. split; [reflexivity|]. apply upd_nil.
  - destruct (H i ltac:(lia)) as (s & e & m & E1 & E2 & E3 & J). cbn [join_loop]. unfold rd. rewrite E1, E2, E3. cbn [bind].
    rewrite J. destruct (wr_some fld i (f i)) as [fl Efl]; [lia|]. rewrite Efl. cbn [bind].
    destruct (IH (S i) fl) as (fld' & Ef & U).
    { intros k Hk. apply H. lia. }
    { rewrite (wr_length _ _ _ _ Efl). lia. }
    exists fld'. split; auto. change (seq i (S n)) with ([i] ++ seq (S i) n).
    apply upd_app with fl; auto. apply upd_wr; auto.
Qed.

(** ** The header words *)
Lemma hdr32_nbits nb : (nb < 32)%nat -> let h := zip_header PARALLELOGRAM32 1 3 (Z.of_nat nb) 1 2 in
  inr32 h /\ hdr_nbits h = nb.
Proof.
  intros H h. unfold h, zip_header, PARALLELOGRAM32. split; [unfold inr32; lia|]. unfold hdr_nbits.
  replace (5 + 1 * 2 ^ 4 + 3 * 2 ^ 7 + Z.of_nat nb * 2 ^ 10 + 1 * 2 ^ 15 + 2 * 2 ^ 18)
    with (405 + (Z.of_nat nb + (1 + 2 * 2 ^ 3) * 2 ^ 5) * 2 ^ 10) by lia.
  rewrite Z.div_add, (Z.div_small 405) by lia. rewrite Z.add_0_l, Z.mod_add by lia. rewrite Z.mod_small by lia. lia.
Qed.

Lemma info_fields b nb codes : 0 <= b < 2 ^ 8 -> (nb < 256)%nat -> 0 <= codes < 2 ^ 8 ->
  let i := Z.lor (Z.lor (Z.shiftl (b mod 2 ^ 8) 16) (Z.shiftl (Z.of_nat nb mod 2 ^ 8) 8)) codes in
  inr32 i /\ Z.shiftr i 16 = b /\ Z.to_nat (Z.land (Z.shiftr i 8) 0xff) = nb /\ Z.land i 0xff = codes.
Proof.
  intros Hb Hnb Hc i.
  assert (E : i = (b * 2 ^ 8 + Z.of_nat nb) * 2 ^ 8 + codes).
  { unfold i. rewrite !Z.mod_small by lia. rewrite !Z.shiftl_mul_pow2 by lia.
    rewrite lor_disjoint by lia. replace (b * 2 ^ 16 + Z.of_nat nb * 2 ^ 8) with ((b * 2 ^ 8 + Z.of_nat nb) * 2 ^ 8) by lia.
    rewrite lor_disjoint by lia. reflexivity. }
  clearbody i. subst i. change 0xff with (Z.ones 8). rewrite !Z.land_ones, !Z.shiftr_div_pow2 by lia.
  split; [unfold inr32; lia|]. split; [|split].
  - replace ((b * 2 ^ 8 + Z.of_nat nb) * 2 ^ 8 + codes) with (Z.of_nat nb * 2 ^ 8 + codes + b * 2 ^ 16) by lia.
    rewrite Z.div_add, Z.div_small by lia. lia.
  - rewrite Z.add_comm, Z.div_add, Z.div_small by lia. rewrite Z.add_0_l, Z.add_comm, Z.mod_add by lia. rewrite Z.mod_small by lia. lia.
  - rewrite Z.add_comm, Z.mod_add by lia. apply Z.mod_small. lia.
Qed.

(** ** The mantissa and the header *)
Lemma mantissa_stage orc z p2 u ni nj nbits znbits base nbe lng codes :
  Forall inr32 z -> (2 <= p2)%nat -> (2 <= ni)%nat -> (2 <= nj)%nat -> (1 <= nbits <= 23)%nat -> (ni * nj <= length u)%nat ->
  (forall k, (k < ni * nj)%nat -> 0 <= el u k < 2 ^ Z.of_nat nbits) ->
  (32 * p2 + 30 * (ni * nj) + 99 < 32 * (length z + 1))%nat -> inr32 lng -> 0 <= base < 2 ^ 8 -> (nbe < 256)%nat -> 0 <= codes < 2 ^ 8 ->
  compress32_mantissa orc z p2 u ni nj nbits znbits base nbe lng codes = Some (-1, []) \/
  exists n zd, compress32_mantissa orc z p2 u ni nj nbits znbits base nbe lng codes = Some (4 * Z.of_nat n, zd) /\
    length zd = length z /\ Forall inr32 zd /\ (S p2 < n <= length zd)%nat /\ agree 2 p2 zd z /\
    nth_error zd 0 = Some (zip_header PARALLELOGRAM32 1 3 (Z.of_nat nbits) 1 2) /\
    nth_error zd 1 = Some (Z.lor (Z.lor (Z.shiftl (base mod 2 ^ 8) 16) (Z.shiftl (Z.of_nat nbe mod 2 ^ 8) 8)) codes) /\
    forall orc' mem arr tmp, Forall inr32 mem -> (n <= length mem)%nat -> agree 2 n mem zd ->
      (ni * nj <= length arr)%nat -> (ni * nj <= length tmp)%nat ->
      exists arr', unpackTokensParallelogram orc' pc32 arr tmp mem (S p2) ni nj nbits 3 = Some arr' /\
        (forall k, (k < ni * nj)%nat -> nth_error arr' k = Some (el u k)).
Proof.
  intros F Hp Hi Hj Hnb Hu HV Hroom Hl Hb Hnbe Hcd. unfold compress32_mantissa. cbv zeta.
  set (rem := Z.of_nat (ni * nj * znbits) / 32 - Z.of_nat (S p2)).
  destruct (stage32 orc z (S p2) u ni nj nbits rem) as [E|(za & q & E & La & Fa & Pa & Qa & Ra & Da)]; auto; try lia.
  { left. rewrite E. reflexivity. }
  right. rewrite E. cbn [bind]. rewrite round4_word.
  destruct (wr_some za p2 lng) as [zb Eb]; [lia|]. rewrite Eb. cbn [bind].
  pose proof (wr_length _ _ _ _ Eb) as Lb.
  destruct (wr_some zb 0 (zip_header PARALLELOGRAM32 1 3 (Z.of_nat nbits) 1 2)) as [zc Ec]; [lia|]. rewrite Ec. cbn [bind].
  pose proof (wr_length _ _ _ _ Ec) as Lc.
  set (info := Z.lor _ codes).
  destruct (wr_some zc 1 info) as [zd Ed]; [lia|]. rewrite Ed. cbn [bind].
  pose proof (wr_length _ _ _ _ Ed) as Ld.
  exists (S q), zd. split; [f_equal; f_equal; lia|]. split; [lia|].
  split.
  { apply (wr_inr32 _ _ _ _ Ed); [|apply info_fields; auto]. apply (wr_inr32 _ _ _ _ Ec); [|apply hdr32_nbits; lia].
    apply (wr_inr32 _ _ _ _ Eb); auto. }
  split; [lia|]. split.
  { intros k Hk. rewrite (wr_other _ _ _ _ k Ed), (wr_other _ _ _ _ k Ec), (wr_other _ _ _ _ k Eb) by lia.
    apply (agree_firstn _ _ _ Pa). lia. }
  split; [rewrite (wr_other _ _ _ _ 0%nat Ed) by lia; apply (wr_same _ _ _ _ Ec)|].
  split; [apply (wr_same _ _ _ _ Ed)|].
  intros orc' mem arr tmp Fm Lm A Ha Ht.
  destruct (Da orc' mem arr tmp) as (arr' & Er & _ & Ir & _); auto.
  { intros k Hk. rewrite A by lia. rewrite (wr_other _ _ _ _ k Ed), (wr_other _ _ _ _ k Ec), (wr_other _ _ _ _ k Eb) by lia. reflexivity. }
  exists arr'. split; auto.
Qed.

(** ** Exponents *)
Lemma exps_facts ws : ws <> [] -> let '(mn, mx) := scan_min_max (map f_exp ws) in
  0 <= mn <= mx /\ mx < 2 ^ 8 /\ forall k, (k < length ws)%nat -> mn <= f_exp (el ws k) <= mx.
Proof.
  intros NE. assert (NE' : map f_exp ws <> []) by (destruct ws; [contradiction|discriminate]).
  pose proof (scan_min_max_spec _ NE') as S. destruct (scan_min_max (map f_exp ws)) as [mn mx].
  destruct S as (S1 & S2 & S3).
  pose proof (S3 _ S1). apply in_map_iff in S1. destruct S1 as (w1 & E1 & _). apply in_map_iff in S2. destruct S2 as (w2 & E2 & _).
  pose proof (f_exp_bound w1). pose proof (f_exp_bound w2). split; [lia|]. split; [lia|].
  intros k Hk. apply S3. apply in_map. apply nth_In. auto.
Qed.

Theorem compress32_roundtrip orc gs z fld ni nj nk znbits :
  (16 <= ni)%nat -> (16 <= nj)%nat -> (10 <= znbits <= 32)%nat ->
  Z.of_nat (ni * nj * nk) * 4 < 2 ^ 31 -> Z.of_nat (ni * nj * znbits) < 2 ^ 31 ->
  Forall inr32 fld -> Forall inr32 z -> (ni * nj <= length fld)%nat -> (2 * (ni * nj) <= length z)%nat -> (0 < length gs)%nat ->
  compress32 orc gs z fld ni nj nk znbits = Some (-1, []) \/
  exists n z', compress32 orc gs z fld ni nj nk znbits = Some (4 * Z.of_nat n, z') /\
    length z' = length z /\ Forall inr32 z' /\ (0 < n <= length z')%nat /\
    forall orc' gs' ge gm gt8 gt32 dst mem, Forall inr32 mem -> (n <= length mem)%nat -> firstn n mem = firstn n z' ->
      (ni * nj <= length gs')%nat -> (ni * nj <= length ge)%nat -> (ni * nj <= length gm)%nat ->
      (ni * nj <= length gt8)%nat -> (ni * nj <= length gt32)%nat -> (ni * nj <= length dst)%nat ->
      exists dst', uncompress32 orc' gs' ge gm gt8 gt32 dst mem ni nj = Some (Z.of_nat (ni * nj), dst') /\
        length dst' = length dst /\
        (forall k, (k < ni * nj)%nat -> nth_error dst' k = Some (el fld k - el fld k mod 2 ^ (32 - Z.of_nat znbits))) /\
        (forall k, (ni * nj <= k)%nat -> nth_error dst' k = nth_error dst k).
Proof.
  intros Hi Hj Hzn Hk4 Hov Ff Fz Lf Lz Lg. unfold compress32.
  destruct (Nat.ltb_spec ni 16); [lia|]. destruct (Nat.ltb_spec nj 16); [lia|]. cbn [orb].
  destruct (Nat.ltb_spec znbits 10); [lia|]. destruct (Nat.ltb_spec 32 znbits); [lia|].
  destruct (Z.leb_spec (2 ^ 31) (Z.of_nat (ni * nj * nk) * 4)); [lia|].
  destruct (Z.leb_spec (2 ^ 31) (Z.of_nat (ni * nj * znbits))); [lia|]. cbn [orb].
  destruct (Nat.ltb_spec (length fld) (ni * nj)); [lia|]. cbv zeta.
  set (npts := (ni * nj)%nat) in *.
  assert (Hnp : (256 <= npts)%nat) by (unfold npts; nia).
  assert (Hnp31 : Z.of_nat npts < 2 ^ 31) by (rewrite Nat2Z.inj_mul in *; nia).
  set (ws := firstn npts fld). set (nbits := (znbits - 9)%nat).
  assert (Hnb : (1 <= nbits <= 23)%nat) by (unfold nbits; lia).
  assert (Lw : length ws = npts) by (unfold ws; rewrite firstn_length; lia).
  assert (Fw : Forall inr32 ws) by (apply Forall_firstn; auto).
  assert (NE : ws <> []) by (intros E; rewrite E in Lw; cbn in Lw; lia).
  assert (Elw : forall k, (k < npts)%nat -> el ws k = el fld k).
  { intros k Hk. unfold el, ws. rewrite <- (firstn_skipn npts fld) at 2. rewrite app_nth1; auto. fold ws. lia. }
  pose proof (exps_facts ws NE) as EF. destruct (scan_min_max (map f_exp ws)) as [base mx]. destruct EF as (Bb & Bmx & Be).
  rewrite Lw in Be.
  destruct (signs_stage orc z ws gs npts) as (z1 & p1 & code & lng & Es & L1 & F1 & P1 & Q1 & Rl & SC & Ds); auto; [lia|].
  rewrite Es. cbn [bind].
  assert (Dv : (8 * (npts + 6) / 7 <= 2 * npts)%nat).
  { assert (8 * (npts + 6) / 7 < 2 * npts + 1)%nat; [|lia]. apply Nat.div_lt_upper_bound; lia. }
  assert (Hsc : forall k, (k < npts)%nat -> code = MEME_SIGNE_POSITIF /\ f_sign (el ws k) = 0 \/
     code = MEME_SIGNE_NEGATIF /\ f_sign (el ws k) = 1 \/ code = DIFF_SIGNE_PACKED).
  { intros k Hk. destruct SC as [[-> S]|[[-> S]| ->]]; [left|right; left|right; right]; auto. }
  assert (C3 : code = 0 \/ code = 16 \/ code = 32) by (destruct SC as [[-> _]|[[-> _]| ->]]; [left|right; left|right; right]; reflexivity).
  set (mant := map (f_mant nbits) ws).
  assert (Lm : length mant = npts) by (unfold mant; rewrite map_length; auto).
  assert (Elm : forall k, (k < npts)%nat -> el mant k = f_mant nbits (el ws k)).
  { intros k Hk. unfold el, mant. rewrite (nth_indep _ 0 (f_mant nbits 0)) by (rewrite map_length; lia). apply map_nth. }
  assert (Bm : forall k, (k < npts)%nat -> 0 <= el mant k < 2 ^ Z.of_nat nbits).
  { intros k Hk. rewrite Elm by auto. apply f_mant_bound; auto. }
  (* common end *)
  assert (FIN : forall (n : nat) (z' : list Z) (p2 nbe : nat) (codes ce : Z),
     (nbe < 256)%nat -> 0 <= codes < 2 ^ 8 -> Z.land codes 0x30 = code -> Z.land codes 0xC = ce -> Z.land codes 0x3 = 0 ->
     nth_error z' 0 = Some (zip_header PARALLELOGRAM32 1 3 (Z.of_nat nbits) 1 2) ->
     nth_error z' 1 = Some (Z.lor (Z.lor (Z.shiftl (base mod 2 ^ 8) 16) (Z.shiftl (Z.of_nat nbe mod 2 ^ 8) 8)) codes) ->
     (S p2 < n <= length z')%nat -> (2 <= p1 <= p2)%nat -> agree 2 p1 z' z1 ->
     (forall orc' ge gt8 mem, Forall inr32 mem -> (n <= length mem)%nat -> agree 2 n mem z' ->
       (npts <= length ge)%nat -> (npts <= length gt8)%nat ->
       exists ex, uncompress32_exps orc' ge gt8 mem p1 ce ni nj nbe base = Some (ex, p2) /\
         forall k, (k < npts)%nat -> nth_error ex k = Some (f_exp (el ws k))) ->
     (forall orc' mem arr tmp, Forall inr32 mem -> (n <= length mem)%nat -> agree 2 n mem z' ->
       (npts <= length arr)%nat -> (npts <= length tmp)%nat ->
       exists arr', unpackTokensParallelogram orc' pc32 arr tmp mem (S p2) ni nj nbits 3 = Some arr' /\
        (forall k, (k < npts)%nat -> nth_error arr' k = Some (el mant k))) ->
     forall orc' gs' ge gm gt8 gt32 dst mem, Forall inr32 mem -> (n <= length mem)%nat -> firstn n mem = firstn n z' ->
      (npts <= length gs')%nat -> (npts <= length ge)%nat -> (npts <= length gm)%nat ->
      (npts <= length gt8)%nat -> (npts <= length gt32)%nat -> (npts <= length dst)%nat ->
      exists dst', uncompress32 orc' gs' ge gm gt8 gt32 dst mem ni nj = Some (Z.of_nat npts, dst') /\
        length dst' = length dst /\
        (forall k, (k < npts)%nat -> nth_error dst' k = Some (el fld k - el fld k mod 2 ^ (32 - Z.of_nat znbits))) /\
        (forall k, (npts <= k)%nat -> nth_error dst' k = nth_error dst k)).
  { intros n z' p2 nbe codes ce Hnbe Hcd Hcs Hce Hcm Hz0 Hz1 Hn Hp2 A1 DE DM orc' gs' ge gm gt8 gt32 dst mem Fm Lme Pm G1 G2 G3 G4 G5 G6.
    pose proof (agree_firstn _ _ _ Pm) as AG.
    unfold uncompress32. fold npts. unfold rd. rewrite (AG 0%nat), (AG 1%nat) by lia. rewrite Hz0, Hz1. cbn [bind]. cbv zeta.
    destruct (hdr32_nbits nbits ltac:(lia)) as [_ ->].
    destruct (info_fields base nbe codes ltac:(lia) Hnbe Hcd) as (_ & -> & -> & ->).
    rewrite Hcs, Hce, Hcm.
    destruct (Ds orc' gs' mem) as (sg & E1 & I1); auto; [lia| |].
    { intros k Hk. rewrite AG by lia. apply A1; auto. }
    rewrite E1. cbn [bind].
    destruct (DE orc' ge gt8 mem) as (ex & E2 & I2); auto.
    { apply (agree_sub 0 n); auto; lia. }
    rewrite E2. cbn [bind]. rewrite (AG p2) by lia.
    destruct (nth_error z' p2) as [w|] eqn:Ew; [|apply nth_error_None in Ew; lia]. cbn [bind].
    change (0 =? 0) with true. cbv iota.
    destruct (DM orc' mem gm gt32) as (ms & E3 & I3); auto.
    { apply (agree_sub 0 n); auto; lia. }
    rewrite E3. cbn [bind].
    destruct (join_loop_spec npts 0 code nbits sg ex ms dst (fun k => el fld k - el fld k mod 2 ^ (32 - Z.of_nat znbits)))
      as (dst' & E4 & UL & UI & UO); [|lia|].
    { intros k Hk. do 3 eexists. split; [apply I1; lia|]. split; [apply I2; lia|]. split; [apply I3; lia|].
      rewrite Elm, <- Elw by lia. replace (32 - Z.of_nat znbits) with (Z.of_nat (23 - nbits)) by (unfold nbits; lia).
      apply join_spec; auto; [|apply Hsc; lia]. rewrite Forall_forall in Fw. apply Fw. apply nth_In. lia. }
    rewrite E4. cbn [bind]. exists dst'. split; auto. split; auto. split.
    - intros k Hk. apply UI. apply in_seq. lia.
    - intros k Hk. apply UO. intros X. apply in_seq in X. lia. }
  destruct (Z.eqb_spec (mx - base) 0) as [E0|E0].
  - (* constant exponent *)
    cbn [Nat.eqb].
    destruct (mantissa_stage orc z1 p1 mant ni nj nbits znbits base 0 lng (Z.lor code MEME_EXPOSANT))
      as [E|(n & zd & E & Ld & Fd & Hn & A & H0' & H1' & D)]; auto; try lia.
    { destruct C3 as [-> |[-> | ->]]; split; vm_compute; congruence. }
    right. exists n, zd. split; auto. split; [lia|]. split; auto. split; [lia|].
    apply (FIN n zd p1 0%nat (Z.lor code MEME_EXPOSANT) 0); auto; try lia.
    + destruct C3 as [-> |[-> | ->]]; split; vm_compute; congruence.
    + destruct C3 as [-> |[-> | ->]]; reflexivity.
    + destruct C3 as [-> |[-> | ->]]; reflexivity.
    + destruct C3 as [-> |[-> | ->]]; reflexivity.
    + intros orc' ge gt8 mem Fm Lme Ag G1 G2. unfold uncompress32_exps.
      change ((0 =? DIFF_EXPOSANT_PACKED) || (0 =? DIFF_EXPOSANT_STREAM)) with false. cbv iota. fold npts.
      destruct (fill_all (base mod 2 ^ 8) npts ge G1) as (a & Ea & La & Ia). rewrite Ea. cbn [bind]. exists a. split; auto.
      intros k Hk. rewrite Ia by auto. f_equal. rewrite Z.mod_small by lia. specialize (Be k Hk). lia.
  - set (nbe := bitlen (mx - base)).
    assert (Hne : (1 <= nbe <= 8)%nat).
    { split; [|apply bitlen_le; lia]. destruct (Nat.eq_dec nbe 0) as [X|]; [|lia]. apply bitlen_zero in X. lia. }
    destruct (Nat.eqb_spec nbe 0); [lia|].
    set (ex2 := map (fun e => (e - base) mod 2 ^ 8) (map f_exp ws)).
    assert (Lx : length ex2 = npts) by (unfold ex2; rewrite !map_length; auto).
    assert (Elx : forall k, (k < npts)%nat -> el ex2 k = f_exp (el ws k) - base).
    { intros k Hk. unfold el, ex2. rewrite map_map. rewrite (nth_indep _ 0 ((fun x => (f_exp x - base) mod 2 ^ 8) 0)) by (rewrite map_length; lia).
      rewrite (map_nth (fun x => (f_exp x - base) mod 2 ^ 8)). apply Z.mod_small. specialize (Be k Hk). unfold el in Be. lia. }
    destruct (stage8 orc z1 (S p1) ex2 ni nj nbe) as (za & q & Eq & La & Fa & Pa & Qa & Ra & Da); auto; try lia.
    { fold npts. intros k Hk. rewrite Elx by auto. specialize (Be k Hk). pose proof (bitlen_spec (mx - base) ltac:(lia)) as BS. fold nbe in BS. lia. }
    fold npts in Ra, Da. rewrite Eq. cbn [bind].
    destruct (Z.of_nat npts <? 1 + 4 * Z.of_nat (q - S p1)); [left; reflexivity|].
    rewrite round4_word.
    assert (R4 : (S p1 + Z.to_nat (4 * Z.of_nat (S (q - S p1)) / 4) = S q)%nat).
    { rewrite (Z.mul_comm 4), Z.div_mul by lia. lia. }
    rewrite R4. destruct (wr_some za p1 (4 * Z.of_nat (S (q - S p1)))) as [zb Eb]; [lia|]. rewrite Eb. cbn [bind].
    pose proof (wr_length _ _ _ _ Eb) as Lb.
    assert (Rg : inr32 (4 * Z.of_nat (S (q - S p1)))) by (unfold inr32; lia).
    assert (Fb : Forall inr32 zb) by (apply (wr_inr32 _ _ _ _ Eb); auto).
    destruct (mantissa_stage orc zb (S q) mant ni nj nbits znbits base nbe lng (Z.lor code DIFF_EXPOSANT_PACKED))
      as [E|(n0 & zd & E & Ld & Fd & Hn & A & H0' & H1' & D)]; auto; try lia.
    { destruct C3 as [-> |[-> | ->]]; split; vm_compute; congruence. }
    right. exists n0, zd. split; auto. split; [lia|]. split; auto. split; [lia|].
    apply (FIN n0 zd (S q) nbe (Z.lor code DIFF_EXPOSANT_PACKED) 8); auto; try lia.
    + destruct C3 as [-> |[-> | ->]]; split; vm_compute; congruence.
    + destruct C3 as [-> |[-> | ->]]; reflexivity.
    + destruct C3 as [-> |[-> | ->]]; reflexivity.
    + destruct C3 as [-> |[-> | ->]]; reflexivity.
    + intros k Hk. rewrite A by lia. rewrite (wr_other _ _ _ _ k Eb) by lia. apply (agree_firstn _ _ _ Pa). lia.
    + intros orc' ge gt8 mem Fm Lme Ag G1 G2. unfold uncompress32_exps.
      change ((8 =? DIFF_EXPOSANT_PACKED) || (8 =? DIFF_EXPOSANT_STREAM)) with true. cbv iota. fold npts.
      unfold rd. rewrite (Ag p1), (A p1), (wr_same _ _ _ _ Eb) by lia. cbn [bind].
      destruct (Da orc' mem ge gt8) as (ex & Ee & Le & Ie & _); auto; [lia| |].
      { intros k Hk. rewrite Ag, A by lia. apply (wr_other _ _ _ _ k Eb). lia. }
      rewrite Ee. cbn [bind].
      rewrite gets_spec by (intros k Hk; apply in_seq in Hk; lia). cbn [bind].
      eexists. split.
      { f_equal. f_equal. rewrite Z.shiftr_div_pow2 by lia. change (2 ^ 2) with 4. exact R4. }
      intros k Hk. rewrite map_map, nth_error_map.
      rewrite (nth_error_nth' (seq 0 npts) 0%nat) by (rewrite seq_length; auto). rewrite seq_nth by auto. cbn [option_map Nat.add].
      f_equal. rewrite (nth_error_el _ _ _ (Ie k Hk)). rewrite Elx by auto. pose proof (f_exp_bound (el ws k)).
      replace (f_exp (el ws k) - base + base) with (f_exp (el ws k)) by lia. apply Z.mod_small. auto.
Qed.
