(** The header written before the tokens, and what is read from it. *)
From Coq Require Import ZArith List Bool Lia Reals Lra.
From Flocq Require Import Core BinarySingleNaN.
From Verif Require Import Bits BitIO BitIOFacts CompactInt Flo FloatPack FloatWords FloatField FloatDouble FloatPackFacts FloatFieldFacts FloatFieldValue.
Import ListNotations.
Open Scope Z_scope.
Open Scope opt_scope.

Lemma lor_add x k y : 0 <= k -> 0 <= y < 2 ^ k -> Z.lor (Z.shiftl x k) y = x * 2 ^ k + y.
Proof.
  intros K H. rewrite <- (Z2Nat.id k) in * by exact K. rewrite Z.shiftl_mul_pow2 by lia. rewrite lor_shiftl_add by exact H. reflexivity.
Qed.
Lemma land_low x k : 0 <= k -> Z.land x (2 ^ k - 1) = x mod 2 ^ k.
Proof. intros K. rewrite <- Z.land_ones by exact K. f_equal. rewrite Z.ones_equiv. lia. Qed.

(** The second word. *)
Lemma word1 X S g : 0 <= X < 2 ^ 16 -> 0 <= S < 2 ^ 12 -> 0 <= g <= 1 ->
  let h := Z.lor ((Z.shiftl X 16) mod 2 ^ 32) (Z.lor ((Z.shiftl S 4) mod 2 ^ 32) g) in
  inr32 h /\ Z.shiftr h 16 = X /\ Z.land (Z.shiftr h 4) 0xfff = S /\ Z.land h 1 = g.
Proof.
  intros HX HS HG h.
  assert (E : h = X * 2 ^ 16 + (S * 2 ^ 4 + g)).
  { unfold h. rewrite !Z.mod_small by (rewrite Z.shiftl_mul_pow2 by lia; lia).
    rewrite (lor_add S 4 g) by lia. rewrite lor_add by lia. reflexivity. }
  clearbody h. subst h. split; [unfold inr32; lia|]. split; [|split].
  - rewrite Z.shiftr_div_pow2 by lia. rewrite Z.div_add_l by lia. rewrite Z.div_small; lia.
  - rewrite Z.shiftr_div_pow2 by lia. change 0xfff with (2 ^ 12 - 1). rewrite land_low by lia.
    replace (X * 2 ^ 16 + (S * 2 ^ 4 + g)) with ((X * 2 ^ 12 + S) * 2 ^ 4 + g) by lia. rewrite Z.div_add_l by lia.
    rewrite Z.div_small by lia. rewrite Z.add_0_r, Z.add_comm, Z_mod_plus_full. apply Z.mod_small. lia.
  - change 1 with (2 ^ 1 - 1). rewrite land_low by lia. replace (X * 2 ^ 16 + (S * 2 ^ 4 + g)) with (g + (X * 2 ^ 15 + S * 2 ^ 3) * 2 ^ 1) by lia.
    rewrite Z_mod_plus_full. apply Z.mod_small. lia.
Qed.

(** The fields of a word, and its value. *)
Lemma word_fields w : 0 <= w < 2 ^ 32 -> w = (if w_sign w then 1 else 0) * 2 ^ 31 + w_exp w * 2 ^ 23 + w_man w.
Proof.
  intros H. unfold w_sign, w_exp, w_man. destruct (Z.leb_spec (2 ^ 31) w) as [L|L].
  - pose proof (Z.div_mod w (2 ^ 23) ltac:(lia)).
    assert (w / 2 ^ 23 = 256 * 1 + (w / 2 ^ 23 - 256)) as X by lia.
    assert (0 <= w / 2 ^ 23 - 256 < 256).
    { split; [apply Z.le_add_le_sub_l; apply Z.div_le_lower_bound; lia|]. apply Z.lt_sub_lt_add_l. apply Z.div_lt_upper_bound; lia. }
    assert ((w / 2 ^ 23) mod 256 = w / 2 ^ 23 - 256) as ->.
    { symmetry. apply (Z.mod_unique_pos _ _ 1); lia. }
    lia.
  - assert (0 <= w / 2 ^ 23 < 256) by (split; [apply Z.div_pos; lia|apply Z.div_lt_upper_bound; lia]).
    rewrite Z.mod_small by lia. pose proof (Z.div_mod w (2 ^ 23) ltac:(lia)). lia.
Qed.

(** The minimum that the header keeps. *)
Definition keeps (lo mn : Z) : Prop :=
  finite_word mn /\ (Rabs (V mn - V lo) <= bpow radix2 (-127))%R /\ (Rabs (V mn) <= big)%R /\
  (sval lo = 0 \/ 1 <= w_exp lo -> sval mn = sval lo).

Lemma V_abs w : Rabs (V w) = (IZR (mval w) * bpow radix2 (-149))%R.
Proof.
  unfold V. rewrite Rabs_mult, (Rabs_pos_eq (bpow _ _)) by apply bpow_ge_0. rewrite <- abs_IZR, sval_abs. reflexivity.
Qed.
Lemma zero_word : finite_word 0 /\ sval 0 = 0.
Proof. split; [split; [lia|cbv; discriminate]|reflexivity]. Qed.

Lemma eqz_ok x v : is64 x v -> f64_eqz x = Req_bool v 0.
Proof.
  intros [<- F]. unfold f64_eqz. destruct (f64_of_ok 0 ltac:(lia)) as [Z1 Z2]. rewrite Beqb_correct by assumption.
  fold (r64 x) (r64 (f64_of 0)). rewrite Z1. reflexivity.
Qed.

Lemma header_min_ok lo X : finite_word lo -> (Rabs (V lo) <= big)%R -> 0 <= X < 2 ^ 16 ->
  let mn := widen (word_f32 lo) in
  let scaledMin := (f64_expo mn - 1023 + 1024 - 48) mod 2 ^ 32 in
  let h1 := Z.lor ((Z.shiftl X 16) mod 2 ^ 32)
     (Z.lor ((Z.shiftl (if f64_eqz mn then Z.land scaledMin 0x111 else scaledMin) 4) mod 2 ^ 32) (if f64_ltb mn (f64_of 0) then 1 else 0)) in
  let h2 := if f64_eqz mn then 0 else Z.lor (2 ^ 31) (Z.shiftl (f64_man23 mn) 8) in
  inr32 h1 /\ inr32 h2 /\ Z.shiftr h1 16 = X /\ keeps lo (header_min h1 h2).
Proof.
  intros FL BL HX mn sm h1 h2. pose proof (wide lo FL) as W. fold mn in W. clearbody mn.
  assert (EZ : f64_eqz mn = (sval lo =? 0)).
  { rewrite (eqz_ok _ _ W). unfold V. pose proof u_gt. destruct (Z.eqb_spec (sval lo) 0) as [E|N].
    - rewrite E, Rmult_0_l. apply Req_bool_true. reflexivity.
    - apply Req_bool_false. intros C. apply Rmult_integral in C as [C|C]; [apply eq_IZR in C; contradiction|lra]. }
  assert (EL : f64_ltb mn (f64_of 0) = (sval lo <? 0)).
  { rewrite (f64_ltb_ok _ _ _ _ W (f64_of_ok 0 ltac:(lia))). unfold V. pose proof u_gt. destruct (Z.ltb_spec (sval lo) 0) as [L|L].
    - apply Rlt_bool_true. assert (IZR (sval lo) < 0)%R by (apply IZR_lt; exact L). nra.
    - apply Rlt_bool_false. assert (0 <= IZR (sval lo))%R by (apply IZR_le; exact L). nra. }
  unfold h1, h2. clear h1 h2. rewrite EZ, EL.
  set (g := if sval lo <? 0 then 1 else 0). assert (HG : 0 <= g <= 1) by (unfold g; destruct (sval lo <? 0); lia).
  pose proof (man_range lo) as MR. pose proof (exp_range lo) as ER.
  destruct (Z.eqb_spec (sval lo) 0) as [E|N].
  - assert (SM : 0 <= Z.land sm 0x111 < 2 ^ 12).
    { assert (Z.land sm 273 = Z.land sm 273 mod 2 ^ 12) as ->; [|apply Z.mod_pos_bound; lia].
      rewrite <- (Z.land_ones _ 12), <- Z.land_assoc by lia. reflexivity. }
    destruct (word1 X _ g HX SM HG) as (A & B & _ & _). split; [exact A|]. split; [unfold inr32; lia|]. split; [exact B|].
    unfold header_min. cbv zeta. change (0 =? 0) with true. cbn [orb]. destruct zero_word as [ZF ZV].
    split; [exact ZF|]. unfold V. rewrite ZV, E, !Rmult_0_l, Rminus_0_r, Rabs_R0. pose proof one_big.
    split; [apply bpow_ge_0|]. split; [lra|reflexivity].
  - assert (SG : forall m, 0 <= m -> (if w_sign lo then - m else m) = (if sval lo <? 0 then - m else m)).
    { intros m HM. unfold sval. pose proof (mval_low lo). unfold sval in N. destruct (w_sign lo); destruct (Z.ltb_spec (- mval lo) 0); destruct (Z.ltb_spec (mval lo) 0); lia. }
    assert (SG' : (sval lo <? 0) = w_sign lo).
    { unfold sval in *. pose proof (mval_low lo). destruct (w_sign lo); [apply Z.ltb_lt|apply Z.ltb_ge]; lia. }
    destruct (Z.eq_dec (w_exp lo) 0) as [E0|NE].
    + (* below 2^-126 *)
      assert (MV : mval lo = w_man lo) by (unfold mval; rewrite E0; reflexivity).
      assert (MP : 0 < w_man lo).
      { unfold sval in N. rewrite MV in N. destruct (w_sign lo); lia. }
      set (l := Z.log2 (w_man lo)). pose proof (Z.log2_spec (w_man lo) MP) as [L1 L2]. fold l in L1, L2.
      pose proof (Z.log2_nonneg (w_man lo)) as L0. fold l in L0.
      assert (L3 : l < 23) by (apply Z.log2_lt_pow2; lia).
      set (k := w_man lo * 2 ^ (23 - l) - 2 ^ 23).
      assert (P23 : 2 ^ 23 = 2 ^ l * 2 ^ (23 - l)) by (rewrite <- Z.pow_add_r by lia; f_equal; lia).
      assert (P24 : 2 ^ 24 = 2 ^ Z.succ l * 2 ^ (23 - l)) by (rewrite <- Z.pow_add_r by lia; f_equal; lia).
      assert (PP : 0 < 2 ^ (23 - l)) by (apply Z.pow_pos_nonneg; lia).
      assert (K : 0 <= k < 2 ^ 23).
      { unfold k. split.
        - apply Z.le_0_sub. rewrite P23. apply Z.mul_le_mono_nonneg_r; lia.
        - assert (w_man lo * 2 ^ (23 - l) < 2 ^ Z.succ l * 2 ^ (23 - l)) by (apply Z.mul_lt_mono_pos_r; lia). lia. }
      assert (W' : is64 mn (IZR (if w_sign lo then - (2 ^ 23 + k) else 2 ^ 23 + k) * bpow radix2 (l - 172))).
      { replace (IZR (if w_sign lo then - (2 ^ 23 + k) else 2 ^ 23 + k) * bpow radix2 (l - 172))%R with (V lo); [exact W|].
        unfold V, sval. rewrite MV. replace (2 ^ 23 + k) with (w_man lo * 2 ^ (23 - l)) by (unfold k; lia).
        replace (-149) with ((23 - l) + (l - 172)) by lia. rewrite bpow_plus.
        rewrite <- IZR_Zpower by lia. change (radix2 ^ (23 - l)) with (2 ^ (23 - l)).
        rewrite <- Rmult_assoc, <- mult_IZR. f_equal. f_equal. destruct (w_sign lo); lia. }
      destruct (f64_fields mn (w_sign lo) k (l - 172) W' K ltac:(lia)) as [FE FMN].
      assert (SM : sm = l + 827) by (unfold sm; rewrite FE; rewrite Z.mod_small; lia).
      assert (S12 : 0 <= sm < 2 ^ 12) by lia.
      destruct (word1 X sm g HX S12 HG) as (A & B & C & D). split; [exact A|].
      assert (H2 : Z.lor (2 ^ 31) (Z.shiftl (f64_man23 mn) 8) = 2 ^ 31 + k * 2 ^ 8).
      { rewrite FMN. change (2 ^ 31) with (Z.shiftl 1 31) at 1. rewrite Z.shiftl_mul_pow2 with (a := k) by lia. rewrite lor_add by lia. reflexivity. }
      rewrite H2. split; [unfold inr32; lia|]. split; [exact B|].
      unfold header_min. cbv zeta. rewrite C, D. rewrite (proj2 (Z.eqb_neq (2 ^ 31 + k * 2 ^ 8) 0)) by lia. cbn [orb].
      assert (SX : ~ (sval lo = 0 \/ 1 <= w_exp lo)) by lia.
      pose proof (V_abs lo) as VA. rewrite MV in VA. pose proof u_gt as U.
      assert (N127 : (bpow radix2 (-127) = 4194304 * bpow radix2 (-149))%R) by (change (-127) with (22 + -149); rewrite bpow_plus; reflexivity).
      destruct (Z.ltb_spec sm 849) as [LT|GE].
      * destruct zero_word as [ZF ZV]. split; [exact ZF|]. assert (V0 : V 0 = 0%R) by (unfold V; rewrite ZV; ring). rewrite V0.
        split; [|split; [rewrite Rabs_R0; pose proof one_big; lra|contradiction]].
        unfold Rminus. rewrite Rplus_0_l, Rabs_Ropp, VA, N127. apply Rmult_le_compat_r; [lra|]. apply IZR_le.
        assert (2 ^ Z.succ l <= 2 ^ 22) by (apply Z.pow_le_mono_r; lia). lia.
      * assert (l = 22) as -> by lia. assert (sm = 849) as -> by lia.
        change ((849 + 127 - 1024 + 48) mod 256) with 0.
        assert (LM : Z.land (Z.shiftr (2 ^ 31 + k * 2 ^ 8) 8) 0x7fffff = k).
        { rewrite Z.shiftr_div_pow2 by lia. replace (2 ^ 31 + k * 2 ^ 8) with ((2 ^ 23 + k) * 2 ^ 8) by lia. rewrite Z.div_mul by lia.
          change 0x7fffff with (2 ^ 23 - 1). rewrite land_low by lia. rewrite Z.add_comm. replace (k + 2 ^ 23) with (k + 1 * 2 ^ 23) by lia.
          rewrite Z_mod_plus_full. apply Z.mod_small. lia. }
        rewrite LM. unfold g. rewrite SG'.
        pose proof (fields (w_sign lo) 0 k ltac:(lia) ltac:(lia)) as F. cbv zeta in F.
        replace ((if w_sign lo then 1 else 0) * 2 ^ 31 + 0 * 2 ^ 23 + k) with ((if w_sign lo then 2 ^ 31 else 0) + (0 * 2 ^ 23 + k)) by (destruct (w_sign lo); lia).
        set (a := (if w_sign lo then 2 ^ 31 else 0) + (0 * 2 ^ 23 + k)) in *. destruct F as (F1 & F2 & F3 & F4).
        assert (SA : sval a = if w_sign lo then - k else k) by (unfold sval, mval; rewrite F1, F2, F3; reflexivity).
        assert (SL : sval lo = if w_sign lo then - w_man lo else w_man lo) by (unfold sval; rewrite MV; reflexivity).
        unfold k in *. change (2 ^ (23 - 22)) with 2 in *. change (2 ^ 22) with 4194304 in *. change (2 ^ 23) with 8388608 in *.
        split; [split; [exact F4|lia]|].
        assert (DV : (V a - V lo = IZR (sval a - sval lo) * bpow radix2 (-149))%R) by (unfold V; rewrite minus_IZR; ring).
        split; [|split; [|contradiction]].
        -- rewrite DV, Rabs_mult, (Rabs_pos_eq (bpow _ _)), <- abs_IZR, N127 by lra. apply Rmult_le_compat_r; [lra|].
           apply IZR_le. rewrite SA, SL. destruct (w_sign lo); lia.
        -- unfold V. rewrite Rabs_mult, (Rabs_pos_eq (bpow _ _)), <- abs_IZR by lra. apply Rle_trans with 1%R; [|apply one_big].
           apply Rle_trans with (bpow radix2 23 * bpow radix2 (-149))%R; [apply Rmult_le_compat_r; [lra|]|rewrite <- bpow_plus; change 1%R with (bpow radix2 0); apply bpow_le; lia].
           change (bpow radix2 23) with (IZR (2 ^ 23)). apply IZR_le. rewrite SA. change (2 ^ 23) with 8388608. destruct (w_sign lo); lia.
    + (* from 2^-126 on *)
      assert (EX : 1 <= w_exp lo <= 254) by (destruct FL as [_ FL]; lia).
      assert (W' : is64 mn (IZR (if w_sign lo then - (2 ^ 23 + w_man lo) else 2 ^ 23 + w_man lo) * bpow radix2 (w_exp lo - 150))).
      { replace (IZR (if w_sign lo then - (2 ^ 23 + w_man lo) else 2 ^ 23 + w_man lo) * bpow radix2 (w_exp lo - 150))%R with (V lo); [exact W|].
        unfold V, sval, mval. rewrite (proj2 (Z.eqb_neq _ _) NE).
        replace (w_exp lo - 150) with ((w_exp lo - 1) + -149) by lia. rewrite bpow_plus, <- Rmult_assoc. f_equal.
        rewrite <- IZR_Zpower by lia. change (radix2 ^ (w_exp lo - 1)) with (2 ^ (w_exp lo - 1)). rewrite <- mult_IZR. f_equal.
        destruct (w_sign lo); ring. }
      destruct (f64_fields mn (w_sign lo) (w_man lo) (w_exp lo - 150) W' MR ltac:(lia)) as [FE FMN].
      assert (SM : sm = w_exp lo + 849) by (unfold sm; rewrite FE; rewrite Z.mod_small; lia).
      assert (S12 : 0 <= sm < 2 ^ 12) by lia.
      destruct (word1 X sm g HX S12 HG) as (A & B & C & D). split; [exact A|].
      assert (H2 : Z.lor (2 ^ 31) (Z.shiftl (f64_man23 mn) 8) = 2 ^ 31 + w_man lo * 2 ^ 8).
      { rewrite FMN. change (2 ^ 31) with (Z.shiftl 1 31) at 1. rewrite Z.shiftl_mul_pow2 with (a := w_man lo) by lia. rewrite lor_add by lia. reflexivity. }
      rewrite H2. split; [unfold inr32; lia|]. split; [exact B|].
      assert (EW : header_min (Z.lor (Z.shiftl X 16 mod 2 ^ 32) (Z.lor (Z.shiftl sm 4 mod 2 ^ 32) g)) (2 ^ 31 + w_man lo * 2 ^ 8) = lo).
      { unfold header_min. cbv zeta. rewrite C, D. rewrite (proj2 (Z.eqb_neq (2 ^ 31 + w_man lo * 2 ^ 8) 0)) by lia. cbn [orb].
        rewrite (proj2 (Z.ltb_ge sm 849)) by lia.
        assert (LM : Z.land (Z.shiftr (2 ^ 31 + w_man lo * 2 ^ 8) 8) 0x7fffff = w_man lo).
        { rewrite Z.shiftr_div_pow2 by lia. replace (2 ^ 31 + w_man lo * 2 ^ 8) with ((2 ^ 23 + w_man lo) * 2 ^ 8) by lia. rewrite Z.div_mul by lia.
          change 0x7fffff with (2 ^ 23 - 1). rewrite land_low by lia. replace (2 ^ 23 + w_man lo) with (w_man lo + 1 * 2 ^ 23) by lia.
          rewrite Z_mod_plus_full. apply Z.mod_small. lia. }
        rewrite LM. replace (sm + 127 - 1024 + 48) with (w_exp lo) by lia. rewrite (Z.mod_small (w_exp lo)) by lia. unfold g. rewrite SG'.
        symmetry. apply word_fields. apply FL. }
      rewrite EW. split; [exact FL|]. split; [rewrite Rminus_diag_eq, Rabs_R0 by reflexivity; apply bpow_ge_0|]. split; [exact BL|reflexivity].
Qed.
