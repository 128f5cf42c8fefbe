(** Double precision arithmetic seen as real numbers: the operations of Flo.v and
    FloatField.v without overflow. *)
From Coq Require Import ZArith List Bool Lia Reals Lra.
From Flocq Require Import Core BinarySingleNaN Relative Mult_error.
From Verif Require Import Bits BitIO Flo FloatPack FloatWords FloatField.
Import ListNotations.
Open Scope Z_scope.
Open Scope opt_scope.

#[export] Instance prec53 : Prec_gt_0 53 := p53.
#[export] Instance prec24 : Prec_gt_0 24 := p24.
#[export] Instance fexp53_valid : Valid_exp (SpecFloat.fexp 53 1024) := @fexp_correct 53 1024 p53.
Notation fmt32 := (generic_format radix2 (SpecFloat.fexp 24 128)).
Notation fmt64 := (generic_format radix2 (SpecFloat.fexp 53 1024)).

Definition is64 (x : f64) (v : R) : Prop := r64 x = v /\ is_finite x = true.

Lemma is64_fmt x v : is64 x v -> fmt64 v.
Proof. intros [<- _]. apply (@generic_format_B2R 53 1024). Qed.

(** Rounding is monotone and keeps powers of 2, so bounds by powers of 2 hold. *)
Lemma rnd64_bound v k : -1074 <= k -> (Rabs v <= bpow radix2 k)%R -> (Rabs (rnd64 v) <= bpow radix2 k)%R.
Proof.
  intros K H. apply abs_round_le_generic; [apply fexp53_valid|apply valid_rnd_N| |exact H].
  apply generic_format_bpow. unfold SpecFloat.fexp, SpecFloat.emin. lia.
Qed.
Lemma rnd32_bound v k : -149 <= k -> (Rabs v <= bpow radix2 k)%R -> (Rabs (rnd32 v) <= bpow radix2 k)%R.
Proof.
  intros K H. apply abs_round_le_generic; [apply fexp24_valid|apply valid_rnd_N| |exact H].
  apply generic_format_bpow. unfold SpecFloat.fexp, SpecFloat.emin. lia.
Qed.
Lemma rnd64_le x y : (x <= y)%R -> (rnd64 x <= rnd64 y)%R.
Proof. apply round_le; [apply fexp53_valid|apply valid_rnd_N]. Qed.
Lemma rnd32_le x y : (x <= y)%R -> (rnd32 x <= rnd32 y)%R.
Proof. apply round_le; [apply fexp24_valid|apply valid_rnd_N]. Qed.
Lemma rnd64_id v : fmt64 v -> rnd64 v = v.
Proof. intros H. apply round_generic; [apply valid_rnd_N|exact H]. Qed.
Lemma rnd32_id v : fmt32 v -> rnd32 v = v.
Proof. intros H. apply round_generic; [apply valid_rnd_N|exact H]. Qed.

Lemma bpow_small k : k <= 1023 -> (bpow radix2 k < bpow radix2 1024)%R.
Proof. intros H. apply bpow_lt. lia. Qed.

Lemma f64_sub_ok x y a b : is64 x a -> is64 y b -> (Rabs (a - b) <= bpow radix2 1000)%R -> is64 (f64_sub x y) (rnd64 (a - b)).
Proof.
  intros [<- FX] [<- FY] H. pose proof (@Bminus_correct 53 1024 p53 e1024 mode_NE x y FX FY) as C. unfold r64 in *. cbn [round_mode] in C.
  rewrite Rlt_bool_true in C.
  - destruct C as (A & B & _). split; [exact A|exact B].
  - eapply Rle_lt_trans; [apply (rnd64_bound _ 1000); [lia|exact H]|apply bpow_small; lia].
Qed.
Lemma f64_add_ok x y a b : is64 x a -> is64 y b -> (Rabs (a + b) <= bpow radix2 1000)%R -> is64 (f64_add x y) (rnd64 (a + b)).
Proof.
  intros [<- FX] [<- FY] H. pose proof (@Bplus_correct 53 1024 p53 e1024 mode_NE x y FX FY) as C. unfold r64 in *. cbn [round_mode] in C.
  rewrite Rlt_bool_true in C.
  - destruct C as (A & B & _). split; [exact A|exact B].
  - eapply Rle_lt_trans; [apply (rnd64_bound _ 1000); [lia|exact H]|apply bpow_small; lia].
Qed.
Lemma f64_mul_ok x y a b : is64 x a -> is64 y b -> (Rabs (a * b) <= bpow radix2 1000)%R -> is64 (f64_mul x y) (rnd64 (a * b)).
Proof.
  intros [<- FX] [<- FY] H. pose proof (@Bmult_correct 53 1024 p53 e1024 mode_NE x y) as C. unfold r64 in *. cbn [round_mode] in C.
  rewrite Rlt_bool_true in C.
  - destruct C as (A & B & _). split; [exact A|]. unfold f64_mul. rewrite B, FX, FY. reflexivity.
  - eapply Rle_lt_trans; [apply (rnd64_bound _ 1000); [lia|exact H]|apply bpow_small; lia].
Qed.
Lemma f64_div_ok x y a b : is64 x a -> is64 y b -> b <> 0%R -> (Rabs (a / b) <= bpow radix2 1000)%R -> is64 (f64_div x y) (rnd64 (a / b)).
Proof.
  intros [<- FX] [<- FY] N H. pose proof (@Bdiv_correct 53 1024 p53 e1024 mode_NE x y N) as C. unfold r64 in *. cbn [round_mode] in C.
  rewrite Rlt_bool_true in C.
  - destruct C as (A & B & _). split; [exact A|]. unfold f64_div. rewrite B. exact FX.
  - eapply Rle_lt_trans; [apply (rnd64_bound _ 1000); [lia|exact H]|apply bpow_small; lia].
Qed.

(** Integers and powers of 2. *)
Lemma f64_lit_ok m e : fmt64 (IZR m * bpow radix2 e) -> (Rabs (IZR m * bpow radix2 e) <= bpow radix2 1000)%R -> is64 (f64_lit m e) (IZR m * bpow radix2 e).
Proof.
  intros G H. pose proof (binary_normalize_correct 53 1024 p53 e1024 mode_NE m e false) as C. cbv zeta in C. cbn [round_mode] in C.
  change (F2R (Float radix2 m e)) with (IZR m * bpow radix2 e)%R in C.
  rewrite rnd64_id in C by exact G. rewrite Rlt_bool_true in C by (eapply Rle_lt_trans; [exact H|apply bpow_small; lia]).
  destruct C as (A & B & _). split; [exact A|exact B].
Qed.
Lemma fmt64_int n : Z.abs n < 2 ^ 53 -> fmt64 (IZR n).
Proof.
  intros L. replace (IZR n) with (F2R (Float radix2 n 0)) by (unfold F2R; cbn; lra).
  apply generic_format_FLT. exists (Float radix2 n 0); [reflexivity|exact L|cbn; lia].
Qed.
Lemma abs_int_bound n k : 0 <= k -> Z.abs n <= 2 ^ k -> (Rabs (IZR n) <= bpow radix2 k)%R.
Proof.
  intros K L. rewrite <- abs_IZR, <- IZR_Zpower by exact K. apply IZR_le. exact L.
Qed.
Lemma f64_of_ok n : Z.abs n < 2 ^ 53 -> is64 (f64_of n) (IZR n).
Proof.
  intros L. replace (IZR n) with (IZR n * bpow radix2 0)%R by (cbn; lra). apply f64_lit_ok.
  - replace (IZR n * bpow radix2 0)%R with (IZR n) by (cbn; lra). apply fmt64_int. exact L.
  - replace (IZR n * bpow radix2 0)%R with (IZR n) by (cbn; lra).
    eapply Rle_trans; [apply (abs_int_bound n 53); [lia|lia]|apply bpow_le; lia].
Qed.
Lemma f64_pow2_ok k : -1000 <= k <= 1000 -> is64 (f64_pow2 k) (bpow radix2 k).
Proof.
  intros K. unfold f64_pow2. replace (bpow radix2 k) with (IZR 1 * bpow radix2 k)%R by lra. apply f64_lit_ok.
  - rewrite Rmult_1_l. apply generic_format_bpow. unfold SpecFloat.fexp, SpecFloat.emin. lia.
  - rewrite Rmult_1_l, Rabs_pos_eq by apply bpow_ge_0. apply bpow_le. lia.
Qed.

(** Scaling by a power of 2 is exact away from the smallest numbers. *)
Lemma fmt64_scale v j k : fmt64 v -> (bpow radix2 j <= Rabs v)%R -> -1021 <= j + k -> fmt64 (v * bpow radix2 k).
Proof.
  intros G H K. apply (mult_bpow_exact_FLT radix2 (-1074) 53).
  - exact G.
  - replace j with (j + 1 - 1) in H by lia. apply mag_ge_bpow in H. lia.
Qed.

(** Relative and absolute error of a rounding. *)
Lemma rnd64_rel v : (bpow radix2 (-1022) <= Rabs v)%R -> (Rabs (rnd64 v - v) <= bpow radix2 (-53) * Rabs v)%R.
Proof.
  intros H. pose proof (relative_error_N_FLT radix2 (-1074) 53 ltac:(lia) (fun x => negb (Z.even x)) v) as E.
  change (-1074 + 53 - 1) with (-1022) in E. specialize (E H).
  replace (bpow radix2 (-53)) with (/ 2 * bpow radix2 (-53 + 1))%R; [exact E|].
  rewrite bpow_plus. change (bpow radix2 1) with 2%R. lra.
Qed.
Lemma rnd64_err v : (Rabs (rnd64 v - v) <= bpow radix2 (-53) * Rabs v + bpow radix2 (-1022))%R.
Proof.
  destruct (Rle_or_lt (bpow radix2 (-1022)) (Rabs v)) as [L|L].
  - pose proof (rnd64_rel v L). pose proof (bpow_ge_0 radix2 (-1022)). lra.
  - assert (H : (Rabs (rnd64 v - v) <= / 2 * ulp radix2 (SpecFloat.fexp 53 1024) v)%R).
    { apply error_le_half_ulp. apply fexp53_valid. }
    assert (U : (ulp radix2 (SpecFloat.fexp 53 1024) v <= bpow radix2 (-1022))%R).
    { change (SpecFloat.fexp 53 1024) with (FLT_exp (-1074) 53). destruct (Req_dec v 0) as [->|N].
      - rewrite (ulp_FLT_0 radix2 (-1074) 53). apply bpow_le. lia.
      - rewrite (ulp_FLT_small radix2 (-1074) 53); [apply bpow_le; lia|].
        eapply Rlt_le_trans; [exact L|]. apply bpow_le. lia. }
    pose proof (Rabs_pos v). pose proof (bpow_ge_0 radix2 (-53)). pose proof (bpow_ge_0 radix2 (-1022)). nra.
Qed.
Lemma rnd32_err v : (Rabs (rnd32 v - v) <= bpow radix2 (-24) * Rabs v + bpow radix2 (-149))%R.
Proof.
  destruct (Rle_or_lt (bpow radix2 (-126)) (Rabs v)) as [L|L].
  - pose proof (rel32 v L). pose proof (bpow_ge_0 radix2 (-149)). lra.
  - assert (H : (Rabs (rnd32 v - v) <= / 2 * ulp radix2 (SpecFloat.fexp 24 128) v)%R).
    { apply error_le_half_ulp. apply fexp24_valid. }
    assert (U : (ulp radix2 (SpecFloat.fexp 24 128) v <= bpow radix2 (-149))%R).
    { change (SpecFloat.fexp 24 128) with (FLT_exp (-149) 24). destruct (Req_dec v 0) as [->|N].
      - rewrite (ulp_FLT_0 radix2 (-149) 24). apply Rle_refl.
      - rewrite (ulp_FLT_small radix2 (-149) 24); [apply Rle_refl|].
        eapply Rlt_le_trans; [exact L|]. apply bpow_le. lia. }
    pose proof (Rabs_pos v). pose proof (bpow_ge_0 radix2 (-24)). pose proof (bpow_ge_0 radix2 (-149)). nra.
Qed.

(** Conversions. *)
Lemma fmt64_of_32 v : fmt32 v -> fmt64 v.
Proof.
  apply generic_inclusion_mag. intros _. unfold SpecFloat.fexp, SpecFloat.emin. lia.
Qed.
Lemma f32_fmt (x : f32) : fmt32 (r32 x).
Proof. apply (@generic_format_B2R 24 128). Qed.
Lemma f32_small (x : f32) : (Rabs (r32 x) <= bpow radix2 128)%R.
Proof. apply Rlt_le. apply abs_B2R_lt_emax. Qed.
Lemma widen_ok (x : f32) : is_finite x = true -> is64 (widen x) (r32 x).
Proof.
  intros F. destruct x as [s|s| |s m e B]; try discriminate.
  - split; reflexivity.
  - cbn [widen]. pose proof (f32_fmt (B754_finite s m e B)) as G. pose proof (f32_small (B754_finite s m e B)) as S.
    change (r32 (B754_finite s m e B)) with (IZR (cond_Zopp s (Zpos m)) * bpow radix2 e)%R in *.
    pose proof (binary_normalize_correct 53 1024 p53 e1024 mode_NE (if s then Zneg m else Zpos m) e s) as C. cbv zeta in C. cbn [round_mode] in C.
    assert (E : F2R (Float radix2 (if s then Zneg m else Zpos m) e) = (IZR (cond_Zopp s (Zpos m)) * bpow radix2 e)%R) by (destruct s; reflexivity).
    rewrite E in C. rewrite rnd64_id in C by (apply fmt64_of_32; exact G).
    rewrite Rlt_bool_true in C by (eapply Rle_lt_trans; [exact S|apply bpow_small; lia]).
    destruct C as (A1 & A2 & _). split; assumption.
Qed.
Lemma narrow_ok x v : is64 x v -> (Rabs v <= bpow radix2 127)%R -> r32 (narrow x) = rnd32 v /\ is_finite (narrow x) = true.
Proof.
  intros [<- F] S. destruct x as [s|s| |s m e B]; try discriminate.
  - unfold r64. cbn [narrow B2R r32]. rewrite rnd32_id by apply generic_format_0. split; reflexivity.
  - cbn [narrow].
    change (r64 (B754_finite s m e B)) with (IZR (cond_Zopp s (Zpos m)) * bpow radix2 e)%R in *.
    pose proof (binary_normalize_correct 24 128 p24 e128 mode_NE (if s then Zneg m else Zpos m) e s) as C. cbv zeta in C. cbn [round_mode] in C.
    assert (E : F2R (Float radix2 (if s then Zneg m else Zpos m) e) = (IZR (cond_Zopp s (Zpos m)) * bpow radix2 e)%R) by (destruct s; reflexivity).
    rewrite E in C. rewrite Rlt_bool_true in C.
    + destruct C as (A1 & A2 & _). split; assumption.
    + eapply Rle_lt_trans; [apply (rnd32_bound _ 127); [lia|exact S]|apply bpow_lt; lia].
Qed.

(** The exponent field. *)
Lemma f64_mantissa m e (B : SpecFloat.bounded 53 1024 m e = true) :
  (2 ^ 52 <= Zpos m < 2 ^ 53 /\ -1074 <= e) \/ (Zpos m < 2 ^ 52 /\ e = -1074).
Proof.
  unfold SpecFloat.bounded in B. apply andb_prop in B as [BB1 BB2].
  unfold SpecFloat.canonical_mantissa in BB1. apply Zeq_bool_eq in BB1.
  rewrite Zpos_digits2_pos in BB1. unfold SpecFloat.fexp, SpecFloat.emin in BB1.
  pose proof (Zdigits_correct radix2 (Zpos m)) as [D1 D2]. rewrite Z.abs_eq in D1, D2 by lia.
  set (d := Zdigits radix2 (Zpos m)) in *. clearbody d.
  change (radix2 ^ (d - 1)) with (2 ^ (d - 1)) in D1. change (radix2 ^ d) with (2 ^ d) in D2.
  destruct (Z.le_gt_cases d 52) as [L|L].
  - right. assert (2 ^ d <= 2 ^ 52) by (apply Z.pow_le_mono_r; lia). split; lia.
  - left. assert (2 ^ 52 <= 2 ^ (d - 1)) by (apply Z.pow_le_mono_r; lia). assert (d = 53) by lia. subst d. lia.
Qed.
Lemma f64_expo_ok x v : is64 x v -> (bpow radix2 (-1000) <= Rabs v)%R ->
  0 < f64_expo x /\ (bpow radix2 (f64_expo x - 1023) <= Rabs v < bpow radix2 (f64_expo x - 1022))%R.
Proof.
  intros [<- F] H. destruct x as [s|s| |s m e B]; try discriminate.
  - exfalso. unfold r64 in H. cbn [B2R] in H. rewrite Rabs_R0 in H. pose proof (bpow_gt_0 radix2 (-1000)). lra.
  - cbn [f64_expo]. unfold r64 in *. cbn [B2R] in *.
    assert (E : Rabs (F2R (Float radix2 (cond_Zopp s (Zpos m)) e)) = (IZR (Zpos m) * bpow radix2 e)%R).
    { rewrite <- F2R_Zabs. unfold F2R. cbn [Fnum Fexp]. destruct s; reflexivity. }
    rewrite E in *. pose proof (bpow_gt_0 radix2 e) as P.
    destruct (f64_mantissa m e B) as [[L1 L2]|[L1 L2]].
    + rewrite (proj2 (Z.leb_le _ _)) by lia. split; [lia|].
      replace (e + 1075 - 1023) with (52 + e) by lia. replace (e + 1075 - 1022) with (53 + e) by lia. rewrite !bpow_plus.
      split; [apply Rmult_le_compat_r; [lra|]|apply Rmult_lt_compat_r; [lra|]].
      * change (bpow radix2 52) with (IZR (2 ^ 52)). apply IZR_le. lia.
      * change (bpow radix2 53) with (IZR (2 ^ 53)). apply IZR_lt. lia.
    + exfalso. subst e. assert (IZR (Zpos m) < bpow radix2 52)%R by (change (bpow radix2 52) with (IZR (2 ^ 52)); apply IZR_lt; lia).
      assert (bpow radix2 52 * bpow radix2 (-1074) <= bpow radix2 (-1000))%R by (rewrite <- bpow_plus; apply bpow_le; lia). nra.
Qed.
Lemma f64_expo_0 x : is64 x 0 -> f64_expo x = 0.
Proof.
  intros [E F]. destruct x as [s|s| |s m e B]; try discriminate; [reflexivity|].
  exfalso. unfold r64 in E. cbn [B2R] in E. apply eq_0_F2R in E. destruct s; discriminate.
Qed.

(** The fields of a number of 24 significant bits. *)
Lemma f64_fields x (s : bool) k j : is64 x (IZR (if s then - (2 ^ 23 + k) else 2 ^ 23 + k) * bpow radix2 j) -> 0 <= k < 2 ^ 23 -> -900 <= j ->
  f64_expo x = j + 1046 /\ f64_man23 x = k.
Proof.
  intros H K J.
  assert (A : (Rabs (IZR (if s then - (2 ^ 23 + k) else 2 ^ 23 + k) * bpow radix2 j) = IZR (2 ^ 23 + k) * bpow radix2 j)%R).
  { rewrite Rabs_mult, (Rabs_pos_eq (bpow radix2 j)) by apply bpow_ge_0. f_equal. rewrite <- abs_IZR. f_equal. destruct s; lia. }
  pose proof (bpow_gt_0 radix2 j) as P.
  assert (Q1 : (bpow radix2 (23 + j) <= IZR (2 ^ 23 + k) * bpow radix2 j)%R).
  { rewrite bpow_plus. apply Rmult_le_compat_r; [lra|]. change (bpow radix2 23) with (IZR (2 ^ 23)). apply IZR_le. lia. }
  assert (Q2 : (IZR (2 ^ 23 + k) * bpow radix2 j < bpow radix2 (24 + j))%R).
  { rewrite bpow_plus. apply Rmult_lt_compat_r; [lra|]. change (bpow radix2 24) with (IZR (2 ^ 24)). apply IZR_lt. lia. }
  destruct (f64_expo_ok x _ H) as (E0 & E1 & E2).
  { rewrite A. eapply Rle_trans; [|exact Q1]. apply bpow_le. lia. }
  rewrite A in E1, E2.
  assert (EX : f64_expo x = j + 1046).
  { assert (bpow radix2 (f64_expo x - 1023) < bpow radix2 (24 + j))%R by lra.
    assert (bpow radix2 (23 + j) < bpow radix2 (f64_expo x - 1022))%R by lra.
    apply lt_bpow in H0. apply lt_bpow in H1. lia. }
  split; [exact EX|]. destruct H as [H F]. destruct x as [t|t| |t m e B]; try discriminate.
  clear E0 E1 E2. unfold f64_expo in EX. unfold f64_man23.
  destruct (2 ^ 52 <=? Zpos m) eqn:L; [|lia]. apply Z.leb_le in L.
  assert (e = j - 29) by lia. subst e. apply (f_equal Rabs) in H. rewrite A in H. unfold r64 in H. cbn [B2R] in H.
  rewrite <- F2R_Zabs in H. unfold F2R in H. cbn [Fnum Fexp] in H.
  replace (Z.abs (cond_Zopp t (Zpos m))) with (Zpos m) in H by (destruct t; reflexivity).
  replace j with (29 + (j - 29)) in H at 2 by lia. rewrite bpow_plus, <- Rmult_assoc in H.
  apply Rmult_eq_reg_r in H; [|pose proof (bpow_gt_0 radix2 (j - 29)); lra].
  change (bpow radix2 29) with (IZR (2 ^ 29)) in H. rewrite <- mult_IZR in H. apply eq_IZR in H. rewrite H.
  replace ((2 ^ 23 + k) * 2 ^ 29) with (k * 2 ^ 29 + 1 * 2 ^ 52) by lia. rewrite Z_mod_plus_full.
  rewrite Z.mod_small by lia. apply Z.div_mul. lia.
Qed.

(** Truncation of a non negative number. *)
Lemma f64_u32_ok x v n : is64 x v -> 0 <= n < 2 ^ 32 -> (IZR n <= v < IZR n + 1)%R -> f64_u32 x = Some n.
Proof.
  intros [E F] N H. unfold f64_u32. rewrite F. cbv zeta.
  assert (T : Btrunc x = n).
  { apply eq_IZR. rewrite (@Btrunc_correct 53 1024 e1024). fold (r64 x). rewrite E.
    unfold round, F2R, scaled_mantissa, cexp, FIX_exp. cbn [Fnum Fexp bpow Z.opp]. rewrite !Rmult_1_r. f_equal.
    rewrite Ztrunc_floor by (assert (0 <= IZR n)%R by (apply IZR_le; lia); lra).
    apply Zfloor_imp. rewrite plus_IZR. exact H. }
  rewrite T. rewrite (proj2 (Z.leb_le _ _)), (proj2 (Z.ltb_lt _ _)) by lia. cbn [andb]. rewrite Z.mod_small by lia. reflexivity.
Qed.
