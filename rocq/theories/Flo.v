(** Binary floating-point numbers: single and double precision, rounding to
    nearest, as the code of /repo uses them through the compiler. The operations
    are Flocq's. Double rounding and contraction by the compiler are excluded. *)
From Coq Require Import ZArith Reals Bool Lia Lra Psatz.
From Flocq Require Import Core BinarySingleNaN Relative.
Open Scope Z_scope.

Definition f32 : Set := binary_float 24 128.
Definition f64 : Set := binary_float 53 1024.
Definition p24 : Prec_gt_0 24 := eq_refl.
Definition e128 : Prec_lt_emax 24 128 := eq_refl.
Definition p53 : Prec_gt_0 53 := eq_refl.
Definition e1024 : Prec_lt_emax 53 1024 := eq_refl.

(** An integer converted, a product, a quotient, a sum, a difference. *)
Definition f32_of (n : Z) : f32 := binary_normalize 24 128 p24 e128 mode_NE n 0 false.
Definition f32_lit (m e : Z) : f32 := binary_normalize 24 128 p24 e128 mode_NE m e false.
Definition f32_mul (x y : f32) : f32 := @Bmult 24 128 p24 e128 mode_NE x y.
Definition f32_div (x y : f32) : f32 := @Bdiv 24 128 p24 e128 mode_NE x y.
Definition f32_add (x y : f32) : f32 := @Bplus 24 128 p24 e128 mode_NE x y.
Definition f32_sub (x y : f32) : f32 := @Bminus 24 128 p24 e128 mode_NE x y.
Definition f64_of (n : Z) : f64 := binary_normalize 53 1024 p53 e1024 mode_NE n 0 false.
Definition f64_lit (m e : Z) : f64 := binary_normalize 53 1024 p53 e1024 mode_NE m e false.
Definition f64_mul (x y : f64) : f64 := @Bmult 53 1024 p53 e1024 mode_NE x y.
Definition f64_div (x y : f64) : f64 := @Bdiv 53 1024 p53 e1024 mode_NE x y.
Definition f64_add (x y : f64) : f64 := @Bplus 53 1024 p53 e1024 mode_NE x y.
Definition f64_sub (x y : f64) : f64 := @Bminus 53 1024 p53 e1024 mode_NE x y.

(** Equality and order as the processor sees them: not a number compares to
    nothing, the two zeros are equal. *)
Definition f32_eqb (x y : f32) : bool := Beqb x y.
Definition f32_ltb (x y : f32) : bool := Bltb x y.
Definition f64_ltb (x y : f64) : bool := Bltb x y.

(** The nearest integer, halves away from zero (NINT, round); undefined when it
    is not a 32-bit integer. *)
Definition nint (x : f32) : option Z :=
  if is_finite x then
    let n := Btrunc (@Bnearbyint 24 128 e128 mode_NA x) in
    if (- 2 ^ 31 <=? n) && (n <? 2 ^ 31) then Some n else None
  else None.

(** The truncation (int); undefined when it is not a 32-bit integer. *)
Definition f32_int (x : f32) : option Z :=
  if is_finite x then
    let n := Btrunc x in
    if (- 2 ^ 31 <=? n) && (n <? 2 ^ 31) then Some n else None
  else None.
Definition f64_int (x : f64) : option Z :=
  if is_finite x then
    let n := Btrunc x in
    if (- 2 ^ 31 <=? n) && (n <? 2 ^ 31) then Some n else None
  else None.

Definition r32 (x : f32) : R := B2R x.
Definition r64 (x : f64) : R := B2R x.
Notation rnd32 := (round radix2 (SpecFloat.fexp 24 128) ZnearestE).
Notation rnd64 := (round radix2 (SpecFloat.fexp 53 1024) ZnearestE).

Lemma f32_mul_ok x y : (Rabs (rnd32 (r32 x * r32 y)) < bpow radix2 128)%R -> is_finite x = true -> is_finite y = true ->
  r32 (f32_mul x y) = rnd32 (r32 x * r32 y) /\ is_finite (f32_mul x y) = true.
Proof.
  intros H FX FY. pose proof (@Bmult_correct 24 128 p24 e128 mode_NE x y) as C.
  unfold r32 in *. cbn [round_mode] in C. rewrite Rlt_bool_true in C by exact H.
  destruct C as (A & B & _). split; [exact A|]. unfold f32_mul. rewrite B, FX, FY. reflexivity.
Qed.
Lemma f32_div_ok x y : r32 y <> 0%R -> (Rabs (rnd32 (r32 x / r32 y)) < bpow radix2 128)%R -> is_finite x = true ->
  r32 (f32_div x y) = rnd32 (r32 x / r32 y) /\ is_finite (f32_div x y) = true.
Proof.
  intros D H FX. pose proof (@Bdiv_correct 24 128 p24 e128 mode_NE x y D) as C.
  unfold r32 in *. cbn [round_mode] in C. rewrite Rlt_bool_true in C by exact H.
  destruct C as (A & B & _). split; [exact A|]. unfold f32_div. rewrite B. exact FX.
Qed.

#[export] Instance fexp24_valid : Valid_exp (SpecFloat.fexp 24 128) := @fexp_correct 24 128 p24.

Lemma f32_of_ok n : Z.abs n <= 2 ^ 24 -> r32 (f32_of n) = IZR n /\ is_finite (f32_of n) = true.
Proof.
  intros L. pose proof (binary_normalize_correct 24 128 p24 e128 mode_NE n 0 false) as C. cbv zeta in C. cbn [round_mode] in C.
  assert (V : F2R (Float radix2 n 0) = IZR n) by (unfold F2R; cbn; lra).
  rewrite V in C.
  assert (G : generic_format radix2 (SpecFloat.fexp 24 128) (IZR n)).
  { destruct (Z.eq_dec (Z.abs n) (2 ^ 24)) as [E|E].
    - assert (X : generic_format radix2 (SpecFloat.fexp 24 128) (bpow radix2 24)).
      { apply generic_format_bpow. cbv. discriminate. }
      change (bpow radix2 24) with (IZR (2 ^ 24)) in X.
      destruct (Z.abs_eq_or_opp n) as [Q|Q]; rewrite Q in E.
      + rewrite E. exact X.
      + assert (n = - 2 ^ 24) as -> by lia. rewrite opp_IZR. apply generic_format_opp. exact X.
    - rewrite <- V. apply generic_format_FLT. exists (Float radix2 n 0); [reflexivity| |].
      + cbn [Fnum]. change (2 ^ 24) with (radix2 ^ 24) in *. change (Zpower radix2 24) with (2 ^ 24) in *. lia.
      + cbn. lia. }
  rewrite round_generic in C; [|apply valid_rnd_N|exact G].
  rewrite Rlt_bool_true in C.
  - destruct C as (A & B & _). split; assumption.
  - rewrite <- abs_IZR. change (bpow radix2 128) with (IZR (2 ^ 128)). apply IZR_lt. lia.
Qed.

Lemma rel32 x : (bpow radix2 (-126) <= Rabs x)%R -> (Rabs (rnd32 x - x) <= bpow radix2 (-24) * Rabs x)%R.
Proof.
  intros H. pose proof (relative_error_N_FLT radix2 (-149) 24 ltac:(lia) (fun x => negb (Z.even x)) x) as E.
  change (-149 + 24 - 1) with (-126) in E. specialize (E H).
  replace (bpow radix2 (-24)) with (/ 2 * bpow radix2 (-24 + 1))%R; [exact E|].
  rewrite bpow_plus. change (bpow radix2 1) with 2%R. lra.
Qed.

Lemma abs32 x : (Rabs (rnd32 x) <= Rabs x * (1 + bpow radix2 (-24)) + bpow radix2 (-126))%R.
Proof.
  assert (0 < bpow radix2 (-126))%R by apply bpow_gt_0. assert (0 < bpow radix2 (-24))%R by apply bpow_gt_0.
  pose proof (Rabs_pos x).
  destruct (Rle_or_lt (bpow radix2 (-126)) (Rabs x)) as [L|L].
  - pose proof (rel32 x L) as E. pose proof (Rabs_triang (rnd32 x - x) x) as T.
    replace (rnd32 x - x + x)%R with (rnd32 x) in T by lra. lra.
  - assert (Rabs (rnd32 x) <= bpow radix2 (-126))%R.
    { apply abs_round_le_generic; [apply fexp24_valid|apply valid_rnd_N| |lra].
      apply generic_format_bpow. cbv. discriminate. }
    nra.
Qed.

Lemma nint_ok x n : is_finite x = true -> (Rabs (r32 x - IZR n) < /2)%R -> Z.abs n < 2 ^ 31 -> nint x = Some n.
Proof.
  intros F H L. unfold nint. rewrite F. cbv zeta.
  assert (E : Btrunc (@Bnearbyint 24 128 e128 mode_NA x) = n).
  { apply eq_IZR. rewrite (@Btrunc_correct 24 128 e128).
    destruct (@Bnearbyint_correct 24 128 e128 mode_NA x) as (A & _ & _). rewrite A. cbn [round_mode].
    assert (Q : round radix2 (FIX_exp 0) ZnearestA (B2R x) = IZR n).
    { unfold round, F2R, scaled_mantissa, cexp, FIX_exp. cbn [Fnum Fexp bpow Z.opp].
      rewrite Rmult_1_r, Rmult_1_r. f_equal. apply Znearest_imp. exact H. }
    rewrite Q. apply round_generic; [apply valid_rnd_ZR|].
    apply generic_format_FIX. exists (Float radix2 n 0); [unfold F2R; cbn; lra|reflexivity]. }
  rewrite E. assert (((- 2 ^ 31 <=? n) && (n <? 2 ^ 31))%bool = true) as ->; [|reflexivity].
  apply andb_true_intro. split; [apply Z.leb_le|apply Z.ltb_lt]; lia.
Qed.

(** What the nearest integer is, seen from its result. *)
Lemma nint_inv x n : nint x = Some n -> is_finite x = true /\ (Rabs (r32 x - IZR n) <= /2)%R /\ - 2 ^ 31 <= n < 2 ^ 31.
Proof.
  unfold nint. destruct (is_finite x) eqn:F; [|discriminate]. cbv zeta. intros H.
  destruct ((- 2 ^ 31 <=? Btrunc (@Bnearbyint 24 128 e128 mode_NA x)) && (Btrunc (@Bnearbyint 24 128 e128 mode_NA x) <? 2 ^ 31))%bool eqn:E; [|discriminate].
  assert (Btrunc (@Bnearbyint 24 128 e128 mode_NA x) = n) as X by congruence. rewrite X in E.
  apply andb_prop in E as [E1 E2]. apply Z.leb_le in E1. apply Z.ltb_lt in E2.
  split; [reflexivity|]. split; [|lia].
  apply (f_equal IZR) in X. rewrite (@Btrunc_correct 24 128 e128) in X.
  destruct (@Bnearbyint_correct 24 128 e128 mode_NA x) as (A & _ & _). rewrite A in X. cbn [round_mode] in X.
  assert (Q : round radix2 (FIX_exp 0) ZnearestA (B2R x) = IZR (ZnearestA (B2R x))).
  { unfold round, F2R, scaled_mantissa, cexp, FIX_exp. cbn [Fnum Fexp bpow Z.opp].
    rewrite Rmult_1_r, Rmult_1_r. reflexivity. }
  rewrite Q in X. rewrite round_generic in X; [|apply valid_rnd_ZR|].
  - rewrite <- X. unfold r32. apply Znearest_half.
  - apply generic_format_FIX. exists (Float radix2 (ZnearestA (B2R x)) 0); [unfold F2R; cbn; lra|reflexivity].
Qed.

(** A positive number between two powers of 2, by computation. *)
Definition f32_between (lo hi : Z) (x : f32) : bool :=
  match x with
  | B754_finite false m e _ => (lo <=? Z.log2 (Zpos m) + e) && (Z.log2 (Zpos m) + e + 1 <=? hi)
  | _ => false
  end.
Lemma f32_between_ok lo hi x : f32_between lo hi x = true -> is_finite x = true /\ (bpow radix2 lo <= r32 x <= bpow radix2 hi)%R.
Proof.
  destruct x as [s|s| |s m e B]; try discriminate. destruct s; [discriminate|]. cbn [f32_between is_finite].
  intros H. apply andb_prop in H as [H1 H2]. apply Z.leb_le in H1. apply Z.leb_le in H2. split; [reflexivity|].
  unfold r32. cbn [B2R]. unfold F2R. cbn [Fnum Fexp cond_Zopp].
  pose proof (Z.log2_spec (Zpos m) ltac:(lia)) as [A1 A2]. pose proof (Z.log2_nonneg (Zpos m)).
  assert (P : (0 < bpow radix2 e)%R) by apply bpow_gt_0.
  assert (Q1 : (bpow radix2 (Z.log2 (Zpos m)) <= IZR (Zpos m))%R).
  { rewrite <- IZR_Zpower by lia. apply IZR_le. exact A1. }
  assert (Q2 : (IZR (Zpos m) <= bpow radix2 (Z.log2 (Zpos m) + 1))%R).
  { rewrite <- IZR_Zpower by lia. apply IZR_le. change (radix2 ^ (Z.log2 (Zpos m) + 1)) with (2 ^ (Z.log2 (Zpos m) + 1)).
    replace (Z.log2 (Zpos m) + 1) with (Z.succ (Z.log2 (Zpos m))) by lia. change (Z.pow 2) with (Z.pow radix2) in *. lia. }
  split.
  - apply Rle_trans with (bpow radix2 (Z.log2 (Zpos m) + e)); [apply bpow_le; lia|].
    rewrite bpow_plus. apply Rmult_le_compat_r; [lra|exact Q1].
  - apply Rle_trans with (bpow radix2 (Z.log2 (Zpos m) + 1 + e)); [|apply bpow_le; lia].
    rewrite bpow_plus. apply Rmult_le_compat_r; [lra|exact Q2].
Qed.
