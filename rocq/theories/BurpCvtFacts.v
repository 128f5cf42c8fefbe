(** Facts on the conversions of BurpCvt.v. *)
From Coq Require Import ZArith List Bool Lia Reals Lra Psatz.
From Flocq Require Import Core BinarySingleNaN Relative.
From Verif Require Import Bits BitIO Xdf BurpTbl BurpTblFacts Flo BurpCvt.
Import ListNotations.
Open Scope Z_scope.
Open Scope opt_scope.

(** A scale the theorems are about: between 2^-60 and 2^60. *)
Definition scale_ok (e : f32) : Prop := is_finite e = true /\ (bpow radix2 (-60) <= r32 e <= bpow radix2 60)%R.
(** A real number that can stand for missing values. *)
Definition missing_ok (m : f32) : Prop := is_finite m = true /\ (bpow radix2 96 <= r32 m)%R.

Lemma int32_ok n : - 2 ^ 31 <= n < 2 ^ 31 -> int32 n = Some n.
Proof.
  intros H. unfold int32. assert (((- 2 ^ 31 <=? n) && (n <? 2 ^ 31)) = true) as ->; [|reflexivity].
  apply andb_true_intro. split; [apply Z.leb_le|apply Z.ltb_lt]; lia.
Qed.
Lemma int32_inv n m : int32 n = Some m -> m = n /\ - 2 ^ 31 <= n < 2 ^ 31.
Proof.
  unfold int32. destruct ((- 2 ^ 31 <=? n) && (n <? 2 ^ 31)) eqn:E; [|discriminate].
  apply andb_prop in E as [E1 E2]. apply Z.leb_le in E1. apply Z.ltb_lt in E2. intros H. split; [congruence|lia].
Qed.

Lemma u24 : bpow radix2 (-24) = (/ 16777216)%R.
Proof. reflexivity. Qed.

(** The value decoded from [s]. *)
Lemma quotient_ok e s : scale_ok e -> Z.abs s <= 2 ^ 24 ->
  is_finite (f32_div (f32_of s) e) = true /\
  (Rabs (r32 (f32_div (f32_of s) e) - IZR s / r32 e) <= bpow radix2 (-24) * Rabs (IZR s / r32 e))%R /\
  (Rabs (r32 (f32_div (f32_of s) e)) < bpow radix2 90)%R.
Proof.
  intros [FE [E1 E2]] L. destruct (f32_of_ok s L) as [V F].
  assert (P : (0 < bpow radix2 (-60))%R) by apply bpow_gt_0.
  assert (NZ : r32 e <> 0%R) by lra.
  assert (Q : (Rabs (rnd32 (IZR s / r32 e) - IZR s / r32 e) <= bpow radix2 (-24) * Rabs (IZR s / r32 e))%R).
  { destruct (Z.eq_dec s 0) as [->|D].
    - unfold Rdiv. rewrite Rmult_0_l, round_0 by apply valid_rnd_N. rewrite Rminus_0_r, Rabs_R0. lra.
    - apply rel32. unfold Rdiv. rewrite Rabs_mult, Rabs_inv, (Rabs_pos_eq (r32 e)) by lra.
      assert (1 <= Rabs (IZR s))%R by (rewrite <- abs_IZR; apply (IZR_le 1); lia).
      assert (bpow radix2 (-60) <= / r32 e)%R.
      { change (-60) with (- (60)). rewrite bpow_opp. apply Rinv_le; [lra|exact E2]. }
      assert (bpow radix2 (-126) <= bpow radix2 (-60))%R by (apply bpow_le; lia). nra. }
  assert (B : (Rabs (IZR s / r32 e) <= bpow radix2 84)%R).
  { unfold Rdiv. rewrite Rabs_mult, Rabs_inv, (Rabs_pos_eq (r32 e)) by lra.
    assert (Rabs (IZR s) <= bpow radix2 24)%R by (rewrite <- abs_IZR; change (bpow radix2 24) with (IZR (2 ^ 24)); apply IZR_le; lia).
    assert (/ r32 e <= bpow radix2 60)%R.
    { change 60 with (- (-60)). rewrite bpow_opp. apply Rinv_le; [exact P|exact E1]. }
    change 84 with (24 + 60). rewrite bpow_plus.
    apply Rmult_le_compat; [apply Rabs_pos|left; apply Rinv_0_lt_compat; lra|assumption|assumption]. }
  assert (C : (Rabs (rnd32 (IZR s / r32 e)) < bpow radix2 90)%R).
  { pose proof (Rabs_triang (rnd32 (IZR s / r32 e) - IZR s / r32 e) (IZR s / r32 e)) as T.
    replace (rnd32 (IZR s / r32 e) - IZR s / r32 e + IZR s / r32 e)%R with (rnd32 (IZR s / r32 e)) in T by lra.
    rewrite u24 in Q. pose proof (Rabs_pos (IZR s / r32 e)).
    change 90 with (84 + 6). rewrite bpow_plus. change (bpow radix2 6) with 64%R.
    assert (0 < bpow radix2 84)%R by apply bpow_gt_0. lra. }
  destruct (f32_div_ok (f32_of s) e NZ) as [A G]; [|exact F|].
  - rewrite V. eapply Rlt_trans; [exact C|]. apply bpow_lt. lia.
  - rewrite V in A. rewrite A. repeat split; assumption.
Qed.

(** The code of a value near [s / e]. *)
Lemma product_ok e s x : scale_ok e -> Z.abs s < 2 ^ 22 -> is_finite x = true ->
  (Rabs (r32 x - IZR s / r32 e) <= bpow radix2 (-24) * Rabs (IZR s / r32 e))%R -> nint (f32_mul x e) = Some s.
Proof.
  intros [FE [E1 E2]] L FX H.
  assert (P : (0 < bpow radix2 (-60))%R) by apply bpow_gt_0.
  set (X := r32 x) in *. set (e' := r32 e) in *. assert (E0 : (0 < e')%R) by lra.
  assert (HX : (Rabs (X * e' - IZR s) <= / 16777216 * Rabs (IZR s))%R).
  { replace (X * e' - IZR s)%R with ((X - IZR s / e') * e')%R by (field; lra).
    rewrite Rabs_mult, (Rabs_pos_eq e') by lra.
    replace (Rabs (IZR s)) with (Rabs (IZR s / e') * e')%R.
    - rewrite u24 in H. pose proof (Rmult_le_compat_r e' _ _ (Rlt_le _ _ E0) H). lra.
    - unfold Rdiv. rewrite Rabs_mult, Rabs_inv, (Rabs_pos_eq e') by lra. field. lra. }
  assert (LS : (Rabs (IZR s) <= 4194303)%R) by (rewrite <- abs_IZR; apply (IZR_le _ 4194303); lia).
  assert (HY : (Rabs (rnd32 (X * e') - X * e') <= / 16777216 * Rabs (X * e'))%R).
  { destruct (Z.eq_dec s 0) as [->|D].
    - rewrite Rabs_R0, Rmult_0_r, Rminus_0_r in HX. pose proof (Rabs_pos (X * e')).
      assert (Z0 : (X * e' = 0)%R) by (pose proof (Rle_abs (X * e')); pose proof (Rle_abs (- (X * e'))) as NN; rewrite Rabs_Ropp in NN; lra).
      rewrite Z0, round_0 by apply valid_rnd_N. rewrite Rminus_0_r, Rabs_R0. lra.
    - rewrite <- u24. apply rel32.
      assert (1 <= Rabs (IZR s))%R by (rewrite <- abs_IZR; apply (IZR_le 1); lia).
      pose proof (Rabs_triang_inv (IZR s) (X * e')) as T. rewrite Rabs_minus_sym in T.
      assert (bpow radix2 (-126) <= bpow radix2 (-1))%R by (apply bpow_le; lia).
      change (bpow radix2 (-1)) with (/ 2)%R in *.
      pose proof (Rabs_triang_inv (IZR s) (IZR s - X * e')) as T2.
      replace (IZR s - (IZR s - X * e'))%R with (X * e')%R in T2 by lra.
      rewrite (Rabs_minus_sym (IZR s) (X * e')) in T2. lra. }
  assert (BX : (Rabs (X * e') <= Rabs (IZR s) * (1 + / 16777216))%R).
  { pose proof (Rabs_triang (X * e' - IZR s) (IZR s)) as T.
    replace (X * e' - IZR s + IZR s)%R with (X * e')%R in T by lra. lra. }
  assert (N : (Rabs (rnd32 (X * e') - IZR s) < / 2)%R).
  { pose proof (Rabs_triang (rnd32 (X * e') - X * e') (X * e' - IZR s)) as T.
    replace (rnd32 (X * e') - X * e' + (X * e' - IZR s))%R with (rnd32 (X * e') - IZR s)%R in T by lra.
    pose proof (Rabs_pos (IZR s)). lra. }
  destruct (f32_mul_ok x e) as [A G]; [|exact FX|exact FE|].
  - fold X e'. pose proof (Rabs_triang (rnd32 (X * e') - IZR s) (IZR s)) as T.
    replace (rnd32 (X * e') - IZR s + IZR s)%R with (rnd32 (X * e')) in T by lra.
    assert (bpow radix2 23 <= bpow radix2 128)%R by (apply bpow_le; lia).
    change (bpow radix2 23) with 8388608%R in *. lra.
  - fold X e' in A. apply nint_ok; [exact G| |lia]. rewrite A. exact N.
Qed.

(** What a code stands for: negative ones are one below. *)
Definition unshift (v : Z) : Z := if v <? 0 then v + 1 else v.

Lemma decode_ok m e r v : scale_ok e -> v <> -1 -> Z.abs (unshift v + r) <= 2 ^ 24 ->
  exists x, decode m e r v = Some (unshift v, x) /\ is_finite x = true /\
    (Rabs (r32 x - IZR (unshift v + r) / r32 e) <= bpow radix2 (-24) * Rabs (IZR (unshift v + r) / r32 e))%R /\
    (Rabs (r32 x) < bpow radix2 90)%R.
Proof.
  intros S D L. unfold decode. assert ((v =? -1) = false) as -> by (apply Z.eqb_neq; exact D). cbv zeta. fold (unshift v).
  rewrite int32_ok by lia. cbn [bind]. eexists. split; [reflexivity|]. apply quotient_ok; assumption.
Qed.

Lemma not_missing m x : missing_ok m -> is_finite x = true -> (Rabs (r32 x) < bpow radix2 90)%R -> f32_eqb x m = false.
Proof.
  intros [FM M] FX H. unfold f32_eqb. rewrite Beqb_correct by assumption. apply Req_bool_false.
  fold (r32 x) (r32 m). intros E. rewrite E in H. pose proof (Rle_abs (r32 m)).
  assert (bpow radix2 90 < bpow radix2 96)%R by (apply bpow_lt; lia). lra.
Qed.

Lemma missing_refl m : missing_ok m -> f32_eqb m m = true.
Proof. intros [FM _]. unfold f32_eqb. rewrite Beqb_correct by assumption. apply Req_bool_true. reflexivity. Qed.

Lemma value_round_trip m e r v : missing_ok m -> scale_ok e -> - 2 ^ 31 <= v < 2 ^ 31 -> - 2 ^ 31 <= r < 2 ^ 31 ->
  (v = -1 \/ Z.abs (unshift v + r) < 2 ^ 22) ->
  exists v' x, decode m e r v = Some (v', x) /\ encode m e r x = Some v.
Proof.
  intros M S IV IR [->|L].
  - exists (-1), m. split; [reflexivity|]. unfold encode. rewrite missing_refl by exact M. reflexivity.
  - destruct (Z.eq_dec v (-1)) as [->|D].
    { exists (-1), m. split; [reflexivity|]. unfold encode. rewrite missing_refl by exact M. reflexivity. }
    destruct (decode_ok m e r v S D) as (x & E & F & H & B); [lia|].
    exists (unshift v), x. split; [exact E|]. unfold encode. rewrite not_missing by assumption.
    rewrite (product_ok e (unshift v + r) x S L F H). cbn [bind].
    replace (unshift v + r - r) with (unshift v) by lia.
    unfold unshift. destruct (Z.ltb_spec v 0) as [N|N].
    + rewrite int32_ok by lia. cbn [bind]. assert ((v + 1 <? 0) = true) as -> by (apply Z.ltb_lt; lia).
      rewrite int32_ok by lia. f_equal. lia.
    + rewrite int32_ok by lia. cbn [bind]. assert ((v <? 0) = false) as -> by (apply Z.ltb_ge; lia). reflexivity.
Qed.

Lemma encode_ok m e r x : scale_ok e -> is_finite x = true -> f32_eqb x m = false -> Z.abs r < 2 ^ 30 ->
  (Rabs (r32 x * r32 e) <= bpow radix2 22)%R ->
  exists v y, encode m e r x = Some v /\ v <> -1 /\ decode m e r v = Some (unshift v, y) /\ is_finite y = true /\
    (Rabs (IZR (unshift v + r) - r32 x * r32 e) <= / 2 + bpow radix2 (-24) * Rabs (r32 x * r32 e))%R /\
    (Rabs (r32 y - r32 x) * r32 e <= / 2 + bpow radix2 (-22) * Rabs (r32 x * r32 e))%R.
Proof.
  intros S FX NM LR B. pose proof S as [FE [E1 E2]].
  assert (P : (0 < bpow radix2 (-60))%R) by apply bpow_gt_0.
  set (X := r32 x) in *. set (e' := r32 e) in *. assert (E0 : (0 < e')%R) by lra.
  change (bpow radix2 22) with 4194304%R in B.
  assert (T0 : (0 < bpow radix2 (-126) <= / 4)%R).
  { split; [apply bpow_gt_0|]. change (/ 4)%R with (bpow radix2 (-2)). apply bpow_le. lia. }
  assert (AB : (Rabs (rnd32 (X * e')) < bpow radix2 128)%R).
  { pose proof (abs32 (X * e')) as A. rewrite u24 in A.
    assert (bpow radix2 23 <= bpow radix2 128)%R by (apply bpow_le; lia).
    change (bpow radix2 23) with 8388608%R in *. lra. }
  destruct (f32_mul_ok x e) as [A G]; [exact AB|exact FX|exact FE|]. fold X e' in A.
  (* the nearest integer *)
  assert (N : exists n, nint (f32_mul x e) = Some n /\ (Rabs (r32 (f32_mul x e) - IZR n) <= / 2)%R /\ Z.abs n <= 2 ^ 23).
  { set (n := ZnearestA (r32 (f32_mul x e))).
    assert (H : (Rabs (r32 (f32_mul x e) - IZR n) <= / 2)%R) by apply Znearest_half.
    assert (L : Z.abs n <= 2 ^ 23).
    { apply le_IZR. rewrite abs_IZR. change (IZR (2 ^ 23)) with 8388608%R.
      pose proof (abs32 (X * e')) as AA. rewrite u24 in AA. rewrite <- A in AA.
      pose proof (Rabs_triang (IZR n - r32 (f32_mul x e)) (r32 (f32_mul x e))) as T.
      replace (IZR n - r32 (f32_mul x e) + r32 (f32_mul x e))%R with (IZR n) in T by lra.
      rewrite (Rabs_minus_sym (IZR n)) in T. lra. }
    exists n. split; [|split; assumption]. unfold nint. rewrite G. cbv zeta.
    assert (E : Btrunc (@Bnearbyint 24 128 e128 mode_NA (f32_mul x e)) = n).
    { apply eq_IZR. rewrite (@Btrunc_correct 24 128 e128).
      destruct (@Bnearbyint_correct 24 128 e128 mode_NA (f32_mul x e)) as (C & _ & _). rewrite C. cbn [round_mode].
      assert (Q : round radix2 (FIX_exp 0) ZnearestA (B2R (f32_mul x e)) = IZR n).
      { unfold round, F2R, scaled_mantissa, cexp, FIX_exp. cbn [Fnum Fexp bpow Z.opp].
        rewrite Rmult_1_r, Rmult_1_r. reflexivity. }
      rewrite Q. apply round_generic; [apply valid_rnd_ZR|].
      apply generic_format_FIX. exists (Float radix2 n 0); [unfold F2R; cbn; lra|reflexivity]. }
    rewrite E. assert (((- 2 ^ 31 <=? n) && (n <? 2 ^ 31))%bool = true) as ->; [|reflexivity].
    apply andb_true_intro. split; [apply Z.leb_le|apply Z.ltb_lt]; lia. }
  destruct N as (n & EN & HN & LN). rewrite A in HN.
  assert (EV : exists v, encode m e r x = Some v /\ unshift v = n - r /\ v <> -1).
  { unfold encode. rewrite NM, EN. cbn [bind]. rewrite int32_ok by lia. cbn [bind]. unfold unshift.
    destruct (Z.ltb_spec (n - r) 0) as [Q|Q].
    - rewrite int32_ok by lia. exists (n - r - 1). split; [reflexivity|].
      assert ((n - r - 1 <? 0) = true) as -> by (apply Z.ltb_lt; lia). lia.
    - exists (n - r). split; [reflexivity|].
      assert ((n - r <? 0) = false) as -> by (apply Z.ltb_ge; lia). lia. }
  destruct EV as (v & EV & U & D).
  destruct (decode_ok m e r v S D) as (y & DE & FY & HY & _); [rewrite U; lia|].
  rewrite U in HY. replace (n - r + r) with n in HY by lia. fold e' in HY.
  exists v, y. split; [exact EV|]. split; [exact D|]. split; [exact DE|]. split; [exact FY|].
  rewrite U. replace (n - r + r) with n by lia. rewrite u24. change (bpow radix2 (-22)) with (/ 4194304)%R.
  assert (HN2 : (Rabs (IZR n - X * e') <= / 2 + / 16777216 * Rabs (X * e') /\ (Rabs (X * e') < 2 / 5 -> n = 0%Z))%R).
  { split.
    - destruct (Rle_or_lt (bpow radix2 (-126)) (Rabs (X * e'))) as [Q|Q].
      + pose proof (rel32 (X * e') Q) as RR. rewrite u24 in RR.
        pose proof (Rabs_triang (IZR n - rnd32 (X * e')) (rnd32 (X * e') - X * e')) as T.
        replace (IZR n - rnd32 (X * e') + (rnd32 (X * e') - X * e'))%R with (IZR n - X * e')%R in T by lra.
        rewrite (Rabs_minus_sym (IZR n) (rnd32 (X * e'))) in T. lra.
      + assert (n = 0) as ->.
        { assert (Rabs (IZR n) < 1)%R as I.
          { pose proof (abs32 (X * e')) as AA. rewrite u24 in AA.
            pose proof (Rabs_triang (IZR n - rnd32 (X * e')) (rnd32 (X * e'))) as T.
            replace (IZR n - rnd32 (X * e') + rnd32 (X * e'))%R with (IZR n) in T by lra.
            rewrite (Rabs_minus_sym (IZR n) (rnd32 (X * e'))) in T. pose proof (Rabs_pos (X * e')).
            assert (bpow radix2 (-126) <= bpow radix2 (-10))%R by (apply bpow_le; lia).
            change (bpow radix2 (-10)) with (/ 1024)%R in *. lra. }
          rewrite <- abs_IZR in I. apply lt_IZR in I. lia. }
        replace (0 - X * e')%R with (- (X * e'))%R by lra. rewrite Rabs_Ropp. pose proof (Rabs_pos (X * e')). lra.
    - intros Q. assert (Rabs (IZR n) < 1)%R as I.
      { pose proof (abs32 (X * e')) as AA. rewrite u24 in AA.
        pose proof (Rabs_triang (IZR n - rnd32 (X * e')) (rnd32 (X * e'))) as T.
        replace (IZR n - rnd32 (X * e') + rnd32 (X * e'))%R with (IZR n) in T by lra.
        rewrite (Rabs_minus_sym (IZR n) (rnd32 (X * e'))) in T. pose proof (Rabs_pos (X * e')).
        assert (bpow radix2 (-126) <= bpow radix2 (-10))%R by (apply bpow_le; lia).
        change (bpow radix2 (-10)) with (/ 1024)%R in *. lra. }
      rewrite <- abs_IZR in I. apply lt_IZR in I. lia. }
  destruct HN2 as [HN2 HZ]. split; [exact HN2|].
  assert (HY2 : (Rabs (r32 y * e' - IZR n) <= / 16777216 * Rabs (IZR n))%R).
  { replace (r32 y * e' - IZR n)%R with ((r32 y - IZR n / e') * e')%R by (field; lra).
    rewrite Rabs_mult, (Rabs_pos_eq e') by lra.
    replace (Rabs (IZR n)) with (Rabs (IZR n / e') * e')%R.
    - rewrite u24 in HY. pose proof (Rmult_le_compat_r e' _ _ (Rlt_le _ _ E0) HY). lra.
    - unfold Rdiv. rewrite Rabs_mult, Rabs_inv, (Rabs_pos_eq e') by lra. field. lra. }
  replace (Rabs (r32 y - X) * e')%R with (Rabs (r32 y * e' - X * e')).
  2: { rewrite <- Rmult_minus_distr_r, Rabs_mult, (Rabs_pos_eq e') by lra. reflexivity. }
  pose proof (Rabs_triang (r32 y * e' - IZR n) (IZR n - X * e')) as T.
  replace (r32 y * e' - IZR n + (IZR n - X * e'))%R with (r32 y * e' - X * e')%R in T by lra.
  pose proof (Rabs_triang (IZR n - X * e') (X * e')) as T2.
  replace (IZR n - X * e' + X * e')%R with (IZR n) in T2 by lra.
  pose proof (Rabs_pos (X * e')).
  destruct (Rle_or_lt (2 / 5) (Rabs (X * e'))) as [Q|Q].
  - lra.
  - specialize (HZ Q). subst n. rewrite Rabs_R0 in HY2. lra.
Qed.
