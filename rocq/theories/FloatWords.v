(** The words of single precision numbers: their values, as integers times
    2^-149, and the operations of Flo.v on them. *)
From Coq Require Import ZArith List Bool Lia Reals Lra.
From Flocq Require Import Core BinarySingleNaN.
From Verif Require Import Bits BitIO Flo FloatPack.
Import ListNotations.
Open Scope Z_scope.
Open Scope opt_scope.

(** The value of a finite number, times 2^149. *)
Definition mval (w : Z) : Z := if w_exp w =? 0 then w_man w else (2 ^ 23 + w_man w) * 2 ^ (w_exp w - 1).
Definition sval (w : Z) : Z := if w_sign w then - mval w else mval w.
Definition finite_word (w : Z) : Prop := 0 <= w < 2 ^ 32 /\ w_exp w <> 255.

Lemma man_range w : 0 <= w_man w < 2 ^ 23.
Proof. apply Z.mod_pos_bound. lia. Qed.
Lemma exp_range w : 0 <= w_exp w < 256.
Proof. apply Z.mod_pos_bound. lia. Qed.

Lemma scaled_value (n e : Z) : 0 <= e -> F2R (Float radix2 n (e - 149)) = (IZR (n * 2 ^ e) * bpow radix2 (-149))%R.
Proof.
  intros H. unfold F2R. cbn [Fnum Fexp]. rewrite mult_IZR. change (2 ^ e) with (radix2 ^ e). rewrite IZR_Zpower by exact H.
  replace (e - 149) with (e + -149) by lia. rewrite bpow_plus. ring.
Qed.

Lemma normalize_exact n e s : 0 <= e <= 253 -> Z.abs n < 2 ^ 24 ->
  let x := binary_normalize 24 128 p24 e128 mode_NE n (e - 149) s in
  r32 x = (IZR (n * 2 ^ e) * bpow radix2 (-149))%R /\ is_finite x = true /\
  Bsign x = (if n =? 0 then s else n <? 0).
Proof.
  intros HE HN x. pose proof (binary_normalize_correct 24 128 p24 e128 mode_NE n (e - 149) s) as C. cbv zeta in C.
  fold x in C. clearbody x. cbn [round_mode] in C.
  assert (G : generic_format radix2 (SpecFloat.fexp 24 128) (F2R (Float radix2 n (e - 149)))).
  { apply generic_format_FLT. exists (Float radix2 n (e - 149)); [reflexivity|exact HN|cbv [Fexp SpecFloat.emin]; lia]. }
  rewrite round_generic in C; [|apply valid_rnd_N|exact G].
  rewrite Rlt_bool_true in C.
  - destruct C as (A & B & D). rewrite (scaled_value n e) in * by lia. split; [exact A|]. split; [exact B|].
    rewrite D. assert (P : (0 < bpow radix2 (-149))%R) by apply bpow_gt_0.
    assert (P2 : 0 < 2 ^ e) by (apply Z.pow_pos_nonneg; lia).
    destruct (Z.eqb_spec n 0) as [->|N].
    + rewrite Z.mul_0_l, Rmult_0_l, Rcompare_Eq by reflexivity. reflexivity.
    + destruct (Z.ltb_spec n 0) as [L|L].
      * rewrite Rcompare_Lt; [reflexivity|].
        assert (IZR (n * 2 ^ e) < 0)%R by (apply IZR_lt; nia). nra.
      * rewrite Rcompare_Gt; [reflexivity|].
        assert (0 < IZR (n * 2 ^ e))%R by (apply IZR_lt; nia). nra.
  - apply F2R_lt_bpow. cbn [Fnum Fexp].
    eapply Z.lt_le_trans; [exact HN|]. change (radix2 ^ (128 - (e - 149))) with (2 ^ (128 - (e - 149))).
    apply Z.pow_le_mono_r; lia.
Qed.

Lemma word_value w : finite_word w -> r32 (word_f32 w) = (IZR (sval w) * bpow radix2 (-149))%R /\ is_finite (word_f32 w) = true /\
  Bsign (word_f32 w) = w_sign w.
Proof.
  intros [HW HE]. unfold word_f32, sval, mval. pose proof (man_range w). pose proof (exp_range w).
  destruct (Z.eqb_spec (w_exp w) 255); [contradiction|].
  destruct (Z.eqb_spec (w_exp w) 0) as [E0|E0].
  - pose proof (normalize_exact (if w_sign w then - w_man w else w_man w) 0 (w_sign w) ltac:(lia) ltac:(destruct (w_sign w); lia)) as X.
    cbv zeta in X. change (0 - 149) with (-149) in X. rewrite Z.pow_0_r, Z.mul_1_r in X. destruct X as (A & B & C).
    split; [exact A|]. split; [exact B|]. rewrite C. destruct (w_sign w).
    + destruct (Z.eqb_spec (- w_man w) 0); [reflexivity|]. apply Z.ltb_lt. lia.
    + destruct (Z.eqb_spec (w_man w) 0); [reflexivity|]. apply Z.ltb_ge. lia.
  - pose proof (normalize_exact (if w_sign w then - (2 ^ 23 + w_man w) else 2 ^ 23 + w_man w) (w_exp w - 1) (w_sign w) ltac:(lia) ltac:(destruct (w_sign w); lia)) as X.
    cbv zeta in X. replace (w_exp w - 1 - 149) with (w_exp w - 150) in X by lia. destruct X as (A & B & C).
    split; [rewrite A; destruct (w_sign w); [rewrite Z.mul_opp_l|]; reflexivity|]. split; [exact B|]. rewrite C. destruct (w_sign w).
    + destruct (Z.eqb_spec (- (2 ^ 23 + w_man w)) 0); [lia|]. apply Z.ltb_lt. lia.
    + destruct (Z.eqb_spec (2 ^ 23 + w_man w) 0); [lia|]. apply Z.ltb_ge. lia.
Qed.

Lemma word_lt a b : finite_word a -> finite_word b -> f32_ltb (word_f32 a) (word_f32 b) = (sval a <? sval b).
Proof.
  intros HA HB. destruct (word_value a HA) as (VA & FA & _). destruct (word_value b HB) as (VB & FB & _).
  unfold f32_ltb. rewrite Bltb_correct by assumption. fold (r32 (word_f32 a)) (r32 (word_f32 b)). rewrite VA, VB.
  assert (P : (0 < bpow radix2 (-149))%R) by apply bpow_gt_0.
  destruct (Z.ltb_spec (sval a) (sval b)) as [L|L].
  - apply Rlt_bool_true. apply Rmult_lt_compat_r; [exact P|]. apply IZR_lt; exact L.
  - apply Rlt_bool_false. apply Rmult_le_compat_r; [lra|]. apply IZR_le; exact L.
Qed.

(** The fields of the word of a number. *)
Lemma fields (s : bool) (e m : Z) : 0 <= e < 256 -> 0 <= m < 2 ^ 23 ->
  let w := (if s then 2 ^ 31 else 0) + (e * 2 ^ 23 + m) in
  w_sign w = s /\ w_exp w = e /\ w_man w = m /\ 0 <= w < 2 ^ 32.
Proof.
  intros HE HM w.
  assert (W : w = ((if s then 1 else 0) * 256 + e) * 2 ^ 23 + m) by (subst w; destruct s; lia).
  assert (R : 0 <= (if s then 1 else 0) * 256 + e < 512) by (destruct s; lia).
  unfold w_sign, w_exp, w_man. split; [|split; [|split]].
  - subst w. destruct s; [apply Z.leb_le; lia|apply Z.leb_gt; lia].
  - rewrite W, Z.div_add_l, (Z.div_small m), Z.add_0_r by lia.
    rewrite Z.add_comm, Z.mod_add by lia. apply Z.mod_small. exact HE.
  - rewrite W, Z.add_comm, Z.mod_add by lia. apply Z.mod_small. exact HM.
  - subst w. destruct s; lia.
Qed.

(** The word of a finite number holds it. *)
Lemma f32_word_ok x : is_finite x = true ->
  finite_word (f32_word x) /\ r32 x = (IZR (sval (f32_word x)) * bpow radix2 (-149))%R /\ w_sign (f32_word x) = Bsign x.
Proof.
  destruct x as [s|s| |s m e B]; try discriminate; intros _.
  - cbn [f32_word Bsign]. pose proof (fields s 0 0 ltac:(lia) ltac:(lia)) as F. cbv zeta in F.
    replace ((if s then 2 ^ 31 else 0) + (0 * 2 ^ 23 + 0)) with (if s then 2 ^ 31 else 0) in F by (destruct s; lia).
    destruct F as (F1 & F2 & F3 & F4). split; [split; [exact F4|lia]|]. split; [|exact F1].
    unfold sval, mval. rewrite F1, F2, F3. change (0 =? 0) with true. cbv iota. unfold r32. cbn [B2R].
    destruct s; cbn [Z.opp]; lra.
  - cbn [f32_word Bsign].
    assert (BB := B). unfold SpecFloat.bounded in BB. apply andb_prop in BB as [BB1 BB2]. apply Z.leb_le in BB2.
    unfold SpecFloat.canonical_mantissa in BB1. apply Zeq_bool_eq in BB1.
    rewrite Zpos_digits2_pos in BB1. unfold SpecFloat.fexp, SpecFloat.emin in BB1.
    pose proof (Zdigits_correct radix2 (Zpos m)) as [D1 D2]. rewrite Z.abs_eq in D1, D2 by lia.
    set (d := Zdigits radix2 (Zpos m)) in *. clearbody d.
    change (radix2 ^ (d - 1)) with (2 ^ (d - 1)) in D1. change (radix2 ^ d) with (2 ^ d) in D2.
    assert (R : forall k v, k = v * 2 ^ 0 -> k = v) by (intros; lia).
    assert (VAL : r32 (B754_finite s m e B) = (IZR ((if s then - Zpos m else Zpos m) * 2 ^ (e + 149)) * bpow radix2 (-149))%R).
    { unfold r32. cbn [B2R]. pose proof (scaled_value (cond_Zopp s (Zpos m)) (e + 149) ltac:(lia)) as SV.
      replace (e + 149 - 149) with e in SV by lia. rewrite SV. destruct s; reflexivity. }
    destruct (Z.ltb_spec (Zpos m) (2 ^ 23)) as [L|L].
    + assert (d <= 23).
      { destruct (Z.le_gt_cases d 23) as [|G]; [assumption|]. exfalso.
        assert (2 ^ 23 <= 2 ^ (d - 1)) by (apply Z.pow_le_mono_r; lia). lia. }
      assert (e = -149) by lia. subst e.
      pose proof (fields s 0 (Zpos m) ltac:(lia) ltac:(lia)) as F. cbv zeta in F.
      rewrite Z.mul_0_l, Z.add_0_l in F. destruct F as (F1 & F2 & F3 & F4).
      split; [split; [exact F4|lia]|]. split; [|exact F1].
      rewrite VAL. unfold sval, mval. rewrite F1, F2, F3. change (0 =? 0) with true. cbv iota.
      change (-149 + 149) with 0. rewrite Z.pow_0_r, Z.mul_1_r. reflexivity.
    + assert (24 <= d).
      { destruct (Z.le_gt_cases 24 d) as [|G]; [assumption|]. exfalso.
        assert (2 ^ d <= 2 ^ 23) by (apply Z.pow_le_mono_r; lia). lia. }
      assert (d = 24) by lia. subst d.
      pose proof (fields s (e + 150) (Zpos m - 2 ^ 23) ltac:(lia) ltac:(lia)) as F. cbv zeta in F.
      destruct F as (F1 & F2 & F3 & F4).
      split; [split; [exact F4|lia]|]. split; [|exact F1].
      rewrite VAL. unfold sval, mval. rewrite F1, F2, F3.
      assert ((e + 150 =? 0) = false) as -> by (apply Z.eqb_neq; lia).
      replace (2 ^ 23 + (Zpos m - 2 ^ 23)) with (Zpos m) by lia. replace (e + 150 - 1) with (e + 149) by lia.
      destruct s; [rewrite Z.mul_opp_l|]; reflexivity.
Qed.

(** A difference that is a number of single precision is exact. *)
Lemma sub_exact a b n e : finite_word a -> finite_word b -> sval a - sval b = n * 2 ^ e -> Z.abs n < 2 ^ 24 -> 0 <= e <= 253 ->
  finite_word (f32_word (f32_sub (word_f32 a) (word_f32 b))) /\
  sval (f32_word (f32_sub (word_f32 a) (word_f32 b))) = n * 2 ^ e /\
  (n <> 0 -> w_sign (f32_word (f32_sub (word_f32 a) (word_f32 b))) = (n <? 0)) /\
  (n = 0 -> w_sign a = w_sign b -> w_sign (f32_word (f32_sub (word_f32 a) (word_f32 b))) = false).
Proof.
  intros HA HB E HN HE. destruct (word_value a HA) as (VA & FA & SA). destruct (word_value b HB) as (VB & FB & SB).
  pose proof (@Bminus_correct 24 128 p24 e128 mode_NE (word_f32 a) (word_f32 b) FA FB) as C.
  fold (r32 (word_f32 a)) (r32 (word_f32 b)) in C. rewrite VA, VB in C. cbn [round_mode] in C.
  assert (P : (0 < bpow radix2 (-149))%R) by apply bpow_gt_0.
  assert (D : (IZR (sval a) * bpow radix2 (-149) - IZR (sval b) * bpow radix2 (-149) = IZR (n * 2 ^ e) * bpow radix2 (-149))%R).
  { rewrite <- E, minus_IZR. ring. }
  rewrite D in C. rewrite <- (scaled_value n e) in C by lia.
  assert (G : generic_format radix2 (SpecFloat.fexp 24 128) (F2R (Float radix2 n (e - 149)))).
  { apply generic_format_FLT. exists (Float radix2 n (e - 149)); [reflexivity|exact HN|cbv [Fexp SpecFloat.emin]; lia]. }
  rewrite round_generic in C; [|apply valid_rnd_N|exact G].
  rewrite Rlt_bool_true in C.
  2: { apply F2R_lt_bpow. cbn [Fnum Fexp].
       eapply Z.lt_le_trans; [exact HN|]. change (radix2 ^ (128 - (e - 149))) with (2 ^ (128 - (e - 149))).
       apply Z.pow_le_mono_r; lia. }
  destruct C as (V & F & S). fold (f32_sub (word_f32 a) (word_f32 b)) in V, F, S.
  set (x := f32_sub (word_f32 a) (word_f32 b)) in *. clearbody x.
  destruct (f32_word_ok x F) as (W1 & W2 & W3). split; [exact W1|].
  rewrite (scaled_value n e) in * by lia. split; [|split].
  - apply eq_IZR. unfold r32 in W2. rewrite V in W2. apply Rmult_eq_reg_r in W2; [symmetry; exact W2|lra].
  - intros N. rewrite W3, S. assert (P2 : 0 < 2 ^ e) by (apply Z.pow_pos_nonneg; lia).
    destruct (Z.ltb_spec n 0) as [L|L].
    + rewrite Rcompare_Lt; [reflexivity|]. assert (IZR (n * 2 ^ e) < 0)%R by (apply IZR_lt; nia). nra.
    + rewrite Rcompare_Gt; [reflexivity|]. assert (0 < IZR (n * 2 ^ e))%R by (apply IZR_lt; nia). nra.
  - intros -> SS. rewrite W3, S. rewrite Z.mul_0_l, Rmult_0_l, Rcompare_Eq by reflexivity. rewrite SA, SB, SS.
    destruct (w_sign b); reflexivity.
Qed.

(** A word is determined by its value and its sign. *)
Lemma mval_low w : 0 <= mval w.
Proof. unfold mval. pose proof (man_range w). pose proof (exp_range w). destruct (Z.eqb_spec (w_exp w) 0); [lia|].
  assert (0 < 2 ^ (w_exp w - 1)) by (apply Z.pow_pos_nonneg; lia). nia. Qed.
Lemma mval_exp w e : 0 <= e -> (w_exp w <= e <-> mval w < 2 ^ (23 + e)).
Proof.
  intros HE. unfold mval. pose proof (man_range w). pose proof (exp_range w). destruct (Z.eqb_spec (w_exp w) 0) as [Q|Q].
  - split; [|lia]. intros _. assert (2 ^ 23 <= 2 ^ (23 + e)) by (apply Z.pow_le_mono_r; lia). lia.
  - assert (P : 0 < 2 ^ (w_exp w - 1)) by (apply Z.pow_pos_nonneg; lia). split.
    + intros L. apply Z.lt_le_trans with (2 ^ 24 * 2 ^ (w_exp w - 1)); [nia|].
      rewrite <- Z.pow_add_r by lia. apply Z.pow_le_mono_r; lia.
    + intros L. destruct (Z.le_gt_cases (w_exp w) e) as [|G]; [assumption|]. exfalso.
      assert (2 ^ (23 + e) <= 2 ^ 23 * 2 ^ (w_exp w - 1)) by (rewrite <- Z.pow_add_r by lia; apply Z.pow_le_mono_r; lia). nia.
Qed.
Lemma word_split w : 0 <= w < 2 ^ 32 -> w = (if w_sign w then 2 ^ 31 else 0) + (w_exp w * 2 ^ 23 + w_man w).
Proof.
  intros H. unfold w_sign, w_exp, w_man.
  pose proof (Z.div_mod w (2 ^ 23) ltac:(lia)) as A. pose proof (Z.div_mod (w / 2 ^ 23) 256 ltac:(lia)) as B.
  rewrite Z.div_div in B by lia. change (2 ^ 23 * 256) with (2 ^ 31) in B.
  assert (C : w / 2 ^ 31 = if 2 ^ 31 <=? w then 1 else 0).
  { destruct (Z.leb_spec (2 ^ 31) w); [|apply Z.div_small; lia].
    assert (w / 2 ^ 31 < 2) by (apply Z.div_lt_upper_bound; lia).
    assert (1 <= w / 2 ^ 31) by (apply Z.div_le_lower_bound; lia). lia. }
  rewrite C in B. destruct (2 ^ 31 <=? w); lia.
Qed.
Lemma sval_inj a b : finite_word a -> finite_word b -> w_sign a = w_sign b -> sval a = sval b -> a = b.
Proof.
  intros [HA _] [HB _] S V.
  assert (M : mval a = mval b) by (unfold sval in V; rewrite S in V; destruct (w_sign b); lia).
  assert (E : w_exp a = w_exp b).
  { pose proof (proj1 (mval_exp a (w_exp a) (proj1 (exp_range a)))). pose proof (proj1 (mval_exp b (w_exp b) (proj1 (exp_range b)))).
    pose proof (proj2 (mval_exp a (w_exp b) (proj1 (exp_range b)))). pose proof (proj2 (mval_exp b (w_exp a) (proj1 (exp_range a)))). lia. }
  assert (N : w_man a = w_man b).
  { unfold mval in M. rewrite E in M. pose proof (exp_range b). destruct (Z.eqb_spec (w_exp b) 0); [exact M|].
    assert (0 < 2 ^ (w_exp b - 1)) by (apply Z.pow_pos_nonneg; lia). nia. }
  rewrite (word_split a HA), (word_split b HB), S, E, N. reflexivity.
Qed.
