(** The numbers of FloatField.v as reals: differences with the minimum, the range,
    tokens, and values of tokens. *)
From Coq Require Import ZArith List Bool Lia Reals Lra.
From Flocq Require Import Core BinarySingleNaN Relative.
From Verif Require Import Bits BitIO CompactInt Flo FloatPack FloatWords FloatField FloatDouble.
Import ListNotations.
Open Scope Z_scope.
Open Scope opt_scope.

Definition V (w : Z) : R := (IZR (sval w) * bpow radix2 (-149))%R.

Lemma u_gt : (0 < bpow radix2 (-149))%R.
Proof. apply bpow_gt_0. Qed.
Lemma V_le a b : sval a <= sval b <-> (V a <= V b)%R.
Proof.
  unfold V. pose proof u_gt. split; intros H0.
  - apply Rmult_le_compat_r; [lra|]. apply IZR_le. exact H0.
  - apply Rmult_le_reg_r in H0; [|exact H]. apply le_IZR. exact H0.
Qed.
Lemma V_r32 w : finite_word w -> r32 (word_f32 w) = V w.
Proof. intros H. apply (word_value w H). Qed.
Lemma V_fmt w : finite_word w -> fmt32 (V w).
Proof. intros H. rewrite <- V_r32 by exact H. apply f32_fmt. Qed.
Lemma wide w : finite_word w -> is64 (widen (word_f32 w)) (V w).
Proof. intros H. rewrite <- V_r32 by exact H. apply widen_ok. apply (word_value w H). Qed.

(** The largest magnitude. *)
Definition big : R := IZR (10 ^ 38).
Lemma big_127 : (big <= bpow radix2 127)%R.
Proof. unfold big. change (bpow radix2 127) with (IZR (2 ^ 127)). apply IZR_le. vm_compute. discriminate. Qed.
Lemma MAX_ok : is64 MAX_RANGE (rnd64 big).
Proof.
  pose proof (binary_normalize_correct 53 1024 p53 e1024 mode_NE (10 ^ 38) 0 false) as C. cbv zeta in C. cbn [round_mode] in C.
  replace (F2R (Float radix2 (10 ^ 38) 0)) with big in C by (unfold F2R, big; cbn [Fnum Fexp bpow]; lra).
  rewrite Rlt_bool_true in C.
  - destruct C as (A & B & _). split; assumption.
  - eapply Rle_lt_trans; [apply (rnd64_bound _ 127); [lia|]|apply bpow_small; lia].
    rewrite Rabs_pos_eq; [apply big_127|unfold big; apply IZR_le; lia].
Qed.
Lemma MIN_ok : is64 MIN_RANGE (rnd64 (- big)).
Proof.
  pose proof (binary_normalize_correct 53 1024 p53 e1024 mode_NE (- 10 ^ 38) 0 false) as C. cbv zeta in C. cbn [round_mode] in C.
  replace (F2R (Float radix2 (- 10 ^ 38) 0)) with (- big)%R in C by (unfold F2R, big; cbn [Fnum Fexp bpow]; rewrite opp_IZR; lra).
  rewrite Rlt_bool_true in C.
  - destruct C as (A & B & _). split; assumption.
  - eapply Rle_lt_trans; [apply (rnd64_bound _ 127); [lia|]|apply bpow_small; lia].
    rewrite Rabs_Ropp, Rabs_pos_eq; [apply big_127|unfold big; apply IZR_le; lia].
Qed.
Lemma f64_ltb_ok x y a b : is64 x a -> is64 y b -> f64_ltb x y = Rlt_bool a b.
Proof. intros [<- FX] [<- FY]. apply Bltb_correct; assumption. Qed.

Lemma not_too_large lo hi : finite_word lo -> finite_word hi -> (V hi <= big)%R -> (- big <= V lo)%R ->
  f64_ltb MAX_RANGE (widen (word_f32 hi)) || f64_ltb (widen (word_f32 lo)) MIN_RANGE = false.
Proof.
  intros FL FH H L. rewrite (f64_ltb_ok _ _ _ _ MAX_ok (wide hi FH)), (f64_ltb_ok _ _ _ _ (wide lo FL) MIN_ok).
  apply orb_false_intro; apply Rlt_bool_false.
  - rewrite <- (rnd64_id (V hi)) by (apply fmt64_of_32, V_fmt; exact FH). apply rnd64_le. exact H.
  - rewrite <- (rnd64_id (V lo)) by (apply fmt64_of_32, V_fmt; exact FL). apply rnd64_le. exact L.
Qed.
(** Numbers above 10^38 are met: no double lies between 10^38 and the limit. *)
Lemma too_large lo hi : finite_word lo -> finite_word hi -> (big * (1 + bpow radix2 (-52)) < V hi \/ V lo < - (big * (1 + bpow radix2 (-52))))%R ->
  f64_ltb MAX_RANGE (widen (word_f32 hi)) || f64_ltb (widen (word_f32 lo)) MIN_RANGE = true.
Proof.
  intros FL FH H. rewrite (f64_ltb_ok _ _ _ _ MAX_ok (wide hi FH)), (f64_ltb_ok _ _ _ _ (wide lo FL) MIN_ok).
  assert (B0 : (1 <= big)%R) by (unfold big; apply IZR_le; lia).
  assert (B1 : (bpow radix2 (-1022) <= 1)%R) by (change 1%R with (bpow radix2 0); apply bpow_le; lia).
  assert (E : (bpow radix2 (-52) = 2 * bpow radix2 (-53))%R) by (change (-52) with (1 + -53); rewrite bpow_plus; reflexivity).
  pose proof (bpow_gt_0 radix2 (-53)) as P.
  apply orb_true_iff. destruct H as [H|H]; [left|right]; apply Rlt_bool_true.
  - pose proof (rnd64_rel big ltac:(rewrite Rabs_pos_eq; lra)) as X. rewrite Rabs_pos_eq with (x := big) in X by lra.
    apply Rabs_le_inv in X. nra.
  - pose proof (rnd64_rel (- big) ltac:(rewrite Rabs_Ropp, Rabs_pos_eq; lra)) as X. rewrite Rabs_Ropp, Rabs_pos_eq with (x := big) in X by lra.
    apply Rabs_le_inv in X. nra.
Qed.

(** Minimum and maximum. *)
Definition kept (tag : option Z) (ws : list Z) : list Z := filter (fun w => negb (is_tag tag w)) ws.
Lemma extremes_ok tag ws : kept tag ws <> [] -> Forall finite_word (kept tag ws) ->
  exists lo hi, extremes tag ws = Some (lo, hi) /\ In lo (kept tag ws) /\ In hi (kept tag ws) /\
    forall w, In w (kept tag ws) -> sval lo <= sval w <= sval hi.
Proof.
  unfold extremes. fold (kept tag ws). generalize (kept tag ws) as l. intros [|z r]; [contradiction|]. intros _ F.
  apply Forall_cons_iff in F as [FZ FR].
  set (f := fun m w => _).
  assert (G : forall l a b, Forall finite_word l -> finite_word a -> finite_word b -> sval a <= sval b ->
     exists lo hi, fold_left f l (a, b) = (lo, hi) /\ (lo = a \/ In lo l) /\ (hi = b \/ In hi l) /\ sval lo <= sval a /\ sval b <= sval hi /\
       forall w, In w l -> sval lo <= sval w <= sval hi).
  { induction l as [|x l IH]; intros a b FL FA FB L; cbn [fold_left].
    - exists a, b. split; [reflexivity|]. split; [left; reflexivity|]. split; [left; reflexivity|]. split; [lia|]. split; [lia|]. intros w [].
    - apply Forall_cons_iff in FL as [FX FL].
      assert (E : f (a, b) x = if sval x <? sval a then (x, b) else if sval b <? sval x then (a, x) else (a, b)).
      { unfold f. cbn [fst snd]. rewrite !word_lt by assumption. reflexivity. }
      rewrite E. clear E. destruct (Z.ltb_spec (sval x) (sval a)) as [L1|L1]; [|destruct (Z.ltb_spec (sval b) (sval x)) as [L2|L2]].
      + destruct (IH x b FL FX FB ltac:(lia)) as (lo & hi & E & I1 & I2 & B1 & B2 & A). exists lo, hi. split; [exact E|].
        split; [destruct I1 as [->|I1]; [right; left; reflexivity|right; right; exact I1]|].
        split; [destruct I2 as [->|I2]; [left; reflexivity|right; right; exact I2]|]. split; [lia|]. split; [lia|].
        intros w [<-|I]; [lia|apply A; exact I].
      + destruct (IH a x FL FA FX ltac:(lia)) as (lo & hi & E & I1 & I2 & B1 & B2 & A). exists lo, hi. split; [exact E|].
        split; [destruct I1 as [->|I1]; [left; reflexivity|right; right; exact I1]|].
        split; [destruct I2 as [->|I2]; [right; left; reflexivity|right; right; exact I2]|]. split; [lia|]. split; [lia|].
        intros w [<-|I]; [lia|apply A; exact I].
      + destruct (IH a b FL FA FB L) as (lo & hi & E & I1 & I2 & B1 & B2 & A). exists lo, hi. split; [exact E|].
        split; [destruct I1 as [->|I1]; [left; reflexivity|right; right; exact I1]|].
        split; [destruct I2 as [->|I2]; [left; reflexivity|right; right; exact I2]|]. split; [lia|]. split; [lia|].
        intros w [<-|I]; [lia|apply A; exact I]. }
  destruct (G r z z FR FZ FZ ltac:(lia)) as (lo & hi & E & I1 & I2 & B1 & B2 & A). exists lo, hi. rewrite E. split; [reflexivity|].
  split; [destruct I1 as [->|I1]; [left; reflexivity|right; exact I1]|].
  split; [destruct I2 as [->|I2]; [left; reflexivity|right; exact I2]|].
  intros w [<-|I]; [lia|apply A; exact I].
Qed.

(** The difference of a number with the minimum, in double precision. *)
Definition diff (lo w : Z) : R := rnd64 (V w - V lo).
Lemma bound_128 a b : (Rabs a <= big)%R -> (Rabs b <= big)%R -> (Rabs (a - b) <= bpow radix2 128)%R.
Proof.
  intros A B. pose proof big_127. assert (bpow radix2 128 = 2 * bpow radix2 127)%R by (change 128 with (1 + 127); rewrite bpow_plus; reflexivity).
  apply Rabs_le. apply Rabs_le_inv in A. apply Rabs_le_inv in B. lra.
Qed.
Lemma diff_ok lo w : finite_word lo -> finite_word w -> (Rabs (V lo) <= big)%R -> (Rabs (V w) <= big)%R ->
  is64 (f64_sub (widen (word_f32 w)) (widen (word_f32 lo))) (diff lo w).
Proof.
  intros FL FW BL BW. apply f64_sub_ok; [apply wide; exact FW|apply wide; exact FL|].
  eapply Rle_trans; [apply bound_128; assumption|]. apply bpow_le. lia.
Qed.
Lemma diff_mono lo w v : sval w <= sval v -> (diff lo w <= diff lo v)%R.
Proof. intros H. apply rnd64_le. apply V_le in H. lra. Qed.
Lemma diff_0 lo w : sval w = sval lo -> diff lo w = 0%R.
Proof. intros H. unfold diff, V. rewrite H, Rminus_diag_eq by reflexivity. apply rnd64_id, generic_format_0. Qed.
Lemma diff_pos lo w : sval lo < sval w -> (bpow radix2 (-149) <= diff lo w)%R.
Proof.
  intros H. unfold diff. rewrite <- (rnd64_id (bpow radix2 (-149))).
  - apply rnd64_le. unfold V. rewrite <- Rmult_minus_distr_r, <- minus_IZR. pose proof u_gt.
    rewrite <- (Rmult_1_l (bpow radix2 (-149))) at 1. apply Rmult_le_compat_r; [lra|]. apply IZR_le. lia.
  - apply generic_format_bpow. unfold SpecFloat.fexp, SpecFloat.emin. lia.
Qed.
Lemma diff_nonneg lo w : sval lo <= sval w -> (0 <= diff lo w)%R.
Proof. intros H. rewrite <- (diff_0 lo lo eq_refl). apply diff_mono. exact H. Qed.
Lemma diff_max lo w : (Rabs (V lo) <= big)%R -> (Rabs (V w) <= big)%R -> (diff lo w <= bpow radix2 128)%R.
Proof.
  intros BL BW. pose proof (rnd64_bound (V w - V lo) 128 ltac:(lia) (bound_128 _ _ BW BL)) as H. unfold diff.
  pose proof (Rle_abs (rnd64 (V w - V lo))). lra.
Qed.
Lemma diff_err lo w : sval lo <= sval w -> (Rabs (diff lo w - (V w - V lo)) <= bpow radix2 (-53) * (V w - V lo))%R.
Proof.
  intros H. destruct (Z.eq_dec (sval w) (sval lo)) as [E|N].
  - rewrite diff_0 by exact E. unfold V. rewrite E, !Rminus_diag_eq by ring. rewrite Rabs_R0. lra.
  - assert (L : (bpow radix2 (-149) <= V w - V lo)%R).
    { unfold V. rewrite <- Rmult_minus_distr_r, <- minus_IZR. pose proof u_gt.
      rewrite <- (Rmult_1_l (bpow radix2 (-149))) at 1. apply Rmult_le_compat_r; [lra|]. apply IZR_le. lia. }
    pose proof u_gt. pose proof (rnd64_rel (V w - V lo)) as X. rewrite (Rabs_pos_eq (V w - V lo)) in X by lra. apply X.
    eapply Rle_trans; [|exact L]. apply bpow_le. lia.
Qed.
Lemma diff_fmt lo w : fmt64 (diff lo w).
Proof. apply generic_format_round; [apply fexp53_valid|apply valid_rnd_N]. Qed.

(** Scaled by a power of 2. *)
Lemma diff_scale lo w k : sval lo <= sval w -> -800 <= k -> fmt64 (diff lo w * bpow radix2 k).
Proof.
  intros H K. destruct (Z.eq_dec (sval w) (sval lo)) as [E|N].
  - rewrite diff_0 by exact E. rewrite Rmult_0_l. apply generic_format_0.
  - apply (fmt64_scale _ (-149)); [apply diff_fmt| |lia]. pose proof (diff_pos lo w ltac:(lia)). pose proof u_gt.
    rewrite Rabs_pos_eq; lra.
Qed.
Lemma diff_scale_max lo w k : sval lo <= sval w -> (Rabs (V lo) <= big)%R -> (Rabs (V w) <= big)%R -> k <= 800 ->
  (Rabs (diff lo w * bpow radix2 k) <= bpow radix2 1000)%R.
Proof.
  intros H BL BW K. pose proof (diff_max lo w BL BW). pose proof (diff_nonneg lo w H). pose proof (bpow_gt_0 radix2 k).
  rewrite Rabs_pos_eq by nra. apply Rle_trans with (bpow radix2 (128 + k)); [|apply bpow_le; lia].
  rewrite bpow_plus. apply Rmult_le_compat_r; lra.
Qed.
Lemma diff_times lo w x k : finite_word lo -> finite_word w -> sval lo <= sval w -> (Rabs (V lo) <= big)%R -> (Rabs (V w) <= big)%R ->
  -800 <= k <= 800 -> is64 x (bpow radix2 k) ->
  is64 (f64_mul (f64_sub (widen (word_f32 w)) (widen (word_f32 lo))) x) (diff lo w * bpow radix2 k).
Proof.
  intros FL FW H BL BW K X. rewrite <- (rnd64_id (diff lo w * bpow radix2 k)) by (apply diff_scale; [exact H|lia]).
  apply f64_mul_ok; [apply diff_ok; assumption|exact X|apply diff_scale_max; try assumption; lia].
Qed.

(** Integer parts. *)
Lemma int_part v : (0 <= v)%R -> exists n, 0 <= n /\ (IZR n <= v < IZR n + 1)%R.
Proof.
  intros H. exists (Zfloor v). pose proof (Zfloor_lb v). pose proof (Zfloor_ub v). split; [|split; lra].
  apply Zfloor_lub. exact H.
Qed.
Lemma below_pow n b v : (IZR n <= v)%R -> (v < bpow radix2 (Z.of_nat b))%R -> n < 2 ^ Z.of_nat b.
Proof.
  intros A B. apply lt_IZR. change (2 ^ Z.of_nat b) with (radix2 ^ Z.of_nat b). rewrite IZR_Zpower by lia. lra.
Qed.

Definition has (tag : option Z) : Z := match tag with Some _ => 1 | None => 0 end.

(** The exponent of the range: large enough for the tokens, and not too large. *)
Definition range_ok (tag : option Z) (b : nat) (lo hi te : Z) : Prop :=
  -200 <= te <= 200 /\
  (diff lo hi * bpow radix2 (Z.of_nat b - te) < bpow radix2 (Z.of_nat b) - IZR (has tag))%R /\
  (sval lo < sval hi -> (bpow radix2 (te - Z.of_nat b) * (bpow radix2 (Z.of_nat b) - IZR (has tag)) <= 2 * diff lo hi)%R).

Lemma range_expo_ok tag b lo hi : finite_word lo -> finite_word hi -> sval lo <= sval hi -> (Rabs (V lo) <= big)%R -> (Rabs (V hi) <= big)%R ->
  (1 <= b <= 32)%nat -> (tag <> None -> (2 <= b)%nat) ->
  exists te, range_expo tag b (widen (word_f32 lo)) (widen (word_f32 hi)) = Some te /\ range_ok tag b lo hi te /\ (sval lo = sval hi -> te = 0).
Proof.
  intros FL FH LE BL BH HB HT. unfold range_expo. cbv zeta.
  set (B := Z.of_nat b). assert (HB' : 1 <= B <= 32) by (unfold B; lia).
  assert (T2 : is64 (f64_of 2) (bpow radix2 1)) by (apply (f64_of_ok 2); lia).
  pose proof (diff_times lo hi (f64_of 2) 1 FL FH LE BL BH ltac:(lia) T2) as D2.
  assert (PB : (2 <= bpow radix2 B)%R) by (change 2%R with (bpow radix2 1); apply bpow_le; lia).
  destruct (Z.eq_dec (sval hi) (sval lo)) as [E|N].
  - rewrite diff_0 in D2 by exact E. rewrite Rmult_0_l in D2. rewrite (f64_expo_0 _ D2). change (0 =? 0) with true. cbv iota.
    exists 0. split; [reflexivity|]. split; [|auto]. split; [lia|]. fold B. rewrite diff_0 by exact E. rewrite Rmult_0_l. split; [|lia].
    assert (IZR (has tag) <= 1)%R by (apply IZR_le; destruct tag; cbn; lia). lra.
  - set (er := f64_expo _) in *. pose proof (diff_pos lo hi ltac:(lia)) as P. pose proof u_gt as U.
    set (D := diff lo hi) in *.
    assert (PD : (0 < D)%R) by lra. change (bpow radix2 1) with 2%R in D2.
    destruct (f64_expo_ok _ _ D2) as (E0 & E1 & E2).
    { rewrite Rabs_pos_eq by lra. apply Rle_trans with (bpow radix2 (-149)); [apply bpow_le; lia|lra]. }
    fold er in E0, E1, E2. rewrite Rabs_pos_eq in E1, E2 by lra.
    rewrite (proj2 (Z.eqb_neq er 0)) by lia.
    pose proof (diff_max lo hi BL BH) as M. fold D in M.
    assert (R1 : -148 <= er - 1023 <= 129).
    { split.
      - assert (bpow radix2 (-149) < bpow radix2 (er - 1022))%R by lra. apply lt_bpow in H. 
        assert (X : (bpow radix2 (1 + -149) < bpow radix2 (er - 1022))%R) by (rewrite bpow_plus; change (bpow radix2 1) with 2%R; lra).
        apply lt_bpow in X. lia.
      - assert (X : (bpow radix2 (er - 1023) <= bpow radix2 (1 + 128))%R) by (rewrite bpow_plus; change (bpow radix2 1) with 2%R; lra).
        apply le_bpow in X. lia. }
    set (e := er - 1023) in *. replace (er - 1022) with (1 + e) in E2 by (unfold e; lia).
    rewrite bpow_plus in E2. change (bpow radix2 1) with 2%R in E2.
    assert (Q : is64 (f64_div (f64_mul (f64_sub (widen (word_f32 hi)) (widen (word_f32 lo))) (f64_pow2 B)) (f64_pow2 e)) (D * bpow radix2 (B - e))).
    { pose proof (diff_times lo hi (f64_pow2 B) B FL FH LE BL BH ltac:(lia) (f64_pow2_ok B ltac:(lia))) as X.
      pose proof (bpow_gt_0 radix2 e) as PE. pose proof (bpow_gt_0 radix2 B).
      assert (EQ : (D * bpow radix2 B / bpow radix2 e = D * bpow radix2 (B - e))%R).
      { unfold Zminus. rewrite bpow_plus, bpow_opp. unfold Rdiv. ring. }
      rewrite <- (rnd64_id (D * bpow radix2 (B - e))) by (apply diff_scale; [exact LE|lia]).
      rewrite <- EQ. apply f64_div_ok; [exact X|apply f64_pow2_ok; lia|lra|].
      rewrite EQ. apply diff_scale_max; try assumption; lia. }
    assert (VB : (D * bpow radix2 (B - e) < bpow radix2 B)%R).
    { replace (bpow radix2 B) with (bpow radix2 e * bpow radix2 (B - e))%R by (rewrite <- bpow_plus; f_equal; lia).
      apply Rmult_lt_compat_r; [apply bpow_gt_0|lra]. }
    assert (V0 : (0 <= D * bpow radix2 (B - e))%R) by (pose proof (bpow_gt_0 radix2 (B - e)); nra).
    destruct (int_part _ V0) as (t & T0 & T1).
    pose proof (below_pow t b _ (proj1 T1) VB) as T3. fold B in T3.
    assert (T4 : 2 ^ B <= 2 ^ 32) by (apply Z.pow_le_mono_r; lia).
    rewrite (f64_u32_ok _ _ t Q ltac:(lia) T1). cbn [bind].
    assert (PI : (IZR (2 ^ B) = bpow radix2 B)%R) by (change (2 ^ B) with (radix2 ^ B); apply IZR_Zpower; lia).
    assert (C1 : (bpow radix2 (e - B) * bpow radix2 B = bpow radix2 e)%R) by (rewrite <- bpow_plus; f_equal; lia).
    unfold all_ones. fold B.
    destruct tag as [g|]; cbn [has]; cycle 1.
    { rewrite andb_false_r. cbv iota. exists e. split; [reflexivity|]. split; [|lia]. unfold range_ok. fold B D. cbn [has].
      split; [lia|]. split; [lra|]. intros _. rewrite Rminus_0_r, C1. lra. }
    rewrite andb_true_r. specialize (HT ltac:(discriminate)).
    assert (PB4 : (4 <= bpow radix2 B)%R) by (change 4%R with (bpow radix2 2); apply bpow_le; unfold B; lia).
    destruct (Z.eqb_spec t (2 ^ B - 1)) as [ET|NT]; cbv iota.
    + exists (e + 1). split; [f_equal; unfold e; lia|]. split; [|lia]. unfold range_ok. fold B D. cbn [has].
      split; [lia|].
      assert (H1 : (bpow radix2 (B - (e + 1)) = bpow radix2 (B - e) / 2)%R).
      { replace (B - (e + 1)) with (B - e + -1) by lia. rewrite bpow_plus. change (bpow radix2 (-1)) with (/ 2)%R. unfold Rdiv. ring. }
      assert (H2 : (bpow radix2 (e + 1 - B) = bpow radix2 (e - B) * 2)%R).
      { replace (e + 1 - B) with (e - B + 1) by lia. rewrite bpow_plus. reflexivity. }
      rewrite H1, H2. split; [lra|]. intros _.
      subst t. rewrite minus_IZR, PI in T1. pose proof (bpow_gt_0 radix2 (e - B)) as PE.
      assert (H3 : (D * bpow radix2 (B - e) * bpow radix2 (e - B) = D)%R).
      { rewrite Rmult_assoc, <- bpow_plus. replace (B - e + (e - B)) with 0 by lia. cbn [bpow]. ring. }
      assert (H4 : ((bpow radix2 B - 1) * bpow radix2 (e - B) <= D)%R).
      { rewrite <- H3. apply Rmult_le_compat_r; lra. }
      lra.
    + exists e. split; [f_equal; unfold e; lia|]. split; [|lia]. unfold range_ok. fold B D. cbn [has].
      split; [lia|]. split.
      * assert (t + 1 <= 2 ^ B - 1) by lia. apply IZR_le in H. rewrite plus_IZR, minus_IZR, PI in H. lra.
      * intros _. pose proof (bpow_gt_0 radix2 (e - B)). rewrite Rmult_minus_distr_l, C1. lra.
Qed.

(** The tokens. *)
Lemma mul_ok b te : (1 <= b <= 32)%nat -> -200 <= te <= 200 ->
  is64 (f64_div (f64_pow2 (Z.of_nat b)) (f64_pow2 te)) (bpow radix2 (Z.of_nat b - te)).
Proof.
  intros HB HT. assert (EQ : (bpow radix2 (Z.of_nat b) / bpow radix2 te = bpow radix2 (Z.of_nat b - te))%R).
  { unfold Zminus. rewrite bpow_plus, bpow_opp. reflexivity. }
  rewrite <- (rnd64_id (bpow radix2 (Z.of_nat b - te))) by (apply generic_format_bpow; unfold SpecFloat.fexp, SpecFloat.emin; lia).
  rewrite <- EQ. apply f64_div_ok; try (apply f64_pow2_ok; lia).
  - pose proof (bpow_gt_0 radix2 te). lra.
  - rewrite EQ, Rabs_pos_eq by apply bpow_ge_0. apply bpow_le. lia.
Qed.

Definition token_of (lo : Z) (s : Z) (w t : Z) : Prop :=
  0 <= t /\ (IZR t * bpow radix2 s <= diff lo w < (IZR t + 1) * bpow radix2 s)%R.

Lemma field_token_ok tag b lo hi te w mul : finite_word lo -> finite_word w -> sval lo <= sval w <= sval hi ->
  (Rabs (V lo) <= big)%R -> (Rabs (V w) <= big)%R -> (1 <= b <= 32)%nat -> range_ok tag b lo hi te -> is_tag tag w = false ->
  is64 mul (bpow radix2 (Z.of_nat b - te)) ->
  exists t, field_token tag b (widen (word_f32 lo)) mul w = Some t /\ t < 2 ^ Z.of_nat b - has tag /\ token_of lo (te - Z.of_nat b) w t.
Proof.
  intros FL FW LE BL BW HB (HT & F1 & _) NT MU. unfold field_token. rewrite NT.
  set (B := Z.of_nat b) in *. assert (HB' : 1 <= B <= 32) by (unfold B; lia).
  pose proof (diff_times lo w mul (B - te) FL FW ltac:(lia) BL BW ltac:(lia) MU) as X.
  pose proof (diff_nonneg lo w ltac:(lia)) as D0. pose proof (diff_mono lo w hi ltac:(lia)) as D1. pose proof (bpow_gt_0 radix2 (B - te)) as PE.
  assert (V0 : (0 <= diff lo w * bpow radix2 (B - te))%R) by nra.
  assert (V1 : (diff lo w * bpow radix2 (B - te) < bpow radix2 B - IZR (has tag))%R).
  { eapply Rle_lt_trans; [|exact F1]. apply Rmult_le_compat_r; lra. }
  destruct (int_part _ V0) as (t & T0 & T1).
  assert (PI : (IZR (2 ^ B) = bpow radix2 B)%R) by (change (2 ^ B) with (radix2 ^ B); apply IZR_Zpower; lia).
  assert (T3 : t < 2 ^ B - has tag) by (apply lt_IZR; rewrite minus_IZR, PI; lra).
  assert (0 <= has tag) by (destruct tag; cbn; lia).
  assert (T4 : 2 ^ B <= 2 ^ 32) by (apply Z.pow_le_mono_r; lia).
  exists t. split; [apply (f64_u32_ok _ _ t X ltac:(lia) T1)|]. split; [exact T3|]. split; [exact T0|].
  pose proof (bpow_gt_0 radix2 (te - B)) as PS.
  assert (H3 : (diff lo w * bpow radix2 (B - te) * bpow radix2 (te - B) = diff lo w)%R).
  { rewrite Rmult_assoc, <- bpow_plus. replace (B - te + (te - B)) with 0 by lia. cbn [bpow]. ring. }
  rewrite <- H3 at 1 2. split; [apply Rmult_le_compat_r; lra|apply Rmult_lt_compat_r; lra].
Qed.
