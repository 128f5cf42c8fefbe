(** The criterion on dates. *)
From Coq Require Import ZArith List Bool Lia ZifyBool Reals Lra.
From Flocq Require Import Core BinarySingleNaN.
From Verif Require Import Bits Flo FloatField FloatPack FloatDouble Convip ConvipFacts ConvipMain Excdes ExcdesSpec ExcdesFacts ExcdesIp.
From Verif Require Dates.
Import ListNotations.
Open Scope Z_scope.
Open Scope opt_scope.
Import Dates.

(** * difdatr gives a moderate number *)
Lemma jd_bound y m d : Z.abs y <= 20000 -> Z.abs m <= 300 -> Z.abs d <= 300 -> Z.abs (jd y m d) <= 100000000.
Proof.
  intros Y M D. unfold jd. set (a := (m - 14) /f 12). assert (A : Z.abs a <= 27) by (unfold a; Z.to_euclidean_division_equations; lia).
  set (b := 1461 * (y + 4800 + a) /f 4). assert (B : Z.abs b <= 1461 * 30000) by (unfold b; clearbody a; Z.to_euclidean_division_equations; lia).
  set (c := 367 * (m - 2 - a * 12) /f 12). assert (C : Z.abs c <= 367 * 1000) by (unfold c; clearbody a; Z.to_euclidean_division_equations; lia).
  set (e := (y + 4900 + a) /f 100). assert (E : Z.abs e <= 30000) by (unfold e; clearbody a; Z.to_euclidean_division_equations; lia).
  set (f := 3 * e /f 4). assert (F : Z.abs f <= 90000) by (unfold f; clearbody e; Z.to_euclidean_division_equations; lia). clearbody a b c e f. lia.
Qed.
Lemma rem100 x : Z.abs (x %f 100) < 100. Proof. pose proof (Z.rem_bound_abs x 100 ltac:(lia)). lia. Qed.
Lemma dec8_bound s : Z.abs s <= 2 ^ 33 -> Z.abs (dec8 s) <= 2 ^ 33.
Proof. intros H. unfold dec8. Z.to_euclidean_division_equations. lia. Qed.
Lemma mode_1_bound s t r : word s -> mode_1 s = Some (t, r) -> Z.abs t <= 2 ^ 43.
Proof.
  intros W. unfold word in W. unfold mode_1. destruct (Z.leb_spec tdstart s) as [H|H].
  - destruct (negb (validtd _)); [discriminate|]. intros E. injection E as <- _. pose proof (dec8_bound (s - tdstart)) as B. unfold tdstart in *. specialize (B ltac:(lia)). lia.
  - destruct (s <? -1); [discriminate|]. destruct (negb (validtd _)); [discriminate|]. intros E. injection E as <- _.
    pose proof (rem100 (s /f 10)). pose proof (rem100 (s /f 1000)). pose proof (rem100 (s /f 100000)). pose proof (rem100 (s /f 10000000)).
    pose proof (jd_bound (s /f 1000 %f 100 + 1900) (s /f 10000000 %f 100) (s /f 100000 %f 100) ltac:(lia) ltac:(lia) ltac:(lia)) as B. unfold jd1980.
    set (j := jd _ _ _) in *. set (z := s /f 10 %f 100) in *. clearbody j z. lia.
Qed.
Lemma ext_hours_bound s t : word s -> ext_hours s = Some t -> Z.abs t <= 2 ^ 33.
Proof.
  intros W. unfold word in W. unfold ext_hours. destruct (Z.ltb_spec (-1) s) as [H|H].
  - destruct (mode_m3 s) as [[p1 p2]|]; [|discriminate]. cbn [bind]. unfold mode_7. destruct (_ || _); [discriminate|]. destruct (validtme _ _ _ _) eqn:V; [|discriminate]. cbn [negb].
    destruct (negb (feb29_ok _ _ _)); [discriminate|]. intros E. injection E as <-.
    pose proof (Z.rem_bound_abs (p1 /f 10000) 10000 ltac:(lia)). pose proof (rem100 (p1 /f 100)). pose proof (rem100 p1). pose proof (rem100 (p2 /f 1000000)).
    set (y := p1 /f 10000 %f 10000) in *. set (m := p1 /f 100 %f 100) in *. set (d := p1 %f 100) in *. set (z := p2 /f 1000000 %f 100) in *.
    pose proof (jd_bound y m d ltac:(lia) ltac:(lia) ltac:(lia)) as B. unfold jd0. set (j := jd y m d) in *. clearbody j y m d z. lia.
  - destruct (Z.lt_ge_cases s (-1)) as [H0|H0]; [unfold mode_6; rewrite (proj2 (Z.ltb_lt s (-1))) by exact H0|].
    + destruct (_ || _); [discriminate|]. intros E. apply some_inj in E. subst t. pose proof (Z.mod_pos_bound s (2 ^ 32) ltac:(lia)). set (u := s mod 2 ^ 32) in *. clearbody u. 
 apply dec8_bound.
 unfold troisg. lia.
    + intros E. assert (S1 : s = -1) by lia. rewrite S1 in E. assert (E1 : mode_6 (-1) = Some 16654296) by (vm_compute; reflexivity). rewrite E1 in E. apply some_inj in E. lia.
Qed.
Lemma difdat_bound a b k : word a -> word b -> difdat false a b = Some k -> Z.abs k <= 2 ^ 44.
Proof.
  intros A B. unfold difdat. rewrite orb_comm. destruct (_ || _).
  - destruct (ext_hours a) as [x|] eqn:X; [|discriminate]. destruct (ext_hours b) as [y|] eqn:Y; [|discriminate]. cbn [bind]. intros E. apply some_inj in E. subst k.
    apply ext_hours_bound in X; [|exact A]. apply ext_hours_bound in Y; [|exact B]. lia.
  - destruct (mode_1 a) as [[x r]|] eqn:X; [|discriminate]. destruct (mode_1 b) as [[y r']|] eqn:Y; [|discriminate]. cbn [bind]. intros E. apply some_inj in E. subst k.
    apply mode_1_bound in X; [|exact A]. apply mode_1_bound in Y; [|exact B]. lia.
Qed.

Lemma difdat_self a b : stamp b -> (exists k, difdat false a b = Some k) <-> difdat false a a = Some 0.
Proof.
  intros (B & M & X). unfold difdat. rewrite (proj2 (Z.ltb_ge b (-1))) by lia. rewrite orb_diag. cbn [orb]. destruct (a <? -1).
  - destruct (ext_hours a) as [x|]; cbn [bind]; [|split; [intros (k & K); discriminate|discriminate]]. destruct (ext_hours b) as [y|]; [|congruence]. cbn [bind]. split; intros _; [f_equal; lia|eauto].
  - destruct (mode_1 a) as [[x r]|]; cbn [bind]; [|split; [intros (k & K); discriminate|discriminate]]. destruct (mode_1 b) as [[y r']|]; [|congruence]. cbn [bind]. split; intros _; [f_equal; lia|eauto].
Qed.
Lemma difdat_none a b : stamp b -> difdat false a b = None -> difdat false a a = None.
Proof.
  intros (B & M & X). unfold difdat. rewrite (proj2 (Z.ltb_ge b (-1))) by lia. rewrite orb_diag. cbn [orb]. destruct (a <? -1).
  - destruct (ext_hours a) as [x|]; cbn [bind]; [|reflexivity]. destruct (ext_hours b) as [y|]; [discriminate|congruence].
  - destruct (mode_1 a) as [[x r]|]; cbn [bind]; [|reflexivity]. destruct (mode_1 b) as [[y r']|]; [discriminate|congruence].
Qed.

(** * The number of hours *)
Definition hours (k : Z) : R := rnd64 (IZR k / 720).
Lemma hours_is k : Z.abs k <= 2 ^ 44 -> is64 (f64_div (f64_of k) (f64_of 720)) (hours k).
Proof.
  intros K. apply (f64_div_ok _ _ (IZR k) 720); [apply f64_of_ok; lia|apply (f64_of_ok 720); lia|lra|].
  unfold Rdiv. rewrite Rabs_mult, <- abs_IZR, (Rabs_pos_eq (/ _)) by lra. apply Rle_trans with (bpow radix2 44); [rewrite <- (IZR_Zpower radix2 44) by lia; change (radix_val radix2) with 2|apply bpow_le; lia]. apply IZR_le in K. assert (0 <= IZR (Z.abs k))%R by (apply IZR_le; lia). lra.
Qed.
Lemma hours_near k : Z.abs k <= 2 ^ 44 -> (Rabs (hours k - IZR k / 720) <= / 10000)%R.
Proof.
  intros K. destruct (rnd64_near (IZR k / 720)) as (d & D & E).
  - destruct (Z.eq_dec k 0) as [->|N]; [left; field|right]. apply Rle_trans with (bpow radix2 (-10)); [apply bpow_le; lia|]. unfold Rdiv. rewrite Rabs_mult, <- abs_IZR, (Rabs_pos_eq (/ _)) by lra.
    assert (1 <= IZR (Z.abs k))%R by (apply IZR_le; lia). change (bpow radix2 (-10)) with (/ 1024)%R. lra.
  - unfold hours. rewrite E. replace (IZR k / 720 * (1 + d) - IZR k / 720)%R with (IZR k * d * / 720)%R by field. rewrite !Rabs_mult, <- abs_IZR, (Rabs_pos_eq (/ _)) by lra.
    apply IZR_le in K. pose proof e53_small. assert (0 <= IZR (Z.abs k))%R by (apply IZR_le; lia). pose proof (Rabs_pos d). change (IZR (2 ^ 44)) with 17592186044416%R in K.
    assert (IZR (Z.abs k) * Rabs d <= 17592186044416 * / 1000000000000000)%R by (apply Rmult_le_compat; lra).
    apply Rle_trans with (17592186044416 * / 1000000000000000 * / 720)%R; [|lra]. apply Rmult_le_compat_r; lra.
Qed.
Lemma hours_int j : Z.abs (720 * j) <= 2 ^ 44 -> hours (720 * j) = IZR j.
Proof.
  intros H. unfold hours. rewrite mult_IZR. replace (720 * IZR j / 720)%R with (IZR j) by field. apply rnd64_id, fmt64_int. lia.
Qed.
Lemma hours_0 : hours 0 = 0%R. Proof. apply (hours_int 0). lia. Qed.
Lemma hours_sign k : Z.abs k <= 2 ^ 44 -> (0 <= hours k)%R <-> 0 <= k.
Proof.
  intros K. pose proof (hours_near k K) as N. apply Rabs_le_inv in N. destruct (Z.eq_dec k 0) as [->|Z].
  - rewrite hours_0. split; [lia|lra].
  - split; intros H.
    + destruct (Z.lt_ge_cases k 0) as [L|L]; [|exact L]. assert (IZR k <= -1)%R by (apply IZR_le; lia). lra.
    + assert (1 <= IZR k)%R by (apply IZR_le; lia). lra.
Qed.
Lemma hours_sign' k : Z.abs k <= 2 ^ 44 -> (hours k <= 0)%R <-> k <= 0.
Proof.
  intros K. pose proof (hours_near k K) as N. apply Rabs_le_inv in N. destruct (Z.eq_dec k 0) as [->|Z].
  - rewrite hours_0. split; [lia|lra].
  - split; intros H.
    + destruct (Z.lt_ge_cases 0 k) as [L|L]; [|exact L]. assert (1 <= IZR k)%R by (apply IZR_le; lia). lra.
    + assert (IZR k <= -1)%R by (apply IZR_le; lia). lra.
Qed.

(** fmod is exact. *)
Lemma fmod_ok x y X Y : is64 x X -> is64 y Y -> (0 <= X <= bpow radix2 1000)%R -> (0 < Y)%R -> exists n, 0 <= n /\ is64 (fmod x y) (X - IZR n * Y) /\ (0 <= X - IZR n * Y < Y)%R.
Proof.
  intros [EX FX] [EY FY] [PX BX] PY. unfold r64 in *.
  destruct y as [s'|s'| |s' m' e' B']; try discriminate FY; [cbn in EY; lra|].
  assert (S' : s' = false). { destruct s'; [|reflexivity]. exfalso. assert (G : (B2R (B754_finite true m' e' B') < 0)%R) by (apply F2R_lt_0; reflexivity). lra. }
  subst s'. destruct x as [s|s| |s m e B]; try discriminate FX.
  - exists 0. cbn in EX. subst X. split; [lia|]. split; [|lra]. split; [|reflexivity]. unfold r64. cbn. ring.
  - assert (S : s = false). { destruct s; [|reflexivity]. exfalso. assert (G : (B2R (B754_finite true m e B) < 0)%R) by (apply F2R_lt_0; reflexivity). lra. }
    subst s. cbn [B2R SpecFloat.cond_Zopp] in EX, EY. unfold F2R in EX, EY. cbn [Fnum Fexp] in EX, EY.
    set (c := Z.min e e'). set (a := Z.pos m * 2 ^ (e - c)). set (b := Z.pos m' * 2 ^ (e' - c)).
    assert (P2 : 0 < 2 ^ (e - c) /\ 0 < 2 ^ (e' - c)) by (split; apply Z.pow_pos_nonneg; lia).
    assert (A0 : 0 < a) by (unfold a; nia). assert (B0 : 0 < b) by (unfold b; nia).
    assert (XA : X = (IZR a * bpow radix2 c)%R).
    { unfold a. rewrite mult_IZR, <- EX. change 2 with (radix_val radix2). rewrite IZR_Zpower by lia. rewrite Rmult_assoc, <- bpow_plus. do 2 f_equal. lia. }
    assert (YB : Y = (IZR b * bpow radix2 c)%R).
    { unfold b. rewrite mult_IZR, <- EY. change 2 with (radix_val radix2). rewrite IZR_Zpower by lia. rewrite Rmult_assoc, <- bpow_plus. do 2 f_equal. lia. }
    pose proof (Z.mod_pos_bound a b B0) as MB. pose proof (Z.div_mod a b ltac:(lia)) as DM. pose proof (Z.mod_le a b ltac:(lia) B0) as ML.
    exists (a / b). split; [apply Z.div_pos; lia|].
    assert (V : (X - IZR (a / b) * Y)%R = (IZR (a mod b) * bpow radix2 c)%R).
    { rewrite XA, YB. replace (IZR a) with (IZR b * IZR (a / b) + IZR (a mod b))%R by (rewrite <- mult_IZR, <- plus_IZR; f_equal; lia). ring. }
    rewrite V. pose proof (bpow_gt_0 radix2 c) as CP. split.
    + assert (R53 : a mod b < 2 ^ 53 /\ -1074 <= c).
      { destruct (f64_mantissa m e B) as [C1|C1], (f64_mantissa m' e' B') as [C2|C2]; (split; [|lia]); (destruct (Z.le_gt_cases e e'); [assert (C : c = e) by lia; assert (a = Z.pos m) by (unfold a; rewrite C, Z.sub_diag; lia); lia|assert (C : c = e') by lia; assert (b = Z.pos m') by (unfold b; rewrite C, Z.sub_diag; lia); lia]). }
      apply f64_lit_ok.
      * apply (generic_format_FLT radix2 (-1074) 53). exists (Float radix2 (a mod b) c); cbn [Fnum Fexp]; [reflexivity| |lia]. change (radix_val radix2) with 2. lia.
      * rewrite <- V. rewrite Rabs_pos_eq; [|rewrite V; apply Rmult_le_pos; [apply IZR_le; lia|lra]]. eapply Rle_trans; [|exact BX].
        assert (0 <= IZR (a / b))%R by (apply IZR_le, Z.div_pos; lia). nra.
    + rewrite YB. split; [apply Rmult_le_pos; [apply IZR_le; lia|lra]|apply Rmult_lt_compat_r; [exact CP|apply IZR_lt; lia]].
Qed.

(** * The comparisons *)
Lemma difdat_refl a k : difdat false a a = Some k -> k = 0.
Proof.
  unfold difdat. destruct (_ || _).
  - destruct (ext_hours a) as [x|]; [|discriminate]. cbn [bind]. intros E. apply some_inj in E. lia.
  - destruct (mode_1 a) as [[x r]|]; [|discriminate]. cbn [bind]. intros E. apply some_inj in E. lia.
Qed.
Lemma zero64 : is64 (f64_of 0) 0. Proof. apply (f64_of_ok 0). lia. Qed.
Lemma error64 : is64 (f64_of (2 ^ 30)) 1073741824. Proof. apply (f64_of_ok (2 ^ 30)). lia. Qed.
Lemma ge0_ok a b : word a -> word b -> f64_leb (f64_of 0) (difdatr a b) = true <-> difdat false a b = None \/ not_before a b.
Proof.
  intros A B. unfold difdatr, not_before. destruct (difdat false a b) as [k|] eqn:E.
  - pose proof (difdat_bound a b k A B E) as K. rewrite (f64_leb_ok _ _ _ _ zero64 (hours_is k K)). pose proof (hours_sign k K) as S. destruct (Rle_bool_spec 0 (hours k)) as [H|H].
    + split; [intros _; right; exists k; split; [reflexivity|apply S; exact H]|reflexivity].
    + split; [discriminate|]. intros [X|(j & J & L)]; [discriminate|]. apply some_inj in J. subst j. apply S in L. lra.
  - rewrite (f64_leb_ok _ _ _ _ zero64 error64). rewrite Rle_bool_true by lra. split; [left; reflexivity|reflexivity].
Qed.
Lemma le0_ok a b : word a -> word b -> f64_leb (difdatr a b) (f64_of 0) = true <-> not_after a b.
Proof.
  intros A B. unfold difdatr, not_after. destruct (difdat false a b) as [k|] eqn:E.
  - pose proof (difdat_bound a b k A B E) as K. rewrite (f64_leb_ok _ _ _ _ (hours_is k K) zero64). pose proof (hours_sign' k K) as S. destruct (Rle_bool_spec (hours k) 0) as [H|H].
    + split; [intros _; exists k; split; [reflexivity|apply S; exact H]|reflexivity].
    + split; [discriminate|]. intros (j & J & L). apply some_inj in J. subst j. apply S in L. lra.
  - rewrite (f64_leb_ok _ _ _ _ error64 zero64). rewrite Rle_bool_false by lra. split; [discriminate|intros (j & J & _); discriminate].
Qed.
Lemma ge0_self a : word a -> f64_leb (f64_of 0) (difdatr a a) = true.
Proof. intros A. apply ge0_ok; try assumption. destruct (difdat false a a) as [k|] eqn:E; [right|left; reflexivity]. exists k. apply difdat_refl in E as E'. split; [assumption|lia]. Qed.
Lemma le0_self a : word a -> f64_leb (difdatr a a) (f64_of 0) = true <-> difdat false a a = Some 0.
Proof.
  intros A. rewrite le0_ok by assumption. unfold not_after. split.
  - intros (k & K & _). rewrite K. apply difdat_refl in K. congruence.
  - intros K. exists 0. split; [exact K|lia].
Qed.
Lemma stamp_word v : stamp v -> word v /\ v <=? 0 = false.
Proof. intros (H & _). unfold word. split; [lia|]. apply Z.leb_gt. lia. Qed.

(** The steps. *)
Lemma five_seconds : exists w, is64 (lit64 5 3600) w /\ (/ 1000 <= w <= / 500)%R.
Proof.
  assert (A : (Rabs (5 / 3600) <= bpow radix2 1000)%R) by (rewrite Rabs_pos_eq by lra; apply Rle_trans with (bpow radix2 0); [cbn; lra|apply bpow_le; lia]).
  eexists. split; [apply (f64_div_ok _ _ 5 3600); [apply (f64_of_ok 5); lia|apply (f64_of_ok 3600); lia|lra|exact A]|].
  destruct (rnd64_near (5 / 3600)) as (d & D & E).
  { right. rewrite Rabs_pos_eq by lra. apply Rle_trans with (bpow radix2 (-10)); [apply bpow_le; lia|]. change (bpow radix2 (-10)) with (/ 1024)%R. lra. }
  rewrite E. pose proof e53_small. apply Rabs_le_inv in D. lra.
Qed.
Lemma delta_is h : 1 <= h <= 596523 -> is64 (f64_div (f64_of (h * 3600)) (f64_of 3600)) (IZR h).
Proof.
  intros H. replace (IZR h) with (rnd64 (IZR (h * 3600) / 3600)).
  - apply (f64_div_ok _ _ (IZR (h * 3600)) 3600); [apply f64_of_ok; lia|apply (f64_of_ok 3600); lia|lra|].
    rewrite mult_IZR. replace (IZR h * 3600 / 3600)%R with (IZR h) by field. apply Rle_trans with (bpow radix2 30); [apply abs_int_bound; lia|apply bpow_le; lia].
  - rewrite mult_IZR. replace (IZR h * 3600 / 3600)%R with (IZR h) by field. apply rnd64_id, fmt64_int. lia.
Qed.
Lemma step_ok k h : 0 <= k <= 2 ^ 44 -> 1 <= h <= 596523 -> k mod (720 * h) <> 1 ->
  f64_leb (fmod (f64_div (f64_of k) (f64_of 720)) (f64_div (f64_of (h * 3600)) (f64_of 3600))) (lit64 5 3600) = true <-> (720 * h | k).
Proof.
  intros K H M. pose proof (hours_is k ltac:(lia)) as HI. pose proof (hours_near k ltac:(lia)) as HN. apply Rabs_le_inv in HN.
  assert (HP : (0 <= hours k)%R) by (apply hours_sign; lia).
  assert (KR : (0 <= IZR k <= 17592186044416)%R) by (split; apply IZR_le; lia).
  destruct (fmod_ok _ _ _ _ HI (delta_is h H)) as (n & N & F & B).
  { split; [exact HP|]. apply Rle_trans with (bpow radix2 44); [|apply bpow_le; lia]. rewrite <- (IZR_Zpower radix2 44) by lia. change (IZR (radix_val radix2 ^ 44)) with 17592186044416%R. lra. }
  { apply IZR_lt. lia. }
  destruct five_seconds as (w & W & WB). rewrite (f64_leb_ok _ _ _ _ F W). clear W F HI.
  pose proof (Z.div_mod k (720 * h) ltac:(lia)) as DM. pose proof (Z.mod_pos_bound k (720 * h) ltac:(lia)) as MB. set (j := k / (720 * h)) in *. set (r := k mod (720 * h)) in *.
  assert (KE : (IZR k / 720)%R = (IZR h * IZR j + IZR r / 720)%R) by (rewrite DM, plus_IZR, !mult_IZR; field).
  assert (HR : (1 <= IZR h)%R) by (apply IZR_le; lia).
  assert (DV : (720 * h | k) <-> r = 0).
  { unfold r. split; [apply Z.mod_divide; lia|apply Z.mod_divide; lia]. }
  rewrite DV. clear DV. destruct (Z.eq_dec r 0) as [R0|R0].
  - split; [intros _; exact R0|intros _]. assert (HV : hours k = (IZR h * IZR j)%R) by (replace k with (720 * (h * j)) by lia; rewrite hours_int by lia; rewrite mult_IZR; reflexivity).
    assert (NJ : n = j).
    { assert (Q : (IZR h * IZR j - IZR n * IZR h)%R = IZR (h * (j - n))) by (rewrite mult_IZR, minus_IZR; ring). rewrite HV, Q in B. destruct B as [B1 B2]. apply le_IZR in B1. apply lt_IZR in B2. clear - B1 B2 H. nia. }
    subst n. rewrite HV. apply Rle_bool_true. lra.
  - split; [|contradiction]. intros X. exfalso. destruct (Rle_bool_spec (hours k - IZR n * IZR h) w) as [L|L]; [|discriminate]. clear X.
    assert (R2 : (2 <= IZR r)%R) by (apply IZR_le; lia). assert (RB : (IZR r <= 720 * IZR h - 1)%R) by (rewrite <- mult_IZR, <- minus_IZR; apply IZR_le; lia).
    destruct (Z.lt_trichotomy n j) as [C|[C|C]].
    + assert (IZR n <= IZR j - 1)%R by (rewrite <- minus_IZR; apply IZR_le; lia). assert (IZR n * IZR h <= (IZR j - 1) * IZR h)%R by (apply Rmult_le_compat_r; lra). lra.
    + subst n. lra.
    + assert (IZR j + 1 <= IZR n)%R by (rewrite <- plus_IZR; apply IZR_le; lia). assert ((IZR j + 1) * IZR h <= IZR n * IZR h)%R by (apply Rmult_le_compat_r; lra). lra.
Qed.

Lemma match_until d w date : i_use d = RANGE -> nth 0 (i_data d) 0 = -2 -> nth 1 (i_data d) 0 = w -> stamp w -> word date ->
  exists b, match_dates d date = Some b /\ (b = true <-> not_after date w).
Proof.
  intros U D0 D1 W D. destruct (stamp_word w W) as [W1 W2]. unfold match_dates. rewrite U, D0, D1, W2. cbn [VALUE RANGE Z.eqb Pos.eqb Z.leb Z.compare]. eexists. split; [reflexivity|].
  rewrite ge0_self by exact D. cbn [andb]. apply le0_ok; assumption.
Qed.
Lemma match_from d v date : i_use d = RANGE -> nth 0 (i_data d) 0 = v -> nth 1 (i_data d) 0 = -2 -> stamp v -> word date ->
  exists b, match_dates d date = Some b /\ (b = true <-> not_before date v).
Proof.
  intros U D0 D1 V D. destruct (stamp_word v V) as [V1 V2]. unfold match_dates. rewrite U, D0, D1, V2. cbn [VALUE RANGE Z.eqb Pos.eqb Z.leb Z.compare]. eexists. split; [reflexivity|].
  rewrite andb_true_iff, ge0_ok, le0_self by assumption. split.
  - intros [[N|B] S]; [|exact B]. apply difdat_none in N; [congruence|exact V].
  - intros B. split; [right; exact B|]. destruct B as (k & K & _). apply (difdat_self date v V). eauto.
Qed.
Lemma inside_ok v w date : stamp v -> stamp w -> word date ->
  f64_leb (f64_of 0) (difdatr date v) && f64_leb (difdatr date w) (f64_of 0) = true <-> not_before date v /\ not_after date w.
Proof.
  intros V W D. destruct (stamp_word v V) as [V1 V2]. destruct (stamp_word w W) as [W1 W2]. rewrite andb_true_iff, ge0_ok, le0_ok by assumption. split.
  - intros [[N|B] S]; [|auto]. apply difdat_none in N; [|exact V]. destruct S as (k & K & _). assert (X : difdat false date date = Some 0) by (apply (difdat_self date w W); eauto). congruence.
  - intros [B S]. auto.
Qed.
Lemma match_within d v w date : i_use d = RANGE -> nth 0 (i_data d) 0 = v -> nth 1 (i_data d) 0 = w -> stamp v -> stamp w -> word date ->
  exists b, match_dates d date = Some b /\ (b = true <-> not_before date v /\ not_after date w).
Proof.
  intros U D0 D1 V W D. destruct (stamp_word v V) as [V1 V2]. destruct (stamp_word w W) as [W1 W2]. unfold match_dates. rewrite U, D0, D1, V2, W2. cbn [VALUE RANGE Z.eqb Pos.eqb]. eexists. split; [reflexivity|].
  apply inside_ok; assumption.
Qed.
Lemma match_every d v w h date : i_use d = DELTA -> i_delta d = h * 3600 -> nth 0 (i_data d) 0 = v -> nth 1 (i_data d) 0 = w -> stamp v -> stamp w -> 1 <= h <= 596523 -> word date ->
  (forall k, difdat false date v = Some k -> k mod (720 * h) <> 1) ->
  exists b, match_dates d date = Some b /\ (b = true <-> not_before date v /\ not_after date w /\ on_step date v h).
Proof.
  intros U DE D0 D1 V W H D ST. destruct (stamp_word v V) as [V1 V2]. destruct (stamp_word w W) as [W1 W2]. unfold match_dates. rewrite U, DE, D0, D1, V2, W2. cbn [VALUE RANGE DELTA Z.eqb Pos.eqb]. eexists. split; [reflexivity|].
  rewrite andb_true_iff, inside_ok by assumption. split.
  - intros [[(k & K & K0) B] F]. split; [exists k; auto|]. split; [exact B|]. exists k. split; [exact K|]. unfold difdatr in F. rewrite K in F. pose proof (difdat_bound date v k D V1 K). apply step_ok in F; [exact F|lia|exact H|apply ST; exact K].
  - intros ((k & K & K0) & B & (j & J & DV)). rewrite K in J. apply some_inj in J. subst j. split; [split; [exists k; auto|exact B]|]. unfold difdatr. rewrite K. pose proof (difdat_bound date v k D V1 K). apply step_ok; [lia|exact H|apply ST; exact K|exact DV].
Qed.

(** * The list read *)
Lemma loop_reads fuel : forall d arr nelm i range delta d', date_loop fuel d arr nelm i range delta = Some (true, d') -> fuel = O \/ i + Z.of_nat fuel <= Z.of_nat (length arr).
Proof.
  induction fuel as [|fuel IH]; intros d arr nelm i range delta d' H; [left; reflexivity|right]. cbn [date_loop] in H.
  destruct (at_ arr i) as [v|] eqn:E; [|discriminate]. apply at_some in E as [E _]. cbn [bind] in H.
  assert (G : fuel = O \/ i + 1 + Z.of_nat fuel <= Z.of_nat (length arr)); [|destruct G as [->|G]; lia].
  match type of H with (bind ?x _) = _ => destruct x as [[[ok d1] de]|] end; [|discriminate]. cbn [bind] in H. destruct ok; cbn [negb] in H; [|discriminate].
  destruct (v =? READLX_RANGE).
  - destruct (_ || _); [discriminate|]. match type of H with (bind ?x _) = _ => destruct x end; [|discriminate]. cbn [bind] in H. eapply IH. exact H.
  - eapply IH. exact H.
Qed.
Lemma loop_values fuel : forall d arr nelm i range delta, 0 <= i -> i + Z.of_nat fuel <= Z.of_nat (length arr) -> i + Z.of_nat fuel <= Z.of_nat (length (i_data d)) ->
  (forall j, i <= j < i + Z.of_nat fuel -> nth (Z.to_nat j) arr 0 <> READLX_RANGE /\ nth (Z.to_nat j) arr 0 <> READLX_DELTA) ->
  exists l, date_loop fuel d arr nelm i range delta = Some (true, idata d l) /\ length l = length (i_data d) /\
    (forall j, (j < length l)%nat -> nth j l 0 = if (i <=? Z.of_nat j) && (Z.of_nat j <? i + Z.of_nat fuel) then nth j arr 0 else nth j (i_data d) 0).
Proof.
  induction fuel as [|fuel IH]; intros d arr nelm i range delta I0 LA LD NK.
  - exists (i_data d). split; [destruct d; reflexivity|]. split; [reflexivity|]. intros j J. destruct ((i <=? Z.of_nat j) && (Z.of_nat j <? i + Z.of_nat 0)) eqn:E; [|reflexivity]. lia.
  - cbn [date_loop]. unfold at_ at 1. rewrite (proj2 (Z.leb_le 0 i)) by exact I0. rewrite (nth_error_nth' arr 0) by lia. cbn [bind].
    destruct (NK i ltac:(lia)) as [N1 N2]. set (v := nth (Z.to_nat i) arr 0) in *. rewrite (proj2 (Z.eqb_neq _ _) N2). cbn [bind negb]. rewrite (proj2 (Z.eqb_neq _ _) N1).
    destruct (IH (idata d (put (i_data d) (Z.to_nat i) v)) arr nelm (i + 1) range delta) as (l & E & L & G); [lia|lia|cbn [idata i_data]; rewrite put_length; lia|intros j J; apply NK; lia|].
    exists l. split; [exact E|]. cbn [idata i_data] in *. rewrite put_length in L. split; [exact L|]. intros j J. rewrite G by exact J. rewrite put_nth by lia.
    destruct (Nat.eqb_spec j (Z.to_nat i)) as [->|NE].
    + replace ((i <=? Z.of_nat (Z.to_nat i)) && (Z.of_nat (Z.to_nat i) <? i + Z.of_nat (S fuel))) with true by lia.
      replace ((i + 1 <=? Z.of_nat (Z.to_nat i)) && (Z.of_nat (Z.to_nat i) <? i + 1 + Z.of_nat fuel)) with false by lia. reflexivity.
    + replace ((i + 1 <=? Z.of_nat j) && (Z.of_nat j <? i + 1 + Z.of_nat fuel)) with ((i <=? Z.of_nat j) && (Z.of_nat j <? i + Z.of_nat (S fuel))) by lia. reflexivity.
Qed.

Definition fill_dates (d : de_int) (arr : list Z) (nelm : Z) : option (bool * de_int) :=
  a0 <- at_ arr 0 ;;
  let n := if a0 =? -1 then 1 else nelm in
  let d := {| i_use := VALUE; i_nelm := n; i_delta := 0; i_data := put (i_data d) 0 a0 |} in
  if n =? 1 then Some (true, d) else date_loop (Z.to_nat n) d arr n 0 0 0.

Lemma date_values_case l date : l <> [] -> Forall (fun v => v <> -2 /\ v <> -3) l -> hd 0 l <> -1 -> date_ok l date <-> In date l.
Proof.
  intros N F H. destruct l as [|a l]; [contradiction|]. cbn [hd] in H. inversion F as [|? ? [A1 A2] F1]; subst.
  destruct l as [|b l]; [destruct a as [|a|[a|[a|a|]|]]; try reflexivity; congruence|]. inversion F1 as [|? ? [B1 B2] F2]; subst.
  destruct a as [|a|[a|[a|a|]|]]; try congruence; destruct b as [|b|[b|[b|b|]|]]; try congruence; reflexivity.
Qed.
Lemma match_values d l date : i_use d = VALUE -> firstn (Z.to_nat (i_nelm d)) (i_data d) = l -> l <> [] -> Forall (fun v => v <> -2 /\ v <> -3) l -> hd 0 l <> -1 ->
  exists b, match_dates d date = Some b /\ (b = true <-> date_ok l date).
Proof.
  intros U D N F H. unfold match_dates. rewrite U, D. cbn [VALUE Z.eqb Pos.eqb]. eexists. split; [reflexivity|].
  assert (H0 : nth 0 (i_data d) 0 = hd 0 l) by (subst l; destruct (i_data d); [destruct (Z.to_nat (i_nelm d)); contradiction|]; destruct (Z.to_nat (i_nelm d)); [contradiction|reflexivity]).
  rewrite H0. rewrite (proj2 (Z.eqb_neq _ _) H). cbn [orb]. rewrite date_values_case by assumption. rewrite existsb_exists. split.
  - intros (x & I & E). apply Z.eqb_eq in E. subst. exact I.
  - intros I. exists date. split; [exact I|apply Z.eqb_refl].
Qed.

Lemma date_list_cases l : date_list l -> hd 0 l <> -1 ->
  (Forall (fun v => v <> -2 /\ v <> -3) l /\ hd 0 l <> -1) \/ (exists w, l = [-2; w] /\ stamp w) \/ (exists v, l = [v; -2] /\ stamp v) \/
  (exists v w, l = [v; -2; w] /\ stamp v /\ stamp w) \/ (exists v w h, l = [v; -2; w; -3; h] /\ stamp v /\ stamp w /\ 1 <= h <= 596523).
Proof. intros [r|r N F1 F2 H|w W|v V|v w V W|v w h V W H] NA; [cbn [hd] in NA; congruence|left; auto|right; left; exists w; auto|right; right; left; exists v; auto|right; right; right; left; exists v, w; auto|right; right; right; right; exists v, w, h; auto]. Qed.
Lemma delta_seconds_ok h : 1 <= h <= 596523 -> delta_seconds h = Some (h * 3600).
Proof.
  intros HB. unfold delta_seconds. assert (LZ : Z.land h 2139095040 = 0).
  { change 2139095040 with (Z.shiftl (Z.ones 8) 23). apply Z.bits_inj'. intros n N. rewrite Z.land_spec, Z.bits_0. destruct (Z.lt_ge_cases n 23).
    - rewrite Z.shiftl_spec_low by lia. apply andb_false_r.
    - assert (LG : Z.log2 h < 23) by (apply Z.log2_lt_pow2; lia). rewrite (Z.bits_above_log2 h) by lia. reflexivity. }
  rewrite LZ. cbn [Z.eqb negb]. destruct (Z.ltb_spec (h * 3600) (2 ^ 31)); [reflexivity|lia].
Qed.
Lemma dates_ok d arr nelm d' : length (i_data d) = 50%nat -> fill_dates d arr nelm = Some (true, d') -> 1 <= nelm <= 50 -> date_list (firstn (Z.to_nat nelm) arr) ->
  length (i_data d') = 50%nat /\ i_use d' <> 0 /\
  forall date, word date -> off_step (firstn (Z.to_nat nelm) arr) date -> exists b, match_dates d' date = Some b /\ (b = true <-> date_ok (firstn (Z.to_nat nelm) arr) date).
Proof.
  intros L H NE DL. unfold fill_dates in H. destruct arr as [|a0 arr]; [discriminate|]. change (at_ (a0 :: arr) 0) with (Some a0) in H. cbn [bind] in H.
  destruct (Z.to_nat nelm) as [|m] eqn:EN; [lia|].
  destruct (Z.eqb_spec a0 (-1)) as [->|NA].
  { cbn [Z.eqb Pos.eqb] in H. apply some_inj in H. injection H as <-. cbn [i_data i_use]. rewrite put_length. split; [exact L|]. split; [discriminate|]. intros date W _. cbn [firstn].
    destruct (i_data d) as [|x data]; [discriminate|]. exists true. split; [reflexivity|]. split; reflexivity. }
  set (l := firstn (S m) (a0 :: arr)) in *.
  assert (LN : nelm <> 1 -> length l = S m).
  { intros N1. rewrite (proj2 (Z.eqb_neq nelm 1) N1) in H. apply loop_reads in H. unfold l. rewrite firstn_length. cbn [length] in *. lia. }
  pose proof (date_list_cases l DL ltac:(unfold l; cbn [firstn hd]; exact NA)) as CASES.
  destruct CASES as [[F HD]|CASES].
  { destruct (Z.eqb_spec nelm 1) as [->|N1].
    - apply some_inj in H. injection H as <-. cbn [i_data i_use]. rewrite put_length. split; [exact L|]. split; [discriminate|]. intros date W _. assert (m = O) by lia. subst m.
      apply match_values; [reflexivity| |unfold l; discriminate|exact F|exact HD]. cbn [i_nelm i_data]. destruct (i_data d) as [|x data]; [discriminate|reflexivity].
    - specialize (LN N1). set (d0 := {| i_use := VALUE; i_nelm := nelm; i_delta := 0; i_data := put (i_data d) 0 a0 |}) in *.
      assert (LA : (S m <= length (a0 :: arr))%nat) by (unfold l in LN; rewrite firstn_length in LN; lia).
      assert (LD0 : length (i_data d0) = 50%nat) by (cbn [d0 i_data]; rewrite put_length; exact L).
      assert (NTH : forall j, (j < S m)%nat -> nth j (a0 :: arr) 0 = nth j l 0) by (intros j J; unfold l; rewrite <- (firstn_skipn (S m) (a0 :: arr)) at 1; apply app_nth1; rewrite firstn_length; lia).
      destruct (loop_values (S m) d0 (a0 :: arr) nelm 0 0 0) as (r & E & LR & G); [lia|lia|lia| |].
      { intros j J. rewrite NTH by lia. rewrite Forall_forall in F. apply F. apply nth_In. lia. }
      rewrite EN, E in H. apply some_inj in H. injection H as <-. cbn [d0 idata i_data i_use]. split; [rewrite LR; exact LD0|]. split; [discriminate|]. intros date W _.
      apply match_values; [reflexivity| |unfold l; discriminate|exact F|exact HD]. cbn [d0 idata i_nelm i_data]. rewrite EN.
      apply (nth_ext _ _ 0 0); [rewrite firstn_length; lia|]. intros j J. rewrite firstn_length in J.
      rewrite <- NTH by lia. rewrite <- (firstn_skipn (S m) r) in G. assert (X : nth j (firstn (S m) r) 0 = nth j (firstn (S m) r ++ skipn (S m) r) 0) by (rewrite app_nth1; [reflexivity|rewrite firstn_length; lia]).
      rewrite X, G by (rewrite firstn_skipn; lia). replace ((0 <=? Z.of_nat j) && (Z.of_nat j <? 0 + Z.of_nat (S m))) with true by lia. reflexivity. }
  assert (N1 : nelm <> 1). { intros ->. assert (m = O) by lia. subst m. unfold l in CASES. cbn [firstn] in CASES. destruct CASES as [(w & C & _)|[(v & C & _)|[(v & w & C & _)|(v & w & h & C & _)]]]; discriminate. }
  specialize (LN N1). rewrite (proj2 (Z.eqb_neq nelm 1) N1) in H. destruct (i_data d) as [|x0 [|x1 [|x2 [|x3 [|x4 data]]]]] eqn:ED; try discriminate. cbn [length] in L.
  destruct CASES as [(w & C & W)|[(v & C & V)|[(v & w & C & V & W)|(v & w & h & C & V & W & HB)]]]; rewrite C in LN |- *; cbn [length] in LN; injection LN as LN; subst m.
  - assert (nelm = 2) by lia. subst nelm. unfold l in C. cbn [firstn] in C. destruct arr as [|a1 arr]; [discriminate|]. injection C as -> ->.
    pose proof (proj1 W) as P0. destruct w as [|p|p]; try lia. clear P0.
    cbn in H. apply some_inj in H. injection H as <-. cbn [i_data i_use length]. split; [exact L|]. split; [discriminate|].
    intros date D _. apply match_until; try assumption; reflexivity.
  - assert (nelm = 2) by lia. subst nelm. unfold l in C. cbn [firstn] in C. destruct arr as [|a1 arr]; [discriminate|]. injection C as -> ->.
    pose proof (proj1 V) as P0. destruct v as [|p|p]; try lia. clear P0.
    cbn in H. apply some_inj in H. injection H as <-. cbn [i_data i_use length]. split; [exact L|]. split; [discriminate|].
    intros date D _. apply match_from; try assumption; reflexivity.
  - assert (nelm = 3) by lia. subst nelm. unfold l in C. cbn [firstn] in C. destruct arr as [|a1 [|a2 arr]]; try discriminate. injection C as -> -> ->.
    pose proof (proj1 V) as P0. destruct v as [|p|p]; try lia. clear P0.
    pose proof (proj1 W) as P0. destruct w as [|q|q]; try lia. clear P0.
    cbn in H. apply some_inj in H. injection H as <-. cbn [i_data i_use length]. split; [exact L|]. split; [discriminate|].
    intros date D _. apply match_within; try assumption; reflexivity.
  - assert (nelm = 5) by lia. subst nelm. unfold l in C. cbn [firstn] in C. destruct arr as [|a1 [|a2 [|a3 [|a4 arr]]]]; try discriminate. injection C as -> -> -> -> ->.
    pose proof (proj1 V) as P0. destruct v as [|p|p]; try lia. clear P0.
    pose proof (proj1 W) as P0. destruct w as [|q|q]; try lia. clear P0.
    destruct h as [|h|h]; try lia.
    pose proof (delta_seconds_ok (Z.pos h) HB) as DS.
    remember (Z.pos h * 3600) as sec eqn:ES. cbv -[delta_seconds] in H.
    rewrite DS in H. cbv in H.
    apply some_inj in H. injection H as <-. cbn [i_data i_use length]. split; [exact L|]. split; [discriminate|].
    intros date D ST. apply match_every; try assumption; reflexivity.
Qed.
