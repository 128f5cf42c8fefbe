(** Coding then decoding a value with Convip.v. *)
From Coq Require Import ZArith List Bool Lia Reals Lra Psatz.
From Flocq Require Import Core BinarySingleNaN Relative.
From Verif Require Import Bits BitIOFacts Flo FloatField FloatDouble FloatFieldFacts Convip ConvipFacts.
Import ListNotations.
Open Scope Z_scope.
Open Scope opt_scope.

Lemma f32_ltb_ok x y : is_finite x = true -> is_finite y = true -> f32_ltb x y = Rlt_bool (r32 x) (r32 y).
Proof. intros. apply Bltb_correct; assumption. Qed.
Lemma f32_leb_ok x y : is_finite x = true -> is_finite y = true -> f32_leb x y = Rle_bool (r32 x) (r32 y).
Proof. intros. apply Bleb_correct; assumption. Qed.
Lemma f32_opp_abs (x : f32) : r32 (Babs x) = Rabs (r32 x) /\ is_finite (Babs x) = is_finite x.
Proof. split; [apply B2R_Babs|apply is_finite_Babs]. Qed.
Lemma abs64 x v : is64 x v -> is64 (Babs x) (Rabs v).
Proof. intros [<- F]. split; [apply B2R_Babs|rewrite is_finite_Babs; exact F]. Qed.
Lemma opp64 x v : is64 x v -> is64 (Bopp x) (- v).
Proof. intros [<- F]. split; [apply B2R_Bopp|rewrite is_finite_Bopp; exact F]. Qed.

(** Single precision numbers. *)
Lemma fmt32_times a n : fmt32 a -> Z.abs n <= 2 ^ 20 -> fmt64 (a * IZR n).
Proof.
  intros F N. apply FLT_format_generic in F; [|exact p24]. destruct F as [[m e] -> M E]. cbn [Fnum Fexp] in *. unfold F2R. cbn [Fnum Fexp].
  replace (IZR m * bpow radix2 e * IZR n)%R with (F2R (Float radix2 (m * n) e)) by (unfold F2R; cbn [Fnum Fexp]; rewrite mult_IZR; ring).
  apply generic_format_FLT. exists (Float radix2 (m * n) e); [reflexivity| |cbn [Fexp]; unfold SpecFloat.emin in *; lia]. cbn [Fnum]. change (Z.pow radix2 53) with (2 ^ 53). change (Z.pow radix2 24) with (2 ^ 24) in M. rewrite Z.abs_mul.
  assert (Z.abs m * Z.abs n <= 2 ^ 24 * 2 ^ 20) by (apply Z.mul_le_mono_nonneg; lia). change (2 ^ 24 * 2 ^ 20) with (2 ^ 44) in H. lia.
Qed.
Lemma fmt32_tiny a : fmt32 a -> a = 0%R \/ (bpow radix2 (-149) <= Rabs a)%R.
Proof.
  intros F. apply FLT_format_generic in F; [|exact p24]. destruct F as [[m e] -> M E]. cbn [Fnum Fexp] in *. unfold F2R. cbn [Fnum Fexp]. destruct (Z.eq_dec m 0) as [->|N]; [left; ring|right].
  rewrite Rabs_mult, (Rabs_pos_eq (bpow radix2 e)) by apply bpow_ge_0. assert (1 <= Rabs (IZR m))%R by (rewrite <- abs_IZR; apply IZR_le; lia). assert (bpow radix2 (-149) <= bpow radix2 e)%R by (apply bpow_le; exact E). pose proof (bpow_ge_0 radix2 (-149)). nra.
Qed.
Lemma f32_of_wide n k : 0 <= k <= 60 -> Z.abs n < 2 ^ 24 -> r32 (f32_of (n * 2 ^ k)) = IZR (n * 2 ^ k) /\ is_finite (f32_of (n * 2 ^ k)) = true.
Proof.
  intros K L. pose proof (binary_normalize_correct 24 128 p24 e128 mode_NE (n * 2 ^ k) 0 false) as C. cbv zeta in C. cbn [round_mode] in C.
  assert (V : F2R (Float radix2 (n * 2 ^ k) 0) = IZR (n * 2 ^ k)) by (unfold F2R; cbn [Fnum Fexp bpow]; ring). rewrite V in C. rewrite rnd32_id in C by (apply fmt32_int2; assumption). rewrite Rlt_bool_true in C.
  - destruct C as (A & B & _). split; assumption.
  - rewrite <- abs_IZR, Z.abs_mul, (Z.abs_eq (2 ^ k)) by (apply Z.pow_nonneg; lia). change (bpow radix2 128) with (IZR (2 ^ 128)). apply IZR_lt. assert (2 ^ k <= 2 ^ 60) by (apply Z.pow_le_mono_r; lia). assert (0 < 2 ^ k) by (apply Z.pow_pos_nonneg; lia).
    apply Z.le_lt_trans with (2 ^ 24 * 2 ^ 60); [apply Z.mul_le_mono_nonneg; lia|reflexivity].
Qed.

(** The tables as numbers. *)
Lemma low_ok k : r32 (low_val k) = IZR (low_of k) /\ is_finite (low_val k) = true.
Proof.
  unfold low_val. assert (H : low_of k = -20000 \/ low_of k = 0 \/ low_of k = 1 \/ low_of k = -480000000) by (unfold low_of; destruct (existsb _ _); auto; destruct (existsb _ _); auto; destruct (existsb _ _); auto).
  destruct H as [->|[->|[->| ->]]]; try (apply f32_of_ok; lia). apply (f32_of_wide (-234375) 11); lia.
Qed.
Lemma hi_ok k : r32 (hi_val k) = IZR (hi_of k) /\ is_finite (hi_val k) = true /\ fmt32 (IZR (hi_of k)).
Proof.
  assert (G : r32 (hi_val k) = IZR (hi_of k) /\ is_finite (hi_val k) = true); [|destruct G as [G1 G2]; split; [exact G1|]; split; [exact G2|rewrite <- G1; apply f32_fmt]].
  unfold hi_val. assert (H : (1 <= hi_of k <= 1000000) \/ hi_of k = 10000000000) by (unfold hi_of; destruct (existsb _ _); [lia|]; destruct (existsb _ _); [lia|]; repeat (destruct (_ =? _); [lia|]); lia).
  destruct H as [H| ->]; [apply f32_of_ok; lia|]. apply (f32_of_wide 9765625 10); lia.
Qed.
Lemma fact_ok k : r32 (fact_val k) = IZR (fact_of k) /\ is_finite (fact_val k) = true.
Proof. apply f32_of_ok. unfold fact_of. destruct (k =? 17); [lia|]. destruct (k =? 21); lia. Qed.
Definition small21 : R := r32 (lit32 1001 10000000).
Lemma lit32_ok n d : Z.abs n <= 2 ^ 24 -> 1 <= d <= 2 ^ 24 -> (n = 0 \/ 1 <= n) -> near e24 (IZR n / IZR d) (r32 (lit32 n d)) /\ is_finite (lit32 n d) = true.
Proof.
  intros N D S. destruct (f32_of_ok n N) as [N1 N2]. destruct (f32_of_ok d ltac:(lia)) as [D1 D2]. unfold lit32.
  assert (DR : (1 <= IZR d <= 16777216)%R) by (split; apply IZR_le; lia). assert (NB : (0 <= IZR n <= 16777216)%R) by (split; apply IZR_le; lia).
  assert (Q : (0 <= IZR n / IZR d <= 16777216)%R). { unfold Rdiv. assert (0 < / IZR d <= 1)%R by (split; [apply Rinv_0_lt_compat; lra|rewrite <- Rinv_1; apply Rinv_le; lra]). nra. }
  assert (B : (Rabs (IZR n / IZR d) <= bpow radix2 24)%R) by (rewrite Rabs_pos_eq by lra; change (bpow radix2 24) with 16777216%R; lra).
  destruct (f32_div_ok (f32_of n) (f32_of d)) as [A F]; [rewrite D1; lra| |exact N2|].
  - rewrite N1, D1. eapply Rle_lt_trans; [apply (rnd32_bound _ 24); [lia|exact B]|apply bpow_lt; lia].
  - split; [|exact F]. rewrite A, N1, D1. apply rnd32_near. destruct S as [->|S]; [left; unfold Rdiv; ring|right]. rewrite Rabs_pos_eq by lra. apply Rle_trans with (bpow radix2 (-24)); [apply bpow_le; lia|]. change (bpow radix2 (-24)) with (/ 16777216)%R.
    assert (/ 16777216 <= / IZR d)%R by (apply Rinv_le; lra). assert (1 <= IZR n)%R by (apply IZR_le; lia). unfold Rdiv. nra.
Qed.
Lemma small21_ok : (1000999 / 10000000000 <= small21 <= 1001001 / 10000000000)%R /\ is_finite (lit32 1001 10000000) = true.
Proof. destruct (lit32_ok 1001 10000000 ltac:(lia) ltac:(lia) ltac:(lia)) as [A B]. split; [|exact B]. fold small21 in A. apply near_pos in A; [|lra|apply bpow_ge_0]. rewrite e24_val in A. lra. Qed.

(** What is stored of a value: its replacement when too small, times the factor. *)
Definition zero_at (k : Z) : R := if existsb (Z.eqb k) [6; 17] then 1%R else if k =? 21 then small21 else 0%R.
Lemma zero_ok k : r32 (zero_val k) = zero_at k /\ is_finite (zero_val k) = true.
Proof.
  unfold zero_val, zero_at. destruct (existsb _ _); [apply f32_of_ok; lia|]. destruct (k =? 21); [split; [reflexivity|apply small21_ok]|]. apply f32_of_ok; lia.
Qed.
Definition scaled (k : Z) (v : R) : R := ((if Rlt_bool (Rabs v) (zero_at k) then zero_at k else v) * IZR (fact_of k))%R.

Definition limit2 (v : R) : Z := if Rle_bool 0 v then 100000 else 4800.
Definition code (v : R) (m : Z) : Z := if Rle_bool 0 v then m else 1000000 + m.
Definition ip_of (c e k : Z) : Z := c + e * 2 ^ 20 + k * 2 ^ 24.

Lemma ip_of_lor c e k : 0 <= c < 2 ^ 20 -> 0 <= e < 16 -> 0 <= k -> Z.lor (Z.lor c (Z.shiftl e 20)) (Z.shiftl k 24) = ip_of c e k.
Proof.
  intros C E K. unfold ip_of. rewrite !Z.shiftl_mul_pow2 by lia. change 20 with (Z.of_nat 20) at 1. change 24 with (Z.of_nat 24) at 1. rewrite (Z.lor_comm c), (lor_shiftl_add e c 20) by (change (Z.of_nat 20) with 20; lia). rewrite (Z.lor_comm _ (k * _)), (lor_shiftl_add k _ 24) by (change (Z.of_nat 24) with 24; change (Z.of_nat 20) with 20; lia).
  change (Z.of_nat 24) with 24. change (Z.of_nat 20) with 20. lia.
Qed.

(** The run of the loop that gave them. *)
Definition loop_end (l2 : Z) (x t : R) (e m : Z) : Prop :=
  exists t0 t', is64 t0 x /\ to_range 64 (f64_of (10 * l2)) (f64_of l2) t0 4 = Some (t', e) /\ is64 t' t /\ nint64 t' = Some m.

Lemma enc_ok p k : is_finite p = true -> 0 <= k <= 21 -> k <> 15 -> (IZR (low_of k) <= r32 p <= IZR (hi_of k))%R -> (Rabs (scaled k (r32 p)) <= IZR (limit2 (scaled k (r32 p)) * 100000))%R ->
  exists m e t, to_ip_new p k = Some (ip_of (code (scaled k (r32 p)) m) e (k mod 16)) /\ good_end (limit2 (scaled k (r32 p))) (Rabs (scaled k (r32 p))) t e /\ (Rabs (t - IZR m) <= /2)%R /\
    loop_end (limit2 (scaled k (r32 p))) (Rabs (scaled k (r32 p))) t e m.
Proof.
  intros F K K15 V B. unfold to_ip_new. assert (L15 : Z.land k 15 = k mod 16) by (apply (Z.land_ones k 4); lia).
  rewrite L15, (proj2 (Z.eqb_neq _ 15)) by (assert (k < 16 \/ 16 <= k) as [?|?] by lia; [rewrite Z.mod_small by lia; exact K15|replace (k mod 16) with (k - 16) by (Z.div_mod_to_equations; lia); lia]).
  destruct (low_ok k) as [LO1 LO2]. destruct (hi_ok k) as (HI1 & HI2 & _). destruct (zero_ok k) as [Z1 Z2]. destruct (fact_ok k) as [F1 F2].
  rewrite !f32_ltb_ok by assumption. rewrite LO1, HI1, !Rlt_bool_false by lra. cbn [orb]. cbv zeta.
  pose proof (widen_ok p F) as W. pose proof (widen_ok _ Z2) as WZ. pose proof (widen_ok _ F2) as WF. rewrite Z1 in WZ. rewrite F1 in WF.
  rewrite (f64_ltb_ok _ _ _ _ (abs64 _ _ W) WZ). set (v0 := if Rlt_bool (Rabs (r32 p)) (zero_at k) then zero_at k else r32 p) in *.
  assert (W0 : is64 (if Rlt_bool (Rabs (r32 p)) (zero_at k) then widen (zero_val k) else widen p) v0) by (unfold v0; destruct (Rlt_bool _ _); assumption).
  assert (F0 : fmt32 v0) by (unfold v0; destruct (Rlt_bool _ _); [rewrite <- Z1|]; apply f32_fmt).
  assert (SC : scaled k (r32 p) = (v0 * IZR (fact_of k))%R) by reflexivity. rewrite SC in *. set (v1 := (v0 * IZR (fact_of k))%R) in *.
  assert (FB : Z.abs (fact_of k) <= 2 ^ 20 /\ fact_of k <> 0) by (unfold fact_of; destruct (k =? 17); [lia|]; destruct (k =? 21); lia).
  assert (LB : 0 < limit2 v1 <= 100000) by (unfold limit2; destruct (Rle_bool _ _); lia).
  assert (BB : (Rabs v1 <= 10000000000)%R) by (eapply Rle_trans; [exact B|]; apply IZR_le; lia).
  assert (W1 : is64 (f64_mul (if Rlt_bool (Rabs (r32 p)) (zero_at k) then widen (zero_val k) else widen p) (widen (fact_val k))) v1).
  { unfold v1. rewrite <- (rnd64_id (v0 * IZR (fact_of k))) by (apply fmt32_times; [exact F0|apply FB]). apply f64_mul_ok; [exact W0|exact WF|]. fold v1. eapply Rle_trans; [exact BB|]. apply Rle_trans with (bpow radix2 40); [|apply bpow_le; lia]. change (bpow radix2 40) with (IZR (2 ^ 40)). apply IZR_le. vm_compute. discriminate. }
  set (tm := f64_mul _ _) in *. clearbody tm. rewrite (f64_leb_ok _ _ _ _ (f64_of_ok 0 ltac:(lia)) W1).
  assert (W2 : is64 (if Rle_bool 0 v1 then tm else Bopp tm) (Rabs v1)) by (destruct (Rle_bool_spec 0 v1) as [L|L]; [rewrite Rabs_pos_eq by exact L; exact W1|rewrite Rabs_left by exact L; apply opp64; exact W1]).
  assert (TY : (Rabs v1 = 0 \/ bpow radix2 (-149) <= Rabs v1)%R).
  { destruct (fmt32_tiny v0 F0) as [Z0|Z0]; [left; unfold v1; rewrite Z0, Rmult_0_l; apply Rabs_R0|right]. unfold v1. rewrite Rabs_mult. assert (1 <= Rabs (IZR (fact_of k)))%R by (rewrite <- abs_IZR; apply IZR_le; lia). pose proof (bpow_ge_0 radix2 (-149)). nra. }
  assert (L2 : limit2 v1 = if Rle_bool 0 v1 then 100000 else 4800) by reflexivity. assert (CC : forall m, code v1 m = (if Rle_bool 0 v1 then 0 else 1000000) + m) by (intros m; unfold code; destruct (Rle_bool 0 v1); lia).
  assert (L1 : (if Rle_bool 0 v1 then 1000000 else 48000) = 10 * limit2 v1) by (rewrite L2; destruct (Rle_bool 0 v1); reflexivity). cbn [Z.add] in *. change (IZR 0) with 0%R in *. rewrite L1, <- L2.
  replace (limit2 v1 * 100000) with (10 * limit2 v1 * 10 ^ 4) in B by lia. destruct (loop_ok (limit2 v1) LB _ _ W2 (conj (Rabs_pos v1) B) TY) as (t' & t & e & LP & T1 & G). rewrite LP. cbn [bind]. pose proof G as (E15 & _ & TB & _).
  rewrite (f64_ltb_ok _ _ _ _ (f64_of_ok (10 * limit2 v1) ltac:(lia)) T1), Rlt_bool_false by apply TB.
  assert (LR : (IZR (10 * limit2 v1) <= 1000000)%R) by (apply IZR_le; lia).
  destruct (nint64_near t' t T1) as (m & NI & M); [rewrite Rabs_pos_eq by lra; lra|]. rewrite NI. cbn [bind]. exists m, e, t. split; [|split; [exact G|split; [exact M|exists (if Rle_bool 0 v1 then tm else Bopp tm), t'; split; [exact W2|split; [exact LP|split; [exact T1|exact NI]]]]]].
  rewrite <- CC. rewrite (Z.land_comm 15 k), L15. f_equal. apply ip_of_lor; [|lia|apply Z.mod_pos_bound; lia].
  assert (MB : 0 <= m <= 10 * limit2 v1) by (apply Rabs_le_inv in M; assert (-1 < m) by (apply lt_IZR; lra); assert (m < 10 * limit2 v1 + 1) by (apply lt_IZR; rewrite plus_IZR; lra); lia).
  rewrite CC. rewrite L2 in MB. destruct (Rle_bool 0 v1); lia.
Qed.

(** The fields of an integer. *)
Lemma ip_of_fields c e k : 0 <= c < 2 ^ 20 -> 0 <= e < 16 -> 0 <= k < 16 -> Z.land 15 (Z.shiftr (ip_of c e k) 24) = k /\ Z.land 15 (Z.shiftr (ip_of c e k) 20) = e /\ Z.land 1048575 (ip_of c e k) = c.
Proof.
  intros C E K. rewrite !(Z.land_comm 15), (Z.land_comm 1048575). unfold ip_of. rewrite !Z.shiftr_div_pow2 by lia. change 15 with (Z.ones 4). change 1048575 with (Z.ones 20). rewrite !Z.land_ones by lia. repeat split; Z.div_mod_to_equations; lia.
Qed.
Definition itemp_of (c : Z) : Z := if 1000000 <? c then - (c - 1000000) else c.
Definition decoded (n e k : Z) : f32 * Z :=
  if out_of_range (value_of n e k) k then
    if validkind (k + 16) then if out_of_range (value_of n e (k + 16)) (k + 16) then invalid else settle (value_of n e (k + 16)) (k + 16)
    else invalid
  else settle (value_of n e k) k.
Lemma dec_ok c e k : 0 <= c < 2 ^ 20 -> 0 <= e < 16 -> 0 <= k < 15 -> validkind k = true -> (0 < e \/ 32767 < c) -> from_ip (ip_of c e k) = decoded (itemp_of c) e k.
Proof.
  intros C E K V L. unfold from_ip. rewrite (proj2 (Z.ltb_lt 32767 _)) by (unfold ip_of; lia). unfold from_ip_new. destruct (ip_of_fields c e k C E ltac:(lia)) as (A1 & A2 & A3). cbv zeta. rewrite A1, A2, A3.
  rewrite (proj2 (Z.eqb_neq k 15)) by lia. rewrite V. cbn [negb]. reflexivity.
Qed.
