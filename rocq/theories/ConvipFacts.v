(** The loop and the roundings of Convip.v on real numbers. *)
From Coq Require Import ZArith List Bool Lia Reals Lra Psatz.
From Flocq Require Import Core BinarySingleNaN Relative.
From Verif Require Import Bits Flo FloatField FloatDouble FloatFieldFacts Convip.
Import ListNotations.
Open Scope Z_scope.
Open Scope opt_scope.

Definition ten : radix := Build_radix 10 eq_refl.
Notation T := (bpow ten).
Lemma T_pos d : (0 < T d)%R.
Proof. apply bpow_gt_0. Qed.
Lemma T_int d : 0 <= d -> T d = IZR (10 ^ d).
Proof. intros D. rewrite <- IZR_Zpower by exact D. reflexivity. Qed.
Lemma T_succ d : (T (d + 1) = T d * 10)%R.
Proof. rewrite bpow_plus. reflexivity. Qed.
Lemma T_pred d : (T (d - 1) = T d / 10)%R.
Proof. replace (d - 1) with (d + -1) by lia. rewrite bpow_plus. change (T (-1)) with (/ 10)%R. reflexivity. Qed.

Lemma f64_leb_ok x y a b : is64 x a -> is64 y b -> f64_leb x y = Rle_bool a b.
Proof. intros [<- FX] [<- FY]. apply Bleb_correct; assumption. Qed.

(** Relative errors: [near u a b] when [b] is within [u] of [a]. *)
Definition near (u a b : R) : Prop := exists d, (Rabs d <= u)%R /\ b = (a * (1 + d))%R.
Lemma near_refl u a : (0 <= u)%R -> near u a a.
Proof. intros U. exists 0%R. rewrite Rabs_R0. split; [exact U|ring]. Qed.
Lemma near_trans u v w a b c : (0 <= u)%R -> (0 <= v)%R -> (u + v + u * v <= w)%R -> near u a b -> near v b c -> near w a c.
Proof.
  intros U V W (d & D & ->) (e & E & ->). exists (d + e + d * e)%R. split; [|ring].
  eapply Rle_trans; [|exact W]. eapply Rle_trans; [apply Rabs_triang|]. rewrite Rabs_mult. pose proof (Rabs_triang d e). pose proof (Rabs_pos d). pose proof (Rabs_pos e). nra.
Qed.
Lemma near_scale u a b k : near u a b -> near u (a * k) (b * k).
Proof. intros (d & D & ->). exists d. split; [exact D|ring]. Qed.
Lemma near_weak u v a b : (u <= v)%R -> near u a b -> near v a b.
Proof. intros L (d & D & E). exists d. split; [lra|exact E]. Qed.
Lemma near_bound u a b : near u a b -> (Rabs (b - a) <= u * Rabs a)%R.
Proof. intros (d & D & ->). replace (a * (1 + d) - a)%R with (d * a)%R by ring. rewrite Rabs_mult. apply Rmult_le_compat_r; [apply Rabs_pos|exact D]. Qed.
Lemma near_pos u a b : (0 <= a)%R -> (0 <= u)%R -> near u a b -> (a * (1 - u) <= b <= a * (1 + u))%R.
Proof. intros A U (d & D & ->). apply Rabs_le_inv in D. nra. Qed.
Lemma near_opp u a b : near u a b -> near u (- a) (- b).
Proof. intros (d & D & ->). exists d. split; [exact D|ring]. Qed.

Notation e52 := (bpow radix2 (-52)).
Notation e53 := (bpow radix2 (-53)).
Lemma e53_pos : (0 < e53)%R. Proof. apply bpow_gt_0. Qed.
Lemma e52_53 : e52 = (2 * e53)%R.
Proof. change (-52) with (1 + -53). rewrite bpow_plus. reflexivity. Qed.
Lemma e53_small : (e53 <= / 1000000000000000)%R.
Proof. change e53 with (/ IZR (2 ^ 53))%R. apply Rinv_le; [lra|]. apply IZR_le. vm_compute. discriminate. Qed.
Lemma rnd64_near v : v = 0%R \/ (bpow radix2 (-1022) <= Rabs v)%R -> near e53 v (rnd64 v).
Proof.
  intros [->|H].
  - rewrite rnd64_id by apply generic_format_0. apply near_refl, Rlt_le, e53_pos.
  - assert (v <> 0)%R by (intros ->; rewrite Rabs_R0 in H; pose proof (bpow_gt_0 radix2 (-1022)); lra).
    exists ((rnd64 v - v) / v)%R. split; [|field; assumption]. unfold Rdiv. rewrite Rabs_mult, Rabs_inv. pose proof (rnd64_rel v H). assert (0 < Rabs v)%R by (apply Rabs_pos_lt; assumption).
    apply Rmult_le_reg_r with (Rabs v); [assumption|]. rewrite Rmult_assoc, Rinv_l, Rmult_1_r by lra. exact H1.
Qed.

(** ** The loop *)
Section Loop.
Variable l2 : Z.
Hypothesis L2 : 0 < l2 <= 100000.
Let l1 := 10 * l2.

Definition good_end (x t : R) (e : Z) : Prop :=
  0 <= e <= 15 /\ near (13 * e52) (x * T (e - 4)) t /\ (0 <= t <= IZR l1)%R /\ ((IZR l2 <= t)%R \/ e = 15) /\ fmt64 t.

Lemma l1_is : is64 (f64_of l1) (IZR l1). Proof. apply f64_of_ok. unfold l1. lia. Qed.
Lemma l2_is : is64 (f64_of l2) (IZR l2). Proof. apply f64_of_ok. lia. Qed.
Lemma ten_is : is64 (f64_of 10) 10. Proof. apply f64_of_ok. lia. Qed.
Lemma l1_R : IZR l1 = (10 * IZR l2)%R. Proof. unfold l1. rewrite mult_IZR. reflexivity. Qed.
Lemma l2_R : (1 <= IZR l2 <= 100000)%R. Proof. split; apply IZR_le; lia. Qed.

Lemma near_step k a b c : 0 <= k <= 12 -> near (IZR k * e52) a b -> near e53 b c -> near (IZR (k + 1) * e52) a c.
Proof.
  intros K A B. assert (0 <= IZR k <= 12)%R by (split; apply IZR_le; lia). pose proof e53_pos. pose proof e53_small. rewrite e52_53 in *.
  refine (near_trans _ _ _ _ _ _ _ _ _ A B); [nra|lra|]. rewrite plus_IZR. nra.
Qed.
Lemma near_13 k a b : 0 <= k <= 13 -> near (IZR k * e52) a b -> near (13 * e52) a b.
Proof. intros K. apply near_weak. apply Rmult_le_compat_r; [apply bpow_ge_0|apply IZR_le; lia]. Qed.

(** One step up, one step down. *)
Lemma times_ten t v : is64 t v -> (0 <= v < IZR l2)%R -> (v = 0 \/ bpow radix2 (-149) <= v)%R ->
  is64 (f64_mul t (f64_of 10)) (rnd64 (v * 10)) /\ (0 <= rnd64 (v * 10) <= IZR l1)%R /\ near e53 (v * 10) (rnd64 (v * 10)) /\ (rnd64 (v * 10) = 0 \/ bpow radix2 (-149) <= rnd64 (v * 10))%R.
Proof.
  intros I V N. pose proof l2_R as LR. assert (P : (0 < bpow radix2 (-149))%R) by apply bpow_gt_0.
  split; [apply f64_mul_ok; [exact I|apply ten_is|]|].
  { rewrite Rabs_pos_eq by lra. eapply Rle_trans; [|apply (bpow_le radix2 20); lia]. change (bpow radix2 20) with 1048576%R. lra. }
  split; [|split].
  - split; [rewrite <- (rnd64_id 0) by apply generic_format_0; apply rnd64_le; lra|]. rewrite <- (rnd64_id (IZR l1)) by (apply fmt64_int; unfold l1; lia). apply rnd64_le. rewrite l1_R. lra.
  - apply rnd64_near. destruct N as [->|N]; [left; ring|right]. rewrite Rabs_pos_eq by lra. eapply Rle_trans; [apply (bpow_le radix2 _ (-149)); lia|]. lra.
  - destruct N as [->|N]; [left; rewrite Rmult_0_l; apply rnd64_id, generic_format_0|right]. rewrite <- (rnd64_id (bpow radix2 (-149))) at 1 by (apply generic_format_bpow; unfold SpecFloat.fexp, SpecFloat.emin; lia). apply rnd64_le. lra.
Qed.
Lemma over_ten t v : is64 t v -> (IZR l1 <= v <= 10000000000)%R ->
  is64 (f64_div t (f64_of 10)) (rnd64 (v / 10)) /\ (IZR l2 <= rnd64 (v / 10))%R /\ near e53 (v / 10) (rnd64 (v / 10)).
Proof.
  intros I V. pose proof l2_R as LR. rewrite l1_R in V.
  split; [apply f64_div_ok; [exact I|apply ten_is|lra|]|].
  { rewrite Rabs_pos_eq by lra. eapply Rle_trans; [|apply (bpow_le radix2 40); lia]. change (bpow radix2 40) with (IZR (2 ^ 40)). apply Rle_trans with 10000000000%R; [lra|]. apply IZR_le. vm_compute. discriminate. }
  split.
  - rewrite <- (rnd64_id (IZR l2)) at 1 by (apply fmt64_int; lia). apply rnd64_le. lra.
  - apply rnd64_near. right. rewrite Rabs_pos_eq by lra. eapply Rle_trans; [apply (bpow_le radix2 _ 0); lia|]. change (bpow radix2 0) with 1%R. lra.
Qed.

Lemma rnd64_fmt v : fmt64 (rnd64 v). Proof. apply generic_format_round; [apply fexp53_valid|apply valid_rnd_N]. Qed.

Lemma to_range_end n t e : 0 < e < 15 -> forall v, is64 t v -> (IZR l2 <= v < IZR l1)%R -> to_range (S n) (f64_of l1) (f64_of l2) t e = Some (t, e).
Proof.
  intros E v I V. cbn [to_range]. rewrite (proj2 (Z.ltb_lt 0 e)), (proj2 (Z.ltb_lt e 15)) by lia. cbn [andb].
  rewrite (f64_leb_ok _ _ _ _ l1_is I), Rle_bool_false by lra. rewrite (f64_ltb_ok _ _ _ _ I l2_is), Rlt_bool_false by lra. reflexivity.
Qed.

(** Down to exponent 0. *)
Lemma loop_down n : forall t v x e k, is64 t v -> (n >= 1 + Z.to_nat e)%nat -> 0 <= e <= 4 -> 0 <= k -> k + e <= 12 -> near (IZR k * e52) (x * T (e - 4)) v -> (IZR l2 <= v <= IZR (l1 * 10 ^ e))%R ->
  exists t' v' e', to_range n (f64_of l1) (f64_of l2) t e = Some (t', e') /\ is64 t' v' /\ good_end x v' e'.
Proof.
  induction n as [|n IH]; intros t v x e k I N E K KE NE V; [lia|].
  pose proof l2_R as LR. cbn [to_range]. destruct (Z.ltb_spec 0 e) as [P|P]; cbn [andb].
  2:{ assert (e = 0) as -> by lia. exists t, v, 0. split; [reflexivity|]. split; [exact I|]. split; [lia|]. split; [eapply near_13; [|exact NE]; lia|].
      rewrite Z.mul_1_r in V. split; [lra|]. split; [left; lra|]. eapply is64_fmt; exact I. }
  rewrite (proj2 (Z.ltb_lt e 15)) by lia. rewrite (f64_leb_ok _ _ _ _ l1_is I). destruct (Rle_bool_spec (IZR l1) v) as [L|L].
  - assert (PW : 10 ^ e <= 10 ^ 4) by (apply Z.pow_le_mono_r; lia). assert (PP : 0 < 10 ^ e) by (apply Z.pow_pos_nonneg; lia). assert (V10 : (v <= 10000000000)%R) by (eapply Rle_trans; [apply V|]; apply IZR_le; unfold l1; nia).
    destruct (over_ten t v I (conj L V10)) as (A & B & C). eapply (IH _ _ x (e - 1) (k + 1) A); [lia|lia|lia|lia| |].
    + eapply near_step; [lia| |exact C]. replace (e - 1 - 4) with (e - 4 - 1) by lia. rewrite T_pred. unfold Rdiv. rewrite <- Rmult_assoc. apply near_scale. exact NE.
    + assert (PQ : 10 ^ e = 10 * 10 ^ (e - 1)) by (rewrite <- Z.pow_succ_r by lia; f_equal; lia). assert (0 < 10 ^ (e - 1)) by (apply Z.pow_pos_nonneg; lia).
      split; [exact B|]. rewrite <- (rnd64_id (IZR (l1 * 10 ^ (e - 1)))).
      * apply rnd64_le. rewrite PQ in V. rewrite !mult_IZR in *. lra.
      * apply fmt64_int. unfold l1. nia.
  - rewrite (f64_ltb_ok _ _ _ _ I l2_is), Rlt_bool_false by lra. exists t, v, e. split; [reflexivity|]. split; [exact I|]. split; [lia|]. split; [eapply near_13; [|exact NE]; lia|]. split; [lra|]. split; [left; lra|eapply is64_fmt; exact I].
Qed.

(** Up to exponent 15. *)
Lemma loop_up n : forall t v x e, is64 t v -> (n >= 3 + Z.to_nat (15 - e))%nat -> 4 <= e <= 15 -> near (IZR (e - 4) * e52) (x * T (e - 4)) v -> (0 <= v <= IZR l1)%R -> ((v < IZR l1)%R \/ 4 < e) -> (v = 0 \/ bpow radix2 (-149) <= v)%R ->
  exists t' v' e', to_range n (f64_of l1) (f64_of l2) t e = Some (t', e') /\ is64 t' v' /\ good_end x v' e'.
Proof.
  induction n as [|n IH]; intros t v x e I N E NE V VE TY; [lia|].
  pose proof l2_R as LR. cbn [to_range]. rewrite (proj2 (Z.ltb_lt 0 e)) by lia. cbn [andb]. destruct (Z.ltb_spec e 15) as [P|P].
  2:{ assert (e = 15) as -> by lia. exists t, v, 15. split; [reflexivity|]. split; [exact I|]. split; [lia|]. split; [eapply near_13; [|exact NE]; lia|].
      split; [lra|]. split; [right; reflexivity|]. eapply is64_fmt; exact I. }
  rewrite (f64_leb_ok _ _ _ _ l1_is I). destruct (Rle_bool_spec (IZR l1) v) as [L|L].
  - assert (VV : v = IZR l1) by lra. assert (E4 : 4 < e) by (destruct VE as [VE|VE]; [lra|exact VE]).
    assert (V10 : (v <= 10000000000)%R) by (rewrite VV; apply IZR_le; unfold l1; lia).
    destruct (over_ten t v I (conj L V10)) as (A & B & C).
    assert (D : rnd64 (v / 10) = IZR l2) by (rewrite VV, l1_R; replace (10 * IZR l2 / 10)%R with (IZR l2) by field; apply rnd64_id, fmt64_int; lia).
    destruct n as [|n]; [lia|]. assert (B' : (IZR l2 <= rnd64 (v / 10) < IZR l1)%R) by (rewrite D, l1_R; lra).
    rewrite (to_range_end n (f64_div t (f64_of 10)) (e - 1) ltac:(lia) _ A B'). exists (f64_div t (f64_of 10)), (rnd64 (v / 10)), (e - 1).
    split; [reflexivity|]. split; [exact A|]. split; [lia|]. split.
    + apply (near_13 (e - 4 + 1)); [lia|]. eapply near_step; [lia| |exact C]. replace (e - 1 - 4) with (e - 4 - 1) by lia. rewrite T_pred. unfold Rdiv. rewrite <- Rmult_assoc. apply near_scale. exact NE.
    + split; [lra|]. split; [left; exact B|apply rnd64_fmt].
  - rewrite (f64_ltb_ok _ _ _ _ I l2_is). destruct (Rlt_bool_spec v (IZR l2)) as [M|M].
    + destruct (times_ten t v I (conj (proj1 V) M) TY) as (A & B & C & D).
      eapply (IH _ _ x (e + 1) A); [lia|lia| |exact B|right; lia|exact D].
      replace (e + 1 - 4) with (e - 4 + 1) by lia. eapply near_step; [lia| |exact C]. rewrite T_succ, <- Rmult_assoc. apply near_scale. exact NE.
    + exists t, v, e. split; [reflexivity|]. split; [exact I|]. split; [lia|]. split; [eapply near_13; [|exact NE]; lia|]. split; [lra|]. split; [left; lra|eapply is64_fmt; exact I].
Qed.

Lemma loop_ok t v : is64 t v -> (0 <= v <= IZR (l1 * 10 ^ 4))%R -> (v = 0 \/ bpow radix2 (-149) <= v)%R ->
  exists t' v' e', to_range 64 (f64_of l1) (f64_of l2) t 4 = Some (t', e') /\ is64 t' v' /\ good_end v v' e'.
Proof.
  intros I V TY. pose proof l2_R as LR. assert (N0 : near (IZR 0 * e52) (v * T (4 - 4)) v) by (exists 0%R; rewrite Rabs_R0; change (T (4 - 4)) with 1%R; split; [lra|ring]).
  destruct (Rlt_or_le v (IZR l1)) as [L|L].
  - refine (loop_up 64 t v v 4 I _ _ N0 _ (or_introl L) TY); [vm_compute; repeat constructor|lia|lra].
  - refine (loop_down 64 t v v 4 0 I _ _ _ _ N0 _); [vm_compute; repeat constructor|lia|lia|lia|]. split; [rewrite l1_R in L; lra|apply V].
Qed.
End Loop.

(** ** The nearest integer *)
Lemma nint64_near x v : is64 x v -> (Rabs v <= 1000000000)%R -> exists m, nint64 x = Some m /\ (Rabs (v - IZR m) <= /2)%R.
Proof.
  intros [E F] B. set (n := Btrunc (@Bnearbyint 53 1024 e1024 mode_NA x)).
  assert (X : IZR n = IZR (ZnearestA v)).
  { unfold n. rewrite (@Btrunc_correct 53 1024 e1024). destruct (@Bnearbyint_correct 53 1024 e1024 mode_NA x) as (A & _ & _). rewrite A. cbn [round_mode]. fold (r64 x). rewrite E.
    assert (Q : round radix2 (FIX_exp 0) ZnearestA v = IZR (ZnearestA v)) by (unfold round, F2R, scaled_mantissa, cexp, FIX_exp; cbn [Fnum Fexp bpow Z.opp]; rewrite Rmult_1_r, Rmult_1_r; reflexivity).
    rewrite Q. apply round_generic; [apply valid_rnd_ZR|]. apply generic_format_FIX. exists (Float radix2 (ZnearestA v) 0); [unfold F2R; cbn; lra|reflexivity]. }
  apply eq_IZR in X. pose proof (Znearest_half (Z.leb 0) v) as H. fold n in X. exists n. rewrite X. split; [|exact H].
  unfold nint64. rewrite F. cbv zeta. fold n. rewrite X. apply Rabs_le_inv in H. apply Rabs_le_inv in B.
  assert (L : - 1000000001 < ZnearestA v < 1000000001) by (split; apply lt_IZR; lra).
  rewrite (proj2 (Z.leb_le _ _)), (proj2 (Z.ltb_lt _ _)) by lia. reflexivity.
Qed.

(** ** What is coded *)
Section Coded.
Variables (l2 m e : Z) (x t : R).
Hypothesis (L2 : 4800 <= l2 <= 100000) (X0 : (0 <= x)%R) (G : good_end l2 x t e) (M : (Rabs (t - IZR m) <= /2)%R).
Let d := e - 4.

Lemma small_e : (0 < 13 * e52 <= / 10000000000000)%R.
Proof. rewrite e52_53. pose proof e53_pos. pose proof e53_small. lra. Qed.
Lemma coded_t : (x * T d * (1 - 13 * e52) <= t <= x * T d * (1 + 13 * e52))%R.
Proof. destruct G as (_ & N & _). pose proof small_e. apply near_pos; [|lra|exact N]. pose proof (T_pos d). nra. Qed.
Lemma coded_m : 0 <= m <= 10 * l2 /\ (IZR m - /2 <= t <= IZR m + /2)%R.
Proof.
  destruct G as (_ & _ & B & _). apply Rabs_le_inv in M. assert (BR : IZR (10 * l2) = (10 * IZR l2)%R) by apply mult_IZR.
  split; [|lra]. assert (-1 < m) by (apply lt_IZR; lra). assert (m < 10 * l2 + 1) by (apply lt_IZR; rewrite plus_IZR; lra). lia.
Qed.
Lemma coded_e : 0 <= e <= 15 /\ -4 <= d <= 11. Proof. destruct G as (A & _). unfold d. lia. Qed.

(** The error: half a unit of the last digit kept. *)
Lemma coded_error : (Rabs (IZR m / T d - x) <= x * (51 / 100 / IZR l2) + 51 / 100 * / 100000000000)%R.
Proof.
  pose proof coded_t as C. pose proof (proj2 coded_m) as N. pose proof (T_pos d) as P. pose proof small_e as S. assert (LR : (4800 <= IZR l2 <= 100000)%R) by (split; apply IZR_le; lia).
  assert (Q : (0 < / IZR l2)%R) by (apply Rinv_0_lt_compat; lra). assert (Q' : (/ 100000 <= / IZR l2)%R) by (apply Rinv_le; lra).
  set (y := (x * T d)%R) in *. assert (Y0 : (0 <= y)%R) by (unfold y; nra).
  assert (EQ : (IZR m / T d - x = (IZR m - y) / T d)%R) by (unfold y; field; lra). rewrite EQ. unfold Rdiv at 1. rewrite Rabs_mult, (Rabs_pos_eq (/ T d)) by (apply Rlt_le, Rinv_0_lt_compat, P).
  assert (B : (Rabs (IZR m - y) <= /2 + y * / 10000000000000)%R) by (apply Rabs_le; nra).
  assert (K : (Rabs (IZR m - y) <= y * (51 / 100 / IZR l2) + 51 / 100 * T d * / 100000000000)%R).
  { destruct G as (_ & _ & _ & [LO|E] & _).
    - assert (Y1 : (IZR l2 <= y * (1 + / 10000000000000))%R) by nra.
      assert (Y2 : (1 <= (y * / IZR l2) * (1 + / 10000000000000))%R) by (apply (Rmult_le_compat_r (/ IZR l2)) in Y1; [|lra]; rewrite Rinv_r in Y1 by lra; lra).
      assert (Y3 : (y * / 100000 <= y * / IZR l2)%R) by (apply Rmult_le_compat_l; assumption).
      unfold Rdiv. replace (y * (51 * / 100 * / IZR l2))%R with (51 * / 100 * (y * / IZR l2))%R by ring. set (z := (y * / IZR l2)%R) in *. clearbody z. assert (0 <= 51 * / 100 * T d * / 100000000000)%R by (apply Rmult_le_pos; lra). lra.
    - assert (TD : T d = 100000000000%R) by (unfold d; rewrite E; reflexivity). rewrite TD.
      assert (0 <= y * (51 / 100 / IZR l2) - y * / 10000000000000)%R; [|lra]. unfold Rdiv. rewrite <- Rmult_minus_distr_l. apply Rmult_le_pos; [exact Y0|]. lra. }
  apply Rmult_le_reg_r with (T d); [exact P|]. rewrite Rmult_assoc, Rinv_l, Rmult_1_r by lra. eapply Rle_trans; [exact K|]. unfold y. apply Req_le. ring.
Qed.

(** It does not go beyond an integer bound. *)
Lemma coded_high H : 0 < H <= 10000000000 -> (H < 9 * l2 \/ H mod 10000 = 0) -> (x <= IZR H)%R -> (IZR m <= IZR H * T d)%R.
Proof.
  intros HB HM XH. pose proof coded_t as C. pose proof coded_m as [MB N]. pose proof (T_pos d) as P. pose proof small_e as S. pose proof coded_e as [_ DE].
  assert (I : exists N, (IZR H * T d = IZR N)%R).
  { destruct (Z.le_gt_cases 0 d) as [D|D]; [exists (H * 10 ^ d); rewrite mult_IZR, T_int by exact D; reflexivity|].
    destruct HM as [HM|HM].
    - exfalso. destruct G as (_ & _ & _ & [LO|E] & _); [|unfold d in *; lia]. assert (TD : (T d <= / 10)%R) by (change (/ 10)%R with (T (-1)); apply bpow_le; lia).
      assert (LR : (1 <= IZR l2)%R) by (apply IZR_le; lia). assert (IZR H < 9 * IZR l2)%R by (rewrite <- mult_IZR; apply IZR_lt; lia).
      assert (XT : (x * T d <= IZR H * / 10)%R) by (apply Rmult_le_compat; lra). nra.
    - exists (H / 10000 * 10 ^ (d + 4)). rewrite mult_IZR, <- T_int by lia. rewrite bpow_plus. change (T 4) with 10000%R.
      assert (HH : H = H / 10000 * 10000) by (Z.div_mod_to_equations; lia). rewrite HH at 1. rewrite mult_IZR. ring. }
  destruct I as [K I]. rewrite I. assert (TB : (t <= IZR K * (1 + 13 * e52))%R).
  { eapply Rle_trans; [apply C|]. rewrite <- I. apply Rmult_le_compat_r; [lra|]. apply Rmult_le_compat_r; lra. }
  apply IZR_le. destruct (Z.le_gt_cases K 10000000) as [KB|KB]; [|lia].
  assert (0 <= K) by (apply le_IZR; rewrite <- I; apply Rmult_le_pos; [apply IZR_le; lia|lra]).
  assert (KR : (0 <= IZR K <= 10000000)%R) by (split; apply IZR_le; lia).
  assert (m < K + 1); [|lia]. apply lt_IZR. rewrite plus_IZR. nra.
Qed.
(** Nor below 1. *)
Lemma coded_low : (1 <= x)%R -> (T d <= IZR m)%R.
Proof.
  intros X1. pose proof coded_t as C. pose proof coded_m as [MB N]. pose proof (T_pos d) as P. pose proof small_e as S. pose proof coded_e as [_ DE].
  destruct (Z.le_gt_cases 0 d) as [D|D].
  - rewrite T_int in * by exact D. assert (10 ^ d <= 10 ^ 11) by (apply Z.pow_le_mono_r; lia). set (K := 10 ^ d) in *. assert (KR : (0 <= IZR K <= 100000000000)%R) by (split; [lra|apply IZR_le; exact H]).
    apply IZR_le. assert (K - 1 < m); [|lia]. apply lt_IZR. rewrite minus_IZR. nra.
  - assert (T d <= / 10)%R by (change (/ 10)%R with (T (-1)); apply bpow_le; lia). destruct G as (_ & _ & _ & [LO|E] & _); [|unfold d in *; lia]. assert (4800 <= IZR l2)%R by (apply IZR_le; lia). lra.
Qed.
End Coded.

(** ** Decoding *)
Lemma exptab_ok e : 0 <= e <= 15 -> exists w, is64 (exptab e) w /\ near e53 (T (e - 4)) w /\ (4 <= e -> w = T (e - 4)).
Proof.
  intros E. unfold exptab. destruct (Z.ltb_spec e 4) as [L|L].
  - assert (P1 : 0 < 10 ^ (4 - e)) by (apply Z.pow_pos_nonneg; lia). assert (P2 : 10 ^ (4 - e) <= 10 ^ 4) by (apply Z.pow_le_mono_r; lia). change (10 ^ 4) with 10000 in P2.
    assert (V : T (e - 4) = (1 / IZR (10 ^ (4 - e)))%R) by (replace (e - 4) with (- (4 - e)) by lia; rewrite bpow_opp, T_int by lia; unfold Rdiv; ring).
    assert (R1 : (1 <= IZR (10 ^ (4 - e)) <= 10000)%R) by (split; apply IZR_le; lia).
    exists (rnd64 (T (e - 4))). split; [rewrite V; apply f64_div_ok; [apply (f64_of_ok 1); lia|apply f64_of_ok; lia|lra|]|split; [|lia]].
    + rewrite <- V. rewrite Rabs_pos_eq by apply bpow_ge_0. apply Rle_trans with (T 0); [apply bpow_le; lia|]. change (T 0) with (bpow radix2 0). apply bpow_le. lia.
    + apply rnd64_near. right. rewrite Rabs_pos_eq by apply bpow_ge_0. apply Rle_trans with (T (-4)); [|apply bpow_le; lia]. apply Rle_trans with (bpow radix2 (-20)); [apply bpow_le; lia|]. change (T (-4)) with (/ 10000)%R. change (bpow radix2 (-20)) with (/ 1048576)%R. lra.
  - exists (T (e - 4)). split; [rewrite T_int by lia; apply f64_of_ok|split; [apply near_refl, Rlt_le, e53_pos|reflexivity]].
    assert (P1 : 0 < 10 ^ (e - 4)) by (apply Z.pow_pos_nonneg; lia). assert (P2 : 10 ^ (e - 4) <= 10 ^ 11) by (apply Z.pow_le_mono_r; lia). change (10 ^ 11) with 100000000000 in P2. lia.
Qed.

Lemma near_inv u a b : (0 < a)%R -> (0 <= u <= / 2)%R -> near u a b -> near (2 * u) (/ a) (/ b).
Proof.
  intros A U (d & D & ->). apply Rabs_le_inv in D. exists (/ (1 + d) - 1)%R. split; [|rewrite Rinv_mult; lra].
  assert (P : (0 < / (1 + d))%R) by (apply Rinv_0_lt_compat; lra). assert (I : (/ (1 + d) * (1 + d) = 1)%R) by (apply Rinv_l; lra). set (q := (/ (1 + d))%R) in *. clearbody q. apply Rabs_le. split; nra.
Qed.
Notation e24 := (bpow radix2 (-24)).
Lemma e24_val : e24 = (/ 16777216)%R. Proof. reflexivity. Qed.
Lemma rnd32_near v : v = 0%R \/ (bpow radix2 (-126) <= Rabs v)%R -> near e24 v (rnd32 v).
Proof.
  intros [->|H].
  - rewrite rnd32_id by apply generic_format_0. apply near_refl, Rlt_le, bpow_gt_0.
  - assert (v <> 0)%R by (intros ->; rewrite Rabs_R0 in H; pose proof (bpow_gt_0 radix2 (-126)); lra).
    exists ((rnd32 v - v) / v)%R. split; [|field; assumption]. unfold Rdiv. rewrite Rabs_mult, Rabs_inv. pose proof (rel32 v H). assert (0 < Rabs v)%R by (apply Rabs_pos_lt; assumption).
    apply Rmult_le_reg_r with (Rabs v); [assumption|]. rewrite Rmult_assoc, Rinv_l, Rmult_1_r by lra. exact H1.
Qed.

(** The number a pseudo mantissa and exponent stand for, before the factor. *)
Definition half_value (n e : Z) : f32 := narrow (f64_div (f64_of n) (exptab e)).
Lemma half_value_ok n e : Z.abs n <= 1048575 -> 0 <= e <= 15 ->
  is_finite (half_value n e) = true /\ near (/ 16000000) (IZR n / T (e - 4)) (r32 (half_value n e)) /\
  exists v, r32 (half_value n e) = rnd32 v /\ near (4 * e52) (IZR n / T (e - 4)) v /\ v = rnd64 (IZR n / r64 (exptab e)) /\ (4 <= e -> v = rnd64 (IZR n / T (e - 4))).
Proof.
  intros N E. destruct (exptab_ok e E) as (w & I & W & WE). pose proof (T_pos (e - 4)) as P. pose proof e53_pos as EP. pose proof e53_small as ES. pose proof e52_53 as EE.
  assert (NW : near (2 * e53) (IZR n / T (e - 4)) (IZR n / w)).
  { unfold Rdiv. rewrite !(Rmult_comm (IZR n)). apply near_scale. apply near_inv; [exact P|lra|exact W]. }
  assert (TB : (/ 10000 <= T (e - 4) <= 100000000000)%R) by (split; [apply (bpow_le ten (-4)); lia|apply (bpow_le ten _ 11); lia]).
  assert (W0 : (w <> 0)%R) by (pose proof (near_pos _ _ _ (Rlt_le _ _ P) (Rlt_le _ _ EP) W); nra).
  set (y := (IZR n / T (e - 4))%R) in *. assert (NB : (Rabs (IZR n) <= 1048575)%R) by (rewrite <- abs_IZR; apply IZR_le; lia).
  assert (YB : (Rabs y <= 10485750000)%R).
  { unfold y, Rdiv. rewrite Rabs_mult, (Rabs_pos_eq (/ T (e - 4))) by (apply Rlt_le, Rinv_0_lt_compat, P). assert (/ T (e - 4) <= 10000)%R by (rewrite <- (Rinv_inv 10000); apply Rinv_le; lra). assert (0 < / T (e - 4))%R by (apply Rinv_0_lt_compat, P). pose proof (Rabs_pos (IZR n)). nra. }
  assert (YL : y = 0%R \/ (/ 1000000000000 <= Rabs y)%R).
  { destruct (Z.eq_dec n 0) as [->|NZ]; [left; unfold y; lra|right]. unfold y, Rdiv. rewrite Rabs_mult, (Rabs_pos_eq (/ T (e - 4))) by (apply Rlt_le, Rinv_0_lt_compat, P).
    assert (1 <= Rabs (IZR n))%R by (rewrite <- abs_IZR; apply IZR_le; lia). assert (/ 100000000000 <= / T (e - 4))%R by (apply Rinv_le; lra). nra. }
  assert (near_abs : forall u b, (u <= / 2)%R -> near u y b -> (Rabs y * (1 - u) <= Rabs b <= Rabs y * (1 + u))%R).
  { intros u b U (dd & D & ->). rewrite Rabs_mult. assert (H : (1 - u <= Rabs (1 + dd) <= 1 + u)%R) by (apply Rabs_le_inv in D; rewrite Rabs_pos_eq by lra; lra). pose proof (Rabs_pos y). nra. }
  pose proof (near_abs (2 * e53)%R _ ltac:(lra) NW) as QB. pose proof (Rabs_pos y) as YP.
  assert (B1 : (Rabs (IZR n / w) <= bpow radix2 40)%R) by (apply Rle_trans with 1000000000000%R; [nra|change (bpow radix2 40) with (IZR (2 ^ 40)); apply IZR_le; vm_compute; discriminate]).
  assert (DV : is64 (f64_div (f64_of n) (exptab e)) (rnd64 (IZR n / w))) by (apply f64_div_ok; [apply f64_of_ok; lia|exact I|exact W0|eapply Rle_trans; [exact B1|apply bpow_le; lia]]).
  assert (N1 : near e53 (IZR n / w) (rnd64 (IZR n / w))).
  { apply rnd64_near. destruct YL as [YL|YL]; [left; destruct NW as (dd & _ & ->); rewrite YL; ring|right]. apply Rle_trans with (bpow radix2 (-60)); [apply bpow_le; lia|]. change (bpow radix2 (-60)) with (/ IZR (2 ^ 60))%R.
    apply Rle_trans with (/ 10000000000000)%R; [apply Rinv_le; [lra|apply IZR_le; vm_compute; discriminate]|nra]. }
  assert (N2 : near (4 * e52) y (rnd64 (IZR n / w))) by (refine (near_trans _ _ _ _ _ _ _ _ _ NW N1); nra).
  pose proof (near_abs (4 * e52)%R _ ltac:(lra) N2) as QC.
  destruct (narrow_ok _ _ DV) as [A B]. { apply Rle_trans with (bpow radix2 40); [apply (rnd64_bound _ 40); [lia|exact B1]|apply bpow_le; lia]. }
  split; [exact B|]. assert (N3 : near e24 (rnd64 (IZR n / w)) (rnd32 (rnd64 (IZR n / w)))).
  { apply rnd32_near. destruct YL as [YL|YL]; [left; destruct N2 as (dd & _ & ->); rewrite YL; ring|right]. apply Rle_trans with (bpow radix2 (-60)); [apply bpow_le; lia|]. change (bpow radix2 (-60)) with (/ IZR (2 ^ 60))%R.
    apply Rle_trans with (/ 10000000000000)%R; [apply Rinv_le; [lra|apply IZR_le; vm_compute; discriminate]|nra]. }
  fold (half_value n e) in A. split; [rewrite A; rewrite e24_val in N3; refine (near_trans _ _ _ _ _ _ _ _ _ N2 N3); nra|].
  exists (rnd64 (IZR n / w)). split; [exact A|]. split; [exact N2|]. split; [rewrite (proj1 I); reflexivity|]. intros E4. rewrite (WE E4). reflexivity.
Qed.

(** Bounds by integers survive the roundings. *)
Lemma rnd32_below v H : (0 <= H)%R -> fmt32 H -> (v <= H * (1 + / 1000000000))%R -> (rnd32 v <= H)%R.
Proof.
  intros P F L. destruct (Req_dec H 0) as [->|NZ].
  - rewrite <- (rnd32_id 0) by exact F. apply rnd32_le. lra.
  - apply round_N_le_midp; [apply fexp24_valid|exact F|]. rewrite succ_eq_pos by exact P. pose proof (ulp_FLT_gt radix2 (-149) 24 H) as U. rewrite Rabs_pos_eq in U by exact P.
    change (H * / 16777216 < ulp radix2 (SpecFloat.fexp 24 128) H)%R in U. assert (0 < H)%R by lra. lra.
Qed.
Lemma fmt32_int n : Z.abs n < 2 ^ 24 -> fmt32 (IZR n).
Proof.
  intros L. replace (IZR n) with (F2R (Float radix2 n 0)) by (unfold F2R; cbn; lra). apply generic_format_FLT. exists (Float radix2 n 0); [reflexivity|exact L|cbn; lia].
Qed.
Lemma fmt32_int2 n k : 0 <= k <= 60 -> Z.abs n < 2 ^ 24 -> fmt32 (IZR (n * 2 ^ k)).
Proof.
  intros K L. replace (IZR (n * 2 ^ k)) with (F2R (Float radix2 n k)) by (unfold F2R; cbn [Fnum Fexp]; rewrite mult_IZR; f_equal; rewrite <- IZR_Zpower by lia; reflexivity). apply generic_format_FLT. exists (Float radix2 n k); [reflexivity|exact L|cbn; lia].
Qed.
