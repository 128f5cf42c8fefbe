(** Encoding a decoded level again, and the order of levels (Convip.v). *)
From Coq Require Import ZArith List Bool Lia Reals Lra Psatz.
From Flocq Require Import Core BinarySingleNaN Relative.
From Verif Require Import Bits BitIOFacts Flo FloatField FloatDouble FloatFieldFacts Convip ConvipFacts ConvipMain ConvipBack ConvipTrip.
Import ListNotations.
Open Scope Z_scope.
Open Scope opt_scope.

(** ** The same value with one more digit *)
Definition two_forms (l2 e : Z) : bool := match half_value l2 e, half_value (10 * l2) (e + 1) with B754_finite s m x _, B754_finite s' m' x' _ => Bool.eqb s s' && Pos.eqb m m' && Z.eqb x x' | _, _ => false end.
Lemma two_forms_ok l2 e : two_forms l2 e = true -> r32 (half_value l2 e) = r32 (half_value (10 * l2) (e + 1)).
Proof.
  unfold two_forms. destruct (half_value l2 e) as [| | |s m x h]; try discriminate. destruct (half_value (10 * l2) (e + 1)) as [| | |s' m' x' h']; try discriminate. intros H.
  apply andb_true_iff in H. destruct H as [H X]. apply andb_true_iff in H. destruct H as [S M]. apply eqb_prop in S. apply Pos.eqb_eq in M. apply Z.eqb_eq in X. subst. reflexivity.
Qed.
Lemma two_low : forallb (two_forms 100000) [0; 1; 2; 3] && forallb (two_forms 4800) [0; 1; 2; 3] = true. Proof. vm_compute. reflexivity. Qed.
Lemma two_same l2 e : In l2 [4800; 100000] -> 0 <= e <= 14 -> r32 (half_value l2 e) = r32 (half_value (10 * l2) (e + 1)).
Proof.
  intros L E. assert (LB : Z.abs (10 * l2) <= 1048575 /\ Z.abs l2 <= 1048575) by (destruct L as [<-|[<-|[]]]; lia). assert (e < 4 \/ 4 <= e) as [E4|E4] by lia.
  - apply two_forms_ok. pose proof two_low as T. apply andb_true_iff in T. destruct T as [T1 T2]. rewrite forallb_forall in T1, T2. assert (In e [0; 1; 2; 3]) by (assert (e = 0 \/ e = 1 \/ e = 2 \/ e = 3) as [->|[->|[->| ->]]] by lia; cbn; auto).
    destruct L as [<-|[<-|[]]]; [apply T2|apply T1]; assumption.
  - destruct (half_value_ok l2 e (proj2 LB) ltac:(lia)) as (_ & _ & v & A & _ & _ & B). destruct (half_value_ok (10 * l2) (e + 1) (proj1 LB) ltac:(lia)) as (_ & _ & v' & A' & _ & _ & B').
    rewrite A, A', (B E4), (B' ltac:(lia)). assert (Q : (IZR l2 / T (e - 4) = IZR (10 * l2) / T (e + 1 - 4))%R); [|rewrite Q; reflexivity]. pose proof (T_pos (e - 4)) as P.
    replace (T (e + 1 - 4)) with (T (e - 4) * 10)%R by (replace (e + 1 - 4) with ((e - 4) + 1) by lia; rewrite T_succ; reflexivity). rewrite mult_IZR. field. lra.
Qed.

(** What comes of a value close to a decoded one. *)
Lemma again l2 m e x t y m' e' t' : In l2 [4800; 100000] -> (0 <= x)%R -> good_end l2 x t e -> (Rabs (t - IZR m) <= /2)%R ->
  near (/ 7000000) (IZR m / T (e - 4)) y -> good_end l2 y t' e' -> (Rabs (t' - IZR m') <= /2)%R ->
  r32 (half_value m' e') = r32 (half_value m e) /\ (1 <= m -> 1 <= m').
Proof.
  intros L X0 G M N G' M'. assert (LR : (4800 <= IZR l2 <= 100000)%R) by (destruct L as [<-|[<-|[]]]; lra).
  pose proof (coded_m l2 m e x t G M) as [MB TM]. pose proof (coded_m l2 m' e' y t' G' M') as [MB' TM']. assert (m0 : (0 <= IZR m)%R) by (apply IZR_le; lia).
  pose proof (T_pos (e - 4)) as P. pose proof (T_pos (e' - 4)) as P'.
  assert (Y0 : (0 <= IZR m / T (e - 4))%R) by (unfold Rdiv; apply Rmult_le_pos; [exact m0|apply Rlt_le, Rinv_0_lt_compat, P]).
  apply near_pos in N; [|exact Y0|lra]. assert (Y1 : (0 <= y)%R) by nra. pose proof (coded_t l2 e' y t' Y1 G') as C. pose proof small_e as SE.
  assert (R : (IZR m * T (e' - e) * (1 - / 6000000) <= t' <= IZR m * T (e' - e) * (1 + / 6000000))%R).
  { assert (Q : (IZR m / T (e - 4) * T (e' - 4) = IZR m * T (e' - e))%R) by (replace (e' - e) with ((e' - 4) + - (e - 4)) by lia; rewrite bpow_plus, bpow_opp; unfold Rdiv; ring).
    assert (W : (0 <= IZR m * T (e' - e))%R) by (apply Rmult_le_pos; [exact m0|apply bpow_ge_0]).
    assert (B : (IZR m * T (e' - e) * (1 - / 7000000) <= y * T (e' - 4) <= IZR m * T (e' - e) * (1 + / 7000000))%R) by (rewrite <- Q; split; nra).
    set (w := (IZR m * T (e' - e))%R) in *. set (z := (y * T (e' - 4))%R) in *. clearbody w z. clear - W B C SE. split; nra. }
  destruct G as (E & _ & TB & TE & _). destruct G' as (E' & _ & TB' & TE' & _). rewrite mult_IZR in TB, TB'. assert (MR : (IZR m <= 1000000)%R) by (eapply Rle_trans; [apply IZR_le, (proj2 MB)|]; rewrite mult_IZR; lra).
  assert (e' = e \/ e < e' \/ e' < e) as [->|[D|D]] by lia.
  - replace (e - e) with 0 in R by lia. change (T 0) with 1%R in R. assert (IZR m' - 1 < IZR m < IZR m' + 1)%R by lra. assert (m' = m) as -> by (assert (m' - 1 < m < m' + 1) by (split; apply lt_IZR; [rewrite minus_IZR|rewrite plus_IZR]; lra); lia). split; [reflexivity|trivial].
  - destruct TE as [TE|TE]; [|lia]. assert (ML : (IZR l2 - 1 < IZR m)%R) by lra. assert (L2 : l2 <= m) by (assert (l2 - 1 < m) by (apply lt_IZR; rewrite minus_IZR; exact ML); lia). assert (L2R := IZR_le _ _ L2).
    assert (e' = e + 1 \/ e + 2 <= e') as [->|D2] by lia.
    + replace (e + 1 - e) with 1 in R by lia. change (T 1) with 10%R in R. assert (m = l2) as -> by (assert (m < l2 + 1) by (apply lt_IZR; rewrite plus_IZR; lra); lia).
      assert (m' = 10 * l2) as -> by (assert (10 * l2 - 1 < m') by (apply lt_IZR; rewrite minus_IZR, mult_IZR; lra); lia). split; [symmetry; apply two_same; [exact L|lia]|lia].
    + assert (100 <= T (e' - e))%R by (change 100%R with (T 2); apply bpow_le; lia). exfalso. nra.
  - destruct TE' as [TE'|TE']; [|lia]. assert (e' = e - 1 \/ e' <= e - 2) as [->|D2] by lia.
    + replace (e - 1 - e) with (-1) in R by lia. change (T (-1)) with (/ 10)%R in R. assert (m = 10 * l2) as -> by (assert (10 * l2 - 1 < m) by (apply lt_IZR; rewrite minus_IZR, mult_IZR; lra); lia). rewrite mult_IZR in R.
      assert (m' = l2) as -> by (assert (l2 - 1 < m' < l2 + 1) by (split; apply lt_IZR; [rewrite minus_IZR|rewrite plus_IZR]; lra); lia). split; [|destruct L as [<-|[<-|[]]]; lia]. replace e with (e - 1 + 1) at 2 by lia. apply two_same; [exact L|lia].
    + assert (T (e' - e) <= / 100)%R by (change (/ 100)%R with (T (-2)); apply bpow_le; lia). exfalso. assert (IZR m <= 10 * IZR l2)%R by (rewrite <- mult_IZR; apply IZR_le; lia). nra.
Qed.

(** ** Order *)
Section Order.
Variable l2 : Z.
Hypothesis L : In l2 [4800; 100000].
Let l1 := 10 * l2.
Lemma o1 : is64 (f64_of l1) (IZR l1). Proof. apply f64_of_ok. unfold l1. destruct L as [<-|[<-|[]]]; lia. Qed.
Lemma o2 : is64 (f64_of l2) (IZR l2). Proof. apply f64_of_ok. destruct L as [<-|[<-|[]]]; lia. Qed.
Lemma o3 : is64 (f64_of 10) 10. Proof. apply f64_of_ok. lia. Qed.
Lemma l1_val : IZR l1 = (10 * IZR l2)%R. Proof. unfold l1. rewrite mult_IZR. reflexivity. Qed.
Lemma l2_fmt : fmt64 (IZR l2) /\ fmt64 (IZR l1). Proof. split; [eapply is64_fmt; exact o2|eapply is64_fmt; exact o1]. Qed.

Definition okv (t : f64) (v : R) : Prop := is64 t v /\ (0 <= v <= 10000000000)%R.
Lemma down_ok t v : okv t v -> okv (f64_div t (f64_of 10)) (rnd64 (v / 10)).
Proof.
  intros [I V]. split.
  - apply f64_div_ok; [exact I|exact o3|lra|]. rewrite Rabs_pos_eq by lra. apply Rle_trans with (bpow radix2 40); [|apply bpow_le; lia]. change (bpow radix2 40) with (IZR (2 ^ 40)). apply Rle_trans with 10000000000%R; [lra|]. apply IZR_le. vm_compute. discriminate.
  - split; [rewrite <- (rnd64_id 0 (generic_format_0 _ _)); apply rnd64_le; lra|]. rewrite <- (rnd64_id 10000000000) by (apply (fmt64_int 10000000000); lia). apply rnd64_le. lra.
Qed.
Lemma up_ok t v : okv t v -> (v < IZR l2)%R -> okv (f64_mul t (f64_of 10)) (rnd64 (v * 10)).
Proof.
  intros [I V] U. assert (LR : (4800 <= IZR l2 <= 100000)%R) by (destruct L as [<-|[<-|[]]]; lra). split.
  - apply f64_mul_ok; [exact I|exact o3|]. rewrite Rabs_pos_eq by lra. apply Rle_trans with (bpow radix2 40); [|apply bpow_le; lia]. change (bpow radix2 40) with (IZR (2 ^ 40)). apply Rle_trans with 10000000000%R; [lra|]. apply IZR_le. vm_compute. discriminate.
  - split; [rewrite <- (rnd64_id 0 (generic_format_0 _ _)); apply rnd64_le; lra|]. rewrite <- (rnd64_id 10000000000) by (apply (fmt64_int 10000000000); lia). apply rnd64_le. lra.
Qed.

Lemma up_below v : fmt64 v -> (v < IZR l2)%R -> (rnd64 (v * 10) < IZR l1)%R.
Proof.
  intros F V. rewrite l1_val. set (k := if l2 =? 4800 then 12 else 16). set (lo := bpow radix2 k).
  assert (KK : (k = 12 /\ l2 = 4800) \/ (k = 16 /\ l2 = 100000)) by (unfold k; destruct L as [<-|[<-|[]]]; auto).
  assert (LO : (4096 <= lo <= 65536 /\ lo < IZR l2 < 2 * lo /\ 10 * lo <= 10 * IZR l2 - 1 /\ lo * 8 <= 10 * IZR l2 - 1)%R) by (unfold lo; destruct KK as [[-> ->]|[-> ->]]; [change (bpow radix2 12) with 4096%R|change (bpow radix2 16) with 65536%R]; lra).
  destruct (Rlt_or_le v lo) as [S|S].
  - apply Rle_lt_trans with (10 * IZR l2 - 1)%R; [|lra]. assert (D : (10 * IZR l2 - 1 = IZR (l1 - 1))%R) by (rewrite minus_IZR, l1_val; reflexivity). rewrite D. rewrite <- (rnd64_id (IZR (l1 - 1))) by (apply fmt64_int; unfold l1; destruct KK as [[_ ->]|[_ ->]]; lia). apply rnd64_le. rewrite <- D. lra.
  - assert (MG : mag radix2 v = (k + 1) :> Z) by (apply mag_unique; replace (k + 1 - 1) with k by lia; fold lo; rewrite bpow_plus; fold lo; change (bpow radix2 1) with 2%R; rewrite Rabs_pos_eq by lra; lra).
    assert (CE : cexp radix2 (FLT_exp (SpecFloat.emin 53 1024) 53) v = k - 52) by (unfold cexp, FLT_exp; rewrite MG; unfold SpecFloat.emin; destruct KK as [[-> _]|[-> _]]; reflexivity).
    unfold fmt64, generic_format in F. set (n := Ztrunc _) in F. unfold F2R in F. cbn [Fnum Fexp] in F. change (cexp radix2 _ v) with (cexp radix2 (FLT_exp (SpecFloat.emin 53 1024) 53) v) in F. rewrite CE in F. cbn [Fnum Fexp] in F. clearbody n.
    set (u := bpow radix2 (k - 52)) in *. assert (U : (0 < u)%R) by apply bpow_gt_0.
    assert (UE : (u * IZR (2 ^ 36) <= / 1)%R) by (change (IZR (2 ^ 36)) with (bpow radix2 36); unfold u; rewrite <- bpow_plus; apply Rle_trans with (bpow radix2 0); [apply bpow_le; destruct KK as [[-> _]|[-> _]]; lia|right; change (bpow radix2 0) with 1%R; lra]).
    assert (LN : (IZR l2 = IZR (l2 * 2 ^ (52 - k)) * u)%R).
    { rewrite mult_IZR. replace (IZR (2 ^ (52 - k))) with (bpow radix2 (52 - k)) by (rewrite <- (IZR_Zpower radix2) by (destruct KK as [[-> _]|[-> _]]; lia); reflexivity). unfold u. rewrite Rmult_assoc, <- bpow_plus. replace (52 - k + (k - 52)) with 0 by lia. change (bpow radix2 0) with 1%R. ring. }
    assert (NL : n <= l2 * 2 ^ (52 - k) - 1) by (assert (n < l2 * 2 ^ (52 - k)); [|lia]; apply lt_IZR; apply (Rmult_lt_reg_r u); [exact U|]; rewrite <- LN, <- F; exact V).
    apply Rle_lt_trans with (10 * IZR l2 - 8 * u)%R; [|lra].
    assert (FM : fmt64 (10 * IZR l2 - 8 * u)).
    { apply generic_format_FLT. replace (10 * IZR l2 - 8 * u)%R with (F2R (Float radix2 (10 * l2 * 2 ^ (49 - k) - 1) (k - 49))).
      - exists (Float radix2 (10 * l2 * 2 ^ (49 - k) - 1) (k - 49)); [reflexivity| |cbn [Fexp]; unfold SpecFloat.emin; destruct KK as [[-> _]|[-> _]]; lia]. cbn [Fnum]. change (Z.pow radix2 53) with (2 ^ 53). destruct KK as [[-> ->]|[-> ->]]; vm_compute; reflexivity.
      - unfold F2R. cbn [Fnum Fexp]. rewrite minus_IZR, !mult_IZR. replace (IZR (2 ^ (49 - k))) with (bpow radix2 (49 - k)) by (rewrite <- (IZR_Zpower radix2) by (destruct KK as [[-> _]|[-> _]]; lia); reflexivity).
        replace (8 * u)%R with (bpow radix2 (k - 49)) by (unfold u; replace (k - 49) with (3 + (k - 52)) by lia; rewrite bpow_plus; reflexivity). rewrite Rmult_minus_distr_r, Rmult_assoc, <- bpow_plus. replace (49 - k + (k - 49)) with 0 by lia. change (bpow radix2 0) with 1%R. ring. }
    rewrite <- (rnd64_id _ FM). apply rnd64_le. rewrite F, LN. assert (IZR n <= IZR (l2 * 2 ^ (52 - k)) - 1)%R by (rewrite <- minus_IZR; apply IZR_le; exact NL). nra.
Qed.

Lemma step_down v : (IZR l1 <= v)%R -> (IZR l2 <= rnd64 (v / 10))%R.
Proof. intros V. rewrite l1_val in V. rewrite <- (rnd64_id (IZR l2)) by apply l2_fmt. apply rnd64_le. lra. Qed.

Lemma never_up n : forall t v e t' e', okv t v -> (IZR l2 <= v)%R -> to_range n (f64_of l1) (f64_of l2) t e = Some (t', e') -> e' <= e.
Proof.
  induction n as [|n IH]; intros t v e t' e' I V H; cbn [to_range] in H; (destruct ((0 <? e) && (e <? 15)); [|injection H as _ <-; lia]); [discriminate|].
  rewrite (f64_leb_ok _ _ _ _ o1 (proj1 I)), (f64_ltb_ok _ _ _ _ (proj1 I) o2) in H. destruct (Rle_bool_spec (IZR l1) v) as [D|D].
  - apply (IH _ _ _ _ _ (down_ok _ _ I)) in H; [lia|apply step_down; exact D].
  - rewrite Rlt_bool_false in H by exact V. injection H as _ <-. lia.
Qed.
Lemma never_down n : forall t v e t' e', okv t v -> (v < IZR l1)%R -> to_range n (f64_of l1) (f64_of l2) t e = Some (t', e') -> e <= e'.
Proof.
  induction n as [|n IH]; intros t v e t' e' I V H; cbn [to_range] in H; (destruct ((0 <? e) && (e <? 15)); [|injection H as _ <-; lia]); [discriminate|].
  rewrite (f64_leb_ok _ _ _ _ o1 (proj1 I)), (f64_ltb_ok _ _ _ _ (proj1 I) o2) in H. rewrite Rle_bool_false in H by exact V. destruct (Rlt_bool_spec v (IZR l2)) as [D|D].
  - apply (IH _ _ _ _ _ (up_ok _ _ I D)) in H; [lia|apply up_below; [eapply is64_fmt; apply I|exact D]].
  - injection H as _ <-. lia.
Qed.

Lemma loop_order n : forall t1 v1 t2 v2 e r1 e1 r2 e2, okv t1 v1 -> okv t2 v2 -> (v1 <= v2)%R ->
  to_range n (f64_of l1) (f64_of l2) t1 e = Some (r1, e1) -> to_range n (f64_of l1) (f64_of l2) t2 e = Some (r2, e2) ->
  e2 <= e1 /\ (e1 = e2 -> forall w1 w2, is64 r1 w1 -> is64 r2 w2 -> (w1 <= w2)%R).
Proof.
  assert (U : forall x a b, is64 x a -> is64 x b -> a = b) by (intros x a b [<- _] [<- _]; reflexivity).
  induction n as [|n IH]; intros t1 v1 t2 v2 e r1 e1 r2 e2 I1 I2 V H1 H2; cbn [to_range] in H1, H2; (destruct ((0 <? e) && (e <? 15)); [|injection H1 as <- <-; injection H2 as <- <-; split; [lia|intros _ w1 w2 W1 W2; rewrite (U _ _ _ W1 (proj1 I1)), (U _ _ _ W2 (proj1 I2)); exact V]]); [discriminate|].
  pose proof (proj1 I1) as J1. pose proof (proj1 I2) as J2. pose proof l1_val as L1.
  rewrite (f64_leb_ok _ _ _ _ o1 J1), (f64_ltb_ok _ _ _ _ J1 o2) in H1. rewrite (f64_leb_ok _ _ _ _ o1 J2), (f64_ltb_ok _ _ _ _ J2 o2) in H2.
  assert (LP : (4800 <= IZR l2)%R) by (destruct L as [<-|[<-|[]]]; lra).
  destruct (Rle_bool_spec (IZR l1) v1) as [A1|A1].
  - rewrite Rle_bool_true in H2 by lra. refine (IH _ _ _ _ _ _ _ _ _ (down_ok _ _ I1) (down_ok _ _ I2) _ H1 H2). apply rnd64_le. lra.
  - destruct (Rle_bool_spec (IZR l1) v2) as [A2|A2].
    + apply (never_up _ _ _ _ _ _ (down_ok _ _ I2)) in H2; [|apply step_down; exact A2]. assert (e <= e1); [|lia].
      destruct (Rlt_bool_spec v1 (IZR l2)) as [B1|B1]; [|injection H1 as _ <-; lia]. apply (never_down _ _ _ _ _ _ (up_ok _ _ I1 B1)) in H1; [lia|apply up_below; [eapply is64_fmt; exact J1|exact B1]].
    + destruct (Rlt_bool_spec v1 (IZR l2)) as [B1|B1].
      * destruct (Rlt_bool_spec v2 (IZR l2)) as [B2|B2]; [refine (IH _ _ _ _ _ _ _ _ _ (up_ok _ _ I1 B1) (up_ok _ _ I2 B2) _ H1 H2); apply rnd64_le; lra|].
        injection H2 as _ <-. apply (never_down _ _ _ _ _ _ (up_ok _ _ I1 B1)) in H1; [lia|apply up_below; [eapply is64_fmt; exact J1|exact B1]].
      * rewrite Rlt_bool_false in H2 by lra. injection H1 as <- <-. injection H2 as <- <-. split; [lia|]. intros _ w1 w2 W1 W2. rewrite (U _ _ _ W1 J1), (U _ _ _ W2 J2). exact V.
Qed.
End Order.

Lemma nint64_A x v m : is64 x v -> nint64 x = Some m -> m = ZnearestA v.
Proof.
  intros [E F] H. unfold nint64 in H. rewrite F in H. cbv zeta in H. set (n := Btrunc (@Bnearbyint 53 1024 e1024 mode_NA x)) in H. destruct (_ && _) in H; [|discriminate]. injection H as <-. apply eq_IZR.
  unfold n. rewrite (@Btrunc_correct 53 1024 e1024). destruct (@Bnearbyint_correct 53 1024 e1024 mode_NA x) as (A & _ & _). rewrite A. cbn [round_mode]. fold (r64 x). rewrite E.
  assert (Q : round radix2 (FIX_exp 0) ZnearestA v = IZR (ZnearestA v)) by (unfold round, F2R, scaled_mantissa, cexp, FIX_exp; cbn [Fnum Fexp bpow Z.opp]; rewrite Rmult_1_r, Rmult_1_r; reflexivity).
  rewrite Q. apply round_generic; [apply valid_rnd_ZR|]. apply generic_format_FIX. exists (Float radix2 (ZnearestA v) 0); [unfold F2R; cbn; lra|reflexivity].
Qed.

Lemma half_mono m m' e : 0 <= m <= m' -> m' <= 1048575 -> 0 <= e <= 15 -> (r32 (half_value m e) <= r32 (half_value m' e))%R.
Proof.
  intros M M' E. destruct (half_value_ok m e ltac:(lia) E) as (_ & _ & v & A & _ & B & _). destruct (half_value_ok m' e ltac:(lia) E) as (_ & _ & v' & A' & _ & B' & _).
  rewrite A, A', B, B'. apply rnd32_le, rnd64_le. destruct (exptab_ok e E) as (w & [W _] & N & _). rewrite W. pose proof (T_pos (e - 4)) as P. pose proof e53_pos. pose proof e53_small. apply near_pos in N; [|lra|lra]. assert (0 < w)%R by nra.
  unfold Rdiv. apply Rmult_le_compat_r; [apply Rlt_le, Rinv_0_lt_compat; assumption|apply IZR_le; lia].
Qed.
Lemma half_anti m e e' : 0 <= m <= 1048575 -> 0 <= e <= e' -> e' <= 15 -> (r32 (half_value m e') <= r32 (half_value m e))%R.
Proof.
  intros M E E'. assert (e = e' \/ e < e') as [->|D] by lia; [lra|]. destruct (half_value_ok m e ltac:(lia) ltac:(lia)) as (_ & N1 & _). destruct (half_value_ok m e' ltac:(lia) ltac:(lia)) as (_ & N2 & _).
  assert (M0 : (0 <= IZR m)%R) by (apply IZR_le; lia). pose proof (T_pos (e - 4)) as P. pose proof (T_pos (e' - 4)) as P'. assert (Q : (T (e - 4) * 10 <= T (e' - 4))%R) by (rewrite <- T_succ; apply bpow_le; lia).
  assert (Y : (0 <= IZR m / T (e' - 4) /\ IZR m / T (e' - 4) * 10 <= IZR m / T (e - 4))%R).
  { unfold Rdiv. split; [apply Rmult_le_pos; [exact M0|apply Rlt_le, Rinv_0_lt_compat, P']|]. rewrite Rmult_assoc. apply Rmult_le_compat_l; [exact M0|]. assert (H : (/ T (e' - 4) <= / (T (e - 4) * 10))%R) by (apply Rinv_le; lra). rewrite Rinv_mult in H. lra. }
  destruct Y as [Y1 Y2]. apply near_pos in N1; [|lra|lra]. apply near_pos in N2; [|lra|lra]. lra.
Qed.

Lemma order_half l2 x1 t1 e1 m1 x2 t2 e2 m2 : In l2 [4800; 100000] -> (0 <= x1 <= x2)%R -> (x2 <= 10000000000)%R ->
  good_end l2 x1 t1 e1 -> (Rabs (t1 - IZR m1) <= /2)%R -> loop_end l2 x1 t1 e1 m1 ->
  good_end l2 x2 t2 e2 -> (Rabs (t2 - IZR m2) <= /2)%R -> loop_end l2 x2 t2 e2 m2 ->
  (r32 (half_value m1 e1) <= r32 (half_value m2 e2))%R.
Proof.
  intros L X XB G1 M1 (a1 & b1 & I1 & R1 & J1 & K1) G2 M2 (a2 & b2 & I2 & R2 & J2 & K2). pose proof (coded_m l2 m1 e1 x1 t1 G1 M1) as [MB1 _]. pose proof (coded_m l2 m2 e2 x2 t2 G2 M2) as [MB2 TM2].
  assert (LB : 4800 <= l2 <= 100000) by (destruct L as [<-|[<-|[]]]; lia). destruct G1 as (E1 & _). destruct G2 as (E2 & _ & _ & TE & _).
  assert (O1 : okv a1 x1) by (split; [exact I1|lra]). assert (O2 : okv a2 x2) by (split; [exact I2|lra]).
  destruct (loop_order l2 L 64 a1 x1 a2 x2 4 b1 e1 b2 e2 O1 O2 (proj2 X) R1 R2) as [E W]. assert (e1 = e2 \/ e2 < e1) as [Q|Q] by lia.
  - specialize (W Q t1 t2 J1 J2). subst e2. apply half_mono; [|lia|exact E1]. split; [apply MB1|]. rewrite (nint64_A _ _ _ J1 K1), (nint64_A _ _ _ J2 K2). apply Zrnd_le; [apply valid_rnd_N|exact W].
  - destruct TE as [TE|TE]; [|lia]. assert (l2 <= m2) by (assert (l2 - 1 < m2) by (apply lt_IZR; rewrite minus_IZR; lra); lia).
    apply Rle_trans with (r32 (half_value (10 * l2) e1)); [apply half_mono; lia|]. apply Rle_trans with (r32 (half_value (10 * l2) (e2 + 1))); [apply half_anti; lia|]. rewrite <- two_same by (try assumption; lia). apply half_mono; lia.
Qed.
