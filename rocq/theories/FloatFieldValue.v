(** The values of tokens, and their distance to the numbers packed. *)
From Coq Require Import ZArith List Bool Lia Reals Lra.
From Flocq Require Import Core BinarySingleNaN Relative.
From Verif Require Import Bits BitIO CompactInt Flo FloatPack FloatWords FloatField FloatDouble FloatFieldFacts.
Import ListNotations.
Open Scope Z_scope.
Open Scope opt_scope.

(** The factor 1.0000000000001. *)
Lemma factor_ok : exists c, is64 one_and_a_bit c /\ (1 - bpow radix2 (-50) <= c <= 1 + bpow radix2 (-43))%R.
Proof.
  exists (rnd64 (IZR (10 ^ 13 + 1) / IZR (10 ^ 13))).
  set (q := (IZR (10 ^ 13 + 1) / IZR (10 ^ 13))%R).
  assert (Q : (q = 1 + / IZR (10 ^ 13))%R).
  { unfold q. rewrite plus_IZR. field. change (10 ^ 13) with 10000000000000. lra. }
  assert (Q1 : (1 <= q <= 1 + / 10000000000000)%R).
  { rewrite Q. change (10 ^ 13) with 10000000000000. lra. }
  split.
  - apply f64_div_ok; [apply f64_of_ok; lia|apply f64_of_ok; lia|change (10 ^ 13) with 10000000000000; lra|].
    fold q. rewrite Rabs_pos_eq by lra. apply Rle_trans with (bpow radix2 1); [change (bpow radix2 1) with 2%R; lra|apply bpow_le; lia].
  - pose proof (rnd64_rel q) as E. rewrite (Rabs_pos_eq q) in E by lra.
    assert (bpow radix2 (-1022) <= q)%R.
    { apply Rle_trans with (bpow radix2 0); [apply bpow_le; lia|change (bpow radix2 0) with 1%R; lra]. }
    specialize (E H). apply Rabs_le_inv in E.
    change (bpow radix2 (-53)) with (/ 9007199254740992)%R in E. change (bpow radix2 (-50)) with (/ 1125899906842624)%R.
    change (bpow radix2 (-43)) with (/ 8796093022208)%R. lra.
Qed.

(** The token's multiple of the step, with the factor. *)
Lemma scaled_token_ok t s : 0 < t < 2 ^ 32 -> -300 <= s <= 300 ->
  exists Q, is64 (f64_mul (f64_mul (f64_of t) (f64_pow2 s)) one_and_a_bit) Q /\
    (Rabs (Q - IZR t * bpow radix2 s) <= bpow radix2 (-42) * (IZR t * bpow radix2 s))%R.
Proof.
  intros HT HS. destruct factor_ok as (c & C & C1).
  assert (P1 : (1 <= IZR t)%R) by (apply IZR_le; lia).
  assert (P2 : (IZR t <= bpow radix2 32)%R) by (change (bpow radix2 32) with (IZR (2 ^ 32)); apply IZR_le; lia).
  pose proof (bpow_gt_0 radix2 s) as PS.
  assert (TS1 : (bpow radix2 s <= IZR t * bpow radix2 s)%R) by (rewrite <- (Rmult_1_l (bpow radix2 s)) at 1; apply Rmult_le_compat_r; lra).
  assert (TS2 : (IZR t * bpow radix2 s <= bpow radix2 400)%R).
  { apply Rle_trans with (bpow radix2 (32 + s)); [rewrite bpow_plus; apply Rmult_le_compat_r; lra|apply bpow_le; lia]. }
  assert (X : is64 (f64_mul (f64_of t) (f64_pow2 s)) (IZR t * bpow radix2 s)).
  { rewrite <- (rnd64_id (IZR t * bpow radix2 s)).
    - apply f64_mul_ok; [apply f64_of_ok; lia|apply f64_pow2_ok; lia|]. rewrite Rabs_pos_eq by lra.
      eapply Rle_trans; [exact TS2|apply bpow_le; lia].
    - apply (fmt64_scale _ 0); [apply fmt64_int; lia| |lia]. change (bpow radix2 0) with 1%R. rewrite Rabs_pos_eq; lra. }
  set (ts := (IZR t * bpow radix2 s)%R) in *.
  assert (C2 : (/ 2 <= c <= 2)%R).
  { change (bpow radix2 (-50)) with (/ 1125899906842624)%R in C1. change (bpow radix2 (-43)) with (/ 8796093022208)%R in C1. lra. }
  exists (rnd64 (ts * c)). split.
  - apply f64_mul_ok; [exact X|exact C|]. rewrite Rabs_pos_eq by nra.
    apply Rle_trans with (bpow radix2 (400 + 1)); [|apply bpow_le; lia]. rewrite bpow_plus. change (bpow radix2 1) with 2%R.
    apply Rmult_le_compat; lra.
  - assert (TC : (0 <= ts * c)%R) by nra.
    pose proof (rnd64_rel (ts * c)) as E. rewrite (Rabs_pos_eq (ts * c)) in E by exact TC.
    assert (L : (bpow radix2 (-1022) <= ts * c)%R).
    { apply Rle_trans with (bpow radix2 (s + -1)); [apply bpow_le; lia|]. rewrite bpow_plus. change (bpow radix2 (-1)) with (/ 2)%R.
      apply Rmult_le_compat; lra. }
    specialize (E L). apply Rabs_le_inv in E. apply Rabs_le.
    assert (A1 : (ts * (1 - / 1125899906842624) <= ts * c)%R).
    { apply Rmult_le_compat_l; [lra|]. change (bpow radix2 (-50)) with (/ 1125899906842624)%R in C1. lra. }
    assert (A2 : (ts * c <= ts * (1 + / 8796093022208))%R).
    { apply Rmult_le_compat_l; [lra|]. change (bpow radix2 (-43)) with (/ 8796093022208)%R in C1. lra. }
    assert (TP : (0 < ts)%R) by lra.
    change (bpow radix2 (-53)) with (/ 9007199254740992)%R in E. change (bpow radix2 (-42)) with (/ 4398046511104)%R. lra.
Qed.

(** What the value of a token is, as a real. *)
Lemma value_word tag b mn s t : finite_word mn -> (Rabs (V mn) <= big)%R -> 0 < t < 2 ^ 32 -> -300 <= s <= 300 ->
  (tag <> None -> t <> all_ones b) ->
  (V mn + IZR t * bpow radix2 s * (1 + bpow radix2 (-42)) <= bpow radix2 126 * (3 / 2))%R ->
  exists Q, (Rabs (Q - IZR t * bpow radix2 s) <= bpow radix2 (-42) * (IZR t * bpow radix2 s))%R /\
    is64 (f64_mul (f64_mul (f64_of t) (f64_pow2 s)) one_and_a_bit) Q /\
    finite_word (field_value tag b mn (f64_pow2 s) t) /\
    V (field_value tag b mn (f64_pow2 s) t) = rnd32 (rnd64 (Q + V mn)) /\ (Rabs (Q + V mn) <= bpow radix2 127)%R.
Proof.
  intros FM BM HT HS HN HI. destruct (scaled_token_ok t s HT HS) as (Q & X & E). exists Q. split; [exact E|]. split; [exact X|].
  assert (P1 : (1 <= IZR t)%R) by (apply IZR_le; lia). pose proof (bpow_gt_0 radix2 s) as PS.
  assert (TP : (0 < IZR t * bpow radix2 s)%R) by nra.
  set (ts := (IZR t * bpow radix2 s)%R) in *.
  assert (EV : field_value tag b mn (f64_pow2 s) t =
    f32_word (narrow (f64_add (f64_mul (f64_mul (f64_of t) (f64_pow2 s)) one_and_a_bit) (widen (word_f32 mn))))).
  { unfold field_value. rewrite (proj2 (Z.eqb_neq t 0)) by lia. destruct tag as [g|]; [|reflexivity].
    rewrite (proj2 (Z.eqb_neq t (all_ones b))) by (apply HN; discriminate). reflexivity. }
  assert (QM : (Rabs (Q + V mn) <= bpow radix2 127)%R).
  { apply Rabs_le_inv in E. apply Rabs_le_inv in BM. pose proof big_127. apply Rabs_le.
    replace (bpow radix2 127) with (2 * bpow radix2 126)%R in * by (change 127 with (1 + 126); rewrite bpow_plus; reflexivity).
    pose proof (bpow_gt_0 radix2 126).
    assert (0 < bpow radix2 (-42) < 1)%R by (split; [apply bpow_gt_0|change 1%R with (bpow radix2 0); apply bpow_lt; lia]).
    assert (0 <= Q)%R by nra. split; nra. }
  pose proof (f64_add_ok _ _ Q (V mn) X (wide mn FM)) as A.
  assert (is64 (f64_add (f64_mul (f64_mul (f64_of t) (f64_pow2 s)) one_and_a_bit) (widen (word_f32 mn))) (rnd64 (Q + V mn))) as A'.
  { apply A. eapply Rle_trans; [exact QM|apply bpow_le; lia]. }
  destruct (narrow_ok _ _ A') as (N1 & N2).
  { apply rnd64_bound; [lia|exact QM]. }
  destruct (f32_word_ok _ N2) as (W1 & W2 & _).
  rewrite EV. split; [exact W1|]. split; [|exact QM]. unfold V at 1. rewrite <- W2. exact N1.
Qed.

Lemma big_126 : (big * (5 / 4) <= bpow radix2 126 * (3 / 2))%R.
Proof.
  unfold big. change (bpow radix2 126) with (IZR (2 ^ 126)).
  assert (IZR (10 ^ 38) * IZR 10 <= IZR (2 ^ 126) * IZR 12)%R by (rewrite <- !mult_IZR; apply IZR_le; vm_compute; discriminate). lra.
Qed.
Lemma one_big : (1 <= big)%R.
Proof. unfold big. apply IZR_le. lia. Qed.
Lemma tiny_127 : (0 < bpow radix2 (-127) <= / 8)%R.
Proof. split; [apply bpow_gt_0|]. change (/ 8)%R with (bpow radix2 (-3)). apply bpow_le. lia. Qed.

(** The linear part of the bound. *)
Lemma sum_of_errors M x a a' y D ts step Q A d n127 n149 n1022 :
  (Rabs a <= M -> Rabs x <= M -> y = x - a -> 0 <= y -> Rabs (D - y) <= / 9007199254740992 * y -> 0 <= ts <= D -> D < ts + step ->
  Rabs (Q - ts) <= / 4398046511104 * ts -> Rabs (a' - a) <= n127 ->
  Rabs (A - (Q + a')) <= / 9007199254740992 * Rabs (Q + a') + n1022 ->
  Rabs (d - A) <= / 16777216 * Rabs A + n149 -> 0 <= n1022 <= n149 -> n149 <= n127 / 4194304 ->
  Rabs (d - x) <= step + (/ 16777216 + / 68719476736) * M + 2 * n127)%R.
Proof.
  intros HA HX -> HY HD HT HS HQ HA' HR Hd N1 N2. apply Rabs_le_inv in HA, HX, HD, HQ, HA'.
  assert (QA : (Rabs (Q + a') <= M * (1 + / 1099511627776) + n127)%R) by (apply Rabs_le; lra).
  assert (AA : (Rabs (A - (Q + a')) <= / 9007199254740992 * (M * (1 + / 1099511627776) + n127) + n1022)%R) by lra.
  clear HR. assert (B : (Rabs A <= M * (1 + / 549755813888) + 2 * n127)%R).
  { apply Rabs_le_inv in QA, AA. apply Rabs_le. lra. }
  assert (C : (Rabs (d - A) <= / 16777216 * (M * (1 + / 549755813888) + 2 * n127) + n149)%R) by lra.
  clear Hd. apply Rabs_le_inv in QA, AA, C. apply Rabs_le. lra.
Qed.

Section Near.
  Variables (tag : option Z) (b : nat) (lo mn w s t : Z) (M : R).
  Hypothesis FL : finite_word lo.
  Hypothesis FW : finite_word w.
  Hypothesis FM : finite_word mn.
  Hypothesis LE : sval lo <= sval w.
  Hypothesis ML : (Rabs (V lo) <= M)%R.
  Hypothesis MW : (Rabs (V w) <= M)%R.
  Hypothesis MB : (M <= big)%R.
  Hypothesis MN : (Rabs (V mn - V lo) <= bpow radix2 (-127))%R.
  Hypothesis MNB : (Rabs (V mn) <= big)%R.
  Hypothesis HS : -300 <= s <= 300.
  Hypothesis HT : t < 2 ^ 32.
  Hypothesis TK : token_of lo s w t.
  Hypothesis NT : tag <> None -> t <> all_ones b.

  Lemma room : (V mn + IZR t * bpow radix2 s * (1 + bpow radix2 (-42)) <= bpow radix2 126 * (3 / 2))%R.
  Proof.
    destruct TK as (T0 & T1 & T2). pose proof (diff_err lo w LE) as E. pose proof big_126. pose proof one_big. pose proof tiny_127.
    pose proof (Rabs_le_inv _ _ E) as E'. pose proof (Rabs_le_inv _ _ MN) as MN'. pose proof (Rabs_le_inv _ _ ML) as ML'. pose proof (Rabs_le_inv _ _ MW) as MW'.
    apply V_le in LE.
    change (bpow radix2 (-53)) with (/ 9007199254740992)%R in *. change (bpow radix2 (-42)) with (/ 4398046511104)%R.
    set (ts := (IZR t * bpow radix2 s)%R) in *. lra.
  Qed.

  Lemma value_near : let d := field_value tag b mn (f64_pow2 s) t in
    finite_word d /\ (Rabs (V d - V w) <= bpow radix2 s + (bpow radix2 (-24) + bpow radix2 (-36)) * M + bpow radix2 (-126))%R.
  Proof.
    cbv zeta. pose proof (diff_err lo w LE) as E. pose proof (diff_nonneg lo w LE) as D0. pose proof (proj1 (V_le lo w) LE) as LE'.
    assert (N : (2 * bpow radix2 (-127) = bpow radix2 (-126))%R) by (change (-126) with (1 + -127); rewrite bpow_plus; reflexivity).
    assert (N2 : (bpow radix2 (-149) = bpow radix2 (-127) / 4194304)%R).
    { change (-149) with (-127 + -22). rewrite bpow_plus. change (bpow radix2 (-22)) with (/ 4194304)%R. reflexivity. }
    assert (N3 : (0 <= bpow radix2 (-1022) <= bpow radix2 (-149))%R) by (split; [apply bpow_ge_0|apply bpow_le; lia]).
    destruct (Z.eq_dec t 0) as [Z0|NZ].
    - assert (EV : field_value tag b mn (f64_pow2 s) t = mn).
      { unfold field_value. rewrite (proj2 (Z.eqb_eq t 0) Z0). destruct tag as [g|]; [|reflexivity].
        rewrite (proj2 (Z.eqb_neq t (all_ones b))) by (apply NT; discriminate). reflexivity. }
      rewrite EV. split; [exact FM|]. destruct TK as (T0 & T1 & T2). rewrite Z0 in T1, T2.
      apply Rabs_le_inv in E. pose proof (Rabs_le_inv _ _ MN) as MN'. pose proof (Rabs_le_inv _ _ ML) as ML'. pose proof (Rabs_le_inv _ _ MW) as MW'.
      pose proof tiny_127. rewrite <- N.
      change (bpow radix2 (-53)) with (/ 9007199254740992)%R in *. change (bpow radix2 (-24)) with (/ 16777216)%R. change (bpow radix2 (-36)) with (/ 68719476736)%R.
      apply Rabs_le. lra.
    - destruct TK as (T0 & T1 & T2).
      destruct (value_word tag b mn s t FM MNB ltac:(lia) HS NT room) as (Q & HQ & _ & FD & VD & QM).
      split; [exact FD|]. rewrite VD.
      pose proof (sum_of_errors M (V w) (V lo) (V mn) (V w - V lo) (diff lo w) (IZR t * bpow radix2 s) (bpow radix2 s) Q
        (rnd64 (Q + V mn)) (rnd32 (rnd64 (Q + V mn))) (bpow radix2 (-127)) (bpow radix2 (-149)) (bpow radix2 (-1022))) as S.
      rewrite <- N.
      change (bpow radix2 (-24)) with (/ 16777216)%R. change (bpow radix2 (-36)) with (/ 68719476736)%R.
      apply S; clear S; try assumption; try reflexivity; try lra.
      + split; [|exact T1]. pose proof (bpow_gt_0 radix2 s). apply Rmult_le_pos; [apply IZR_le; lia|lra].
      + apply rnd64_err.
      + apply rnd32_err.
  Qed.
End Near.

(** The order of tokens is that of their values. *)
Lemma value_order tag b mn s t1 t2 : finite_word mn -> (Rabs (V mn) <= big)%R -> 0 <= t1 <= t2 -> t2 < 2 ^ 32 -> -300 <= s <= 300 ->
  (tag <> None -> t1 <> all_ones b /\ t2 <> all_ones b) ->
  (V mn + IZR t2 * bpow radix2 s * (1 + bpow radix2 (-42)) <= bpow radix2 126 * (3 / 2))%R ->
  (V (field_value tag b mn (f64_pow2 s) t1) <= V (field_value tag b mn (f64_pow2 s) t2))%R.
Proof.
  intros FM BM HT T2 HS HN RM. pose proof (bpow_gt_0 radix2 s) as PS.
  assert (P42 : (0 < bpow radix2 (-42) < 1)%R) by (split; [apply bpow_gt_0|change 1%R with (bpow radix2 0); apply bpow_lt; lia]).
  destruct (Z.eq_dec t2 0) as [Z2|NZ2].
  { assert (t1 = t2) as -> by lia. apply Rle_refl. }
  destruct (value_word tag b mn s t2 FM BM ltac:(lia) HS ltac:(intros X; apply HN; exact X) RM) as (Q2 & E2 & X2 & _ & V2 & _).
  rewrite V2. assert (P2 : (1 <= IZR t2)%R) by (apply IZR_le; lia).
  assert (TP2 : (0 < IZR t2 * bpow radix2 s)%R) by nra.
  assert (Q2P : (0 <= Q2)%R) by (apply Rabs_le_inv in E2; nra).
  destruct (Z.eq_dec t1 0) as [Z1|NZ1].
  - assert (EV : field_value tag b mn (f64_pow2 s) t1 = mn).
    { unfold field_value. rewrite (proj2 (Z.eqb_eq t1 0) Z1). destruct tag as [g|]; [|reflexivity].
      rewrite (proj2 (Z.eqb_neq t1 (all_ones b))) by (apply HN; discriminate). reflexivity. }
    rewrite EV. rewrite <- (rnd32_id (V mn)) at 1 by (apply V_fmt; exact FM). apply rnd32_le.
    rewrite <- (rnd64_id (V mn)) at 1 by (apply fmt64_of_32, V_fmt; exact FM). apply rnd64_le. lra.
  - assert (P1 : (1 <= IZR t1 <= IZR t2)%R) by (split; apply IZR_le; lia).
    assert (TM : (IZR t1 * bpow radix2 s <= IZR t2 * bpow radix2 s)%R) by (apply Rmult_le_compat_r; lra).
    destruct (value_word tag b mn s t1 FM BM ltac:(lia) HS ltac:(intros X; apply HN; exact X)) as (Q1 & E1 & X1 & _ & V1 & _).
    { nra. }
    rewrite V1. apply rnd32_le, rnd64_le.
    assert (Q1 <= Q2)%R; [|lra].
    destruct factor_ok as (c & C & C1).
    assert (G : forall t Q, 0 < t < 2 ^ 32 -> is64 (f64_mul (f64_mul (f64_of t) (f64_pow2 s)) one_and_a_bit) Q -> Q = rnd64 (IZR t * bpow radix2 s * c)).
    { intros t Q HT' [HQ _]. rewrite <- HQ.
      assert (P : (1 <= IZR t)%R) by (apply IZR_le; lia).
      assert (P' : (IZR t <= bpow radix2 32)%R) by (change (bpow radix2 32) with (IZR (2 ^ 32)); apply IZR_le; lia).
      assert (TS2 : (IZR t * bpow radix2 s <= bpow radix2 400)%R).
      { apply Rle_trans with (bpow radix2 (32 + s)); [rewrite bpow_plus; apply Rmult_le_compat_r; lra|apply bpow_le; lia]. }
      assert (X : is64 (f64_mul (f64_of t) (f64_pow2 s)) (IZR t * bpow radix2 s)).
      { rewrite <- (rnd64_id (IZR t * bpow radix2 s)).
        - apply f64_mul_ok; [apply f64_of_ok; lia|apply f64_pow2_ok; lia|]. rewrite Rabs_pos_eq by nra.
          eapply Rle_trans; [exact TS2|apply bpow_le; lia].
        - apply (fmt64_scale _ 0); [apply fmt64_int; lia| |lia]. change (bpow radix2 0) with 1%R. rewrite Rabs_pos_eq; lra. }
      assert (C2 : (/ 2 <= c <= 2)%R).
      { change (bpow radix2 (-50)) with (/ 1125899906842624)%R in C1. change (bpow radix2 (-43)) with (/ 8796093022208)%R in C1. lra. }
      assert (0 < IZR t * bpow radix2 s)%R by nra.
      apply (f64_mul_ok _ _ _ _ X C). rewrite Rabs_pos_eq by nra.
      apply Rle_trans with (bpow radix2 (400 + 1)); [|apply bpow_le; lia]. rewrite bpow_plus. change (bpow radix2 1) with 2%R.
      apply Rmult_le_compat; lra. }
    rewrite (G t1 Q1 ltac:(lia) X1), (G t2 Q2 ltac:(lia) X2). apply rnd64_le. apply Rmult_le_compat_r; [|exact TM].
    change (bpow radix2 (-50)) with (/ 1125899906842624)%R in C1. lra.
Qed.

Lemma token_order lo s w1 w2 t1 t2 : sval w1 <= sval w2 -> token_of lo s w1 t1 -> token_of lo s w2 t2 -> t1 <= t2.
Proof.
  intros H (A1 & A2 & A3) (B1 & B2 & B3). pose proof (diff_mono lo w1 w2 H) as D. pose proof (bpow_gt_0 radix2 s) as P.
  assert (IZR t1 * bpow radix2 s < (IZR t2 + 1) * bpow radix2 s)%R by lra. apply Rmult_lt_reg_r in H0; [|exact P].
  rewrite <- plus_IZR in H0. apply lt_IZR in H0. lia.
Qed.
