(** How far the numbers unpacked are from the numbers packed, and packing them
    again. *)
From Coq Require Import ZArith List Bool Lia.
From Verif Require Import Bits BitIO Xdf HandlesFacts Flo FloatPack FloatWords FloatPackFacts FloatPackMain.
Import ListNotations.
Open Scope Z_scope.

Lemma forall2_l {A B} (P : A -> B -> Prop) l m : Forall2 P l m -> forall a, In a l -> exists b, In b m /\ P a b.
Proof.
  induction 1 as [|a b l m H F IH]; intros c I; [contradiction|].
  destruct I as [<-|I]; [exists b; split; [left; reflexivity|exact H]|].
  destruct (IH c I) as (d & J & Q). exists d. split; [right; exact J|exact Q].
Qed.
Lemma forall2_r {A B} (P : A -> B -> Prop) l m : Forall2 P l m -> forall b, In b m -> exists a, In a l /\ P a b.
Proof.
  induction 1 as [|a b l m H F IH]; intros c I; [contradiction|].
  destruct I as [<-|I]; [exists a; split; [left; reflexivity|exact H]|].
  destruct (IH c I) as (d & J & Q). exists d. split; [right; exact J|exact Q].
Qed.

Lemma exp_mval w : 1 <= w_exp w -> 2 ^ 23 * 2 ^ (w_exp w - 1) <= mval w.
Proof.
  intros H. unfold mval. assert ((w_exp w =? 0) = false) as -> by (apply Z.eqb_neq; lia).
  pose proof (man_range w). assert (0 < 2 ^ (w_exp w - 1)) by (apply Z.pow_pos_nonneg; lia). nia.
Qed.

Lemma quot_up v q : 0 < q -> (v < 0 \/ Z.quot v q * q <= v) /\ (0 < v \/ v <= Z.quot v q * q) /\ v - q < Z.quot v q * q < v + q.
Proof.
  intros Q. destruct (quot_near v q Q) as (A & B & C). pose proof (Z.mul_nonneg_nonneg _ q C ltac:(lia)) as D.
  replace (Z.quot v q * v * q) with (Z.quot v q * q * v) in D by ring. set (t := Z.quot v q * q) in *. clearbody t. clear C.
  split; [|split; [|lia]].
  - destruct (Z.lt_ge_cases v 0); [left; assumption|right; lia].
  - destruct (Z.lt_ge_cases 0 v); [left; assumption|right; lia].
Qed.

Lemma range_up lo hi q : 0 < q -> lo <= hi -> (Z.quot hi q - Z.quot lo q) * q <= hi - lo + q.
Proof.
  intros Q L. destruct (quot_up lo q Q) as (_ & A & B). destruct (quot_up hi q Q) as (C & _ & D).
  rewrite Z.mul_sub_distr_r. set (u := Z.quot hi q * q) in *. set (v := Z.quot lo q * q) in *. clearbody u v.
  destruct A, C; lia.
Qed.

Lemma bound_0 d q p c M R : 0 <= d -> 0 <= R -> 0 < p -> 0 < c -> d <= 1 * q -> c * q <= M -> d * (p * c) <= R * c + M * p.
Proof.
  intros. assert (d * c <= M) by nia. assert (0 <= R * c) by nia.
  replace (d * (p * c)) with (d * c * p) by ring. assert (d * c * p <= M * p) by nia. lia.
Qed.
Lemma bound_1 d q p c h mx M R : 0 <= d -> 0 < q -> 0 < p -> 0 < c -> d <= 2 * h * q -> 2 * p * h <= mx -> mx * q <= R + q ->
  c * q <= M -> d * (p * c) <= R * c + M * p.
Proof.
  intros D Q P C H1 H2 H3 H4. assert (d * p <= 2 * h * q * p) by (apply Z.mul_le_mono_nonneg_r; lia).
  assert (2 * p * h * q <= mx * q) by (apply Z.mul_le_mono_nonneg_r; lia).
  assert (A : d * p <= R + q) by lia.
  assert (d * p * c <= (R + q) * c) by (apply Z.mul_le_mono_nonneg_r; lia).
  assert (M0 : 0 <= M) by nia. assert (M * 1 <= M * p) by (apply Z.mul_le_mono_nonneg_l; lia). lia.
Qed.

(** Each unit is 2^(1-n) of the range, apart from the precision of the numbers. *)
Lemma loss E lo hi s nbits w x mask :
  1 <= E -> E = Z.max (w_exp hi) (w_exp lo) -> 0 <= s -> 1 <= nbits -> mask = 2 ^ nbits - 1 ->
  sval lo <= sval w <= sval hi -> w_exp w <= E ->
  (let mn := Z.quot (sval lo) (2 ^ (E - 1)) in let mx := Z.quot (sval hi) (2 ^ (E - 1)) - mn in
   mx / 2 ^ s <= mask /\ (s = 0 \/ mask < mx / 2 ^ (s - 1)) /\ unpacked E mn s mask w x) ->
  Z.abs (sval x - sval w) * (2 ^ (nbits - 1) * 2 ^ 23) <=
    (sval hi - sval lo) * 2 ^ 23 + Z.max (Z.abs (sval lo)) (Z.abs (sval hi)) * 2 ^ (nbits - 1).
Proof.
  intros E1 EE S0 N1 EM [B1 B2] WE H. cbv zeta in H. destruct H as (S1 & S2 & _ & V & _).
  pose proof (quot_24 E w E1 WE) as QW.
  assert (TOP : 2 ^ 23 * 2 ^ (E - 1) <= Z.max (Z.abs (sval lo)) (Z.abs (sval hi))).
  { rewrite !sval_abs. destruct (Z.max_spec (w_exp hi) (w_exp lo)) as [[_ M]|[_ M]]; rewrite M in EE; subst E.
    - pose proof (exp_mval lo E1). lia.
    - pose proof (exp_mval hi E1). lia. }
  set (q := 2 ^ (E - 1)) in *. assert (Q : 0 < q) by (apply Z.pow_pos_nonneg; lia).
  set (mn := Z.quot (sval lo) q) in *. set (mx := Z.quot (sval hi) q - mn) in *.
  assert (P0 : 0 < 2 ^ (nbits - 1)) by (apply Z.pow_pos_nonneg; lia).
  assert (MASK : mask + 1 = 2 * 2 ^ (nbits - 1)).
  { subst mask. replace nbits with (1 + (nbits - 1)) at 1 by lia. rewrite Z.pow_add_r by lia. change (2 ^ 1) with 2. lia. }
  assert (QM : mn <= Z.quot (sval w) q <= mn + mx).
  { unfold mx, mn. pose proof (Z.quot_le_mono (sval lo) (sval w) q Q B1). pose proof (Z.quot_le_mono (sval w) (sval hi) q Q B2). lia. }
  assert (M0 : 0 <= mask) by lia. assert (QW' : Z.quot (sval w) q < 2 ^ 24) by lia.
  destruct (back_near E mn s mask mx w S0 M0 S1 QW' QM) as (T1 & T2 & _).
  fold q in T2. destruct (quot_near (sval w) q Q) as (NW & _ & _).
  set (T := Z.quot (sval w) q) in *. set (b := back mn s (tok E mn s mask w)) in *. rewrite V.
  set (M := Z.max (Z.abs (sval lo)) (Z.abs (sval hi))) in *.
  assert (D : Z.abs (b * q - sval w) <= 2 ^ s * q).
  { replace (b * q - sval w) with ((b - T) * q + (T * q - sval w)) by ring.
    assert (H : Z.abs ((b - T) * q) <= (2 ^ s - 1) * q) by (rewrite Z.abs_mul, (Z.abs_eq q) by lia; apply Z.mul_le_mono_nonneg_r; [lia|exact T2]). clearbody T b. clear - H NW. lia. }
  assert (MQ : mx * q <= sval hi - sval lo + q) by (apply range_up; lia).
  clearbody M T b. clear NW T2 V QM QW QW'.
  set (d := Z.abs (b * q - sval w)) in *. assert (D0 : 0 <= d) by (subst d; lia). clearbody d.
  destruct (Z.eq_dec s 0) as [->|SN].
  - apply (bound_0 _ q); try assumption; lia.
  - destruct S2 as [|S2]; [contradiction|].
    assert (P2 : 0 < 2 ^ (s - 1)) by (apply Z.pow_pos_nonneg; lia).
    assert (SP : 2 ^ s = 2 * 2 ^ (s - 1)).
    { replace s with (1 + (s - 1)) at 1 by lia. rewrite Z.pow_add_r by lia. reflexivity. }
    assert (MX : (mask + 1) * 2 ^ (s - 1) <= mx).
    { pose proof (Z.mul_div_le mx (2 ^ (s - 1)) P2). apply Z.le_trans with (2 ^ (s - 1) * (mx / 2 ^ (s - 1))); [|assumption].
      rewrite Z.mul_comm. apply Z.mul_le_mono_nonneg_l; lia. }
    rewrite MASK in MX. rewrite SP in D.
    apply (bound_1 _ q _ _ (2 ^ (s - 1)) mx); try assumption; lia.
Qed.
