(** Packing again numbers that come from packing. *)
From Coq Require Import ZArith List Bool Lia.
From Verif Require Import Bits BitIO Xdf HandlesFacts Flo FloatPack FloatWords FloatPackFacts FloatPackMain FloatPackLoss.
Import ListNotations.
Open Scope Z_scope.

Lemma pow_pos a : 0 <= a -> 0 < 2 ^ a.
Proof. intros. apply Z.pow_pos_nonneg; lia. Qed.

(** The facts [pack_core] gives. *)
Definition packing (nbits : Z) (ws xs : list Z) (E lo hi s : Z) : Prop :=
  In lo ws /\ In hi ws /\ Forall (fun w => sval lo <= sval w <= sval hi /\ w_exp w <= E) ws /\
  E = Z.max (w_exp hi) (w_exp lo) /\ 1 <= E <= 254 /\ 0 <= s <= 25 /\
  (let mn := Z.quot (sval lo) (2 ^ (E - 1)) in
   let mx := Z.quot (sval hi) (2 ^ (E - 1)) - mn in
   let mask := 2 ^ nbits - 1 in
   mx / 2 ^ s <= mask /\ (s = 0 \/ mask < mx / 2 ^ (s - 1)) /\ Forall2 (unpacked E mn s mask) ws xs).

(** One number: where its token falls. *)
Lemma one nbits ws xs E lo hi s w : 1 <= nbits -> packing nbits ws xs E lo hi s -> In w ws ->
  let q := 2 ^ (E - 1) in let mn := Z.quot (sval lo) q in let mask := 2 ^ nbits - 1 in
  let t := tok E mn s mask w in let T := Z.quot (sval w) q in
  0 <= t <= mask /\ mn <= t * 2 ^ s + mn <= T + 2 ^ s / 2 /\ T < 2 ^ 24 /\ mn <= T <= Z.quot (sval hi) q /\
  mn <= back mn s t < 2 ^ 24 /\ Z.abs mn < 2 ^ 24 /\ Z.abs (back mn s t - T) <= 2 ^ s - 1.
Proof.
  intros NB (IL & IH & FA & EE & ER & SR & S1 & S2 & F2) I q mn mask t T.
  rewrite Forall_forall in FA. destruct (FA w I) as [B WE]. destruct (FA lo IL) as [_ LE].
  assert (Q : 0 < q) by (apply pow_pos; lia). fold q in S1, S2, F2. fold mn in S1, S2, F2. fold mask in S1, S2, F2.
  assert (QW : T < 2 ^ 24) by (pose proof (quot_24 E w ltac:(lia) WE) as X; fold q in X; fold T in X; lia).
  assert (QL : Z.abs mn < 2 ^ 24) by (exact (quot_24 E lo ltac:(lia) LE)).
  assert (QM : mn <= T <= Z.quot (sval hi) q).
  { split; apply Z.quot_le_mono; lia. }
  assert (M0 : 0 <= mask) by (unfold mask; pose proof (pow_pos nbits ltac:(lia)); lia).
  destruct (back_near E mn s mask (Z.quot (sval hi) q - mn) w ltac:(lia) M0 S1 QW ltac:(fold q; fold T; lia)) as (A1 & A2 & A3).
  fold q in A2, A3. fold T in A2, A3. fold t in A1, A2, A3.
  repeat (split; [first [exact A1|exact A3|exact QW|exact QM|exact QL|unfold back; lia]|]). exact A2.
Qed.

Lemma low_token_0 E mn s mask lo : 0 <= s -> 0 <= mask -> mn = Z.quot (sval lo) (2 ^ (E - 1)) -> tok E mn s mask lo = 0.
Proof.
  intros HS HM ->. unfold tok. rewrite Z.sub_diag, Z.add_0_l. destruct (pow_half s HS) as [A _].
  rewrite Z.div_small; [lia|]. pose proof (pow_pos s HS). lia.
Qed.

(** The numbers unpacked are among those on which packing works. *)
Lemma big_enough nbits ws xs E lo hi s : 1 <= nbits -> packing nbits ws xs E lo hi s -> 26 <= E ->
  exists x, In x xs /\ 24 <= w_exp x.
Proof.
  intros NB PK E26. pose proof PK as (IL & IH & FA & EE & ER & SR & S1 & S2 & F2).
  set (q := 2 ^ (E - 1)) in *. set (mn := Z.quot (sval lo) q) in *. set (mask := 2 ^ nbits - 1) in *.
  assert (Q : 0 < q) by (apply pow_pos; lia).
  assert (M0 : 1 <= mask) by (unfold mask; pose proof (Z.pow_le_mono_r 2 1 nbits ltac:(lia) ltac:(lia)); change (2 ^ 1) with 2 in *; lia).
  assert (G : forall x b, sval x = b * q -> 2 ^ 21 <= Z.abs b -> 24 <= w_exp x).
  { intros x b V B. destruct (Z.le_gt_cases (w_exp x) (E - 3)) as [L|]; [|lia]. exfalso.
    apply (mval_exp x (E - 3) ltac:(lia)) in L. rewrite <- sval_abs, V, Z.abs_mul, (Z.abs_eq q) in L by lia.
    replace (23 + (E - 3)) with (21 + (E - 1)) in L by lia. rewrite Z.pow_add_r in L by lia. fold q in L. nia. }
  destruct (Z.le_gt_cases (2 ^ 21) (Z.abs mn)) as [BIG|SMALL].
  - destruct (forall2_l _ _ _ F2 lo IL) as (x & IX & _ & V & _). exists x. split; [exact IX|].
    apply (G x mn); [|exact BIG]. rewrite V. rewrite (low_token_0 E mn s mask lo) by (try reflexivity; lia).
    f_equal. unfold back. destruct (one nbits ws xs E lo hi s lo NB PK IL) as (_ & _ & _ & _ & _ & R & _). fold q in R. fold mn in R. lia.
  - destruct (forall2_l _ _ _ F2 hi IH) as (x & IX & _ & V & _). exists x. split; [exact IX|].
    destruct (one nbits ws xs E lo hi s hi NB PK IH) as (T1 & T2 & T3 & T4 & T5 & T6 & T7).
    fold q in T1, T2, T3, T4, T5, T6, T7. fold mn in T1, T2, T3, T4, T5, T6, T7. fold mask in T1, T2, T3, T4, T5, T6, T7.
    apply (G x _ V).
    assert (TH : 2 ^ 23 <= Z.quot (sval hi) q).
    { destruct (Z.max_spec (w_exp hi) (w_exp lo)) as [[_ M]|[_ M]]; rewrite M in EE.
      - exfalso. pose proof (exp_mval lo ltac:(lia)) as X. rewrite <- EE in X. fold q in X. rewrite <- sval_abs in X.
        destruct (quot_up (sval lo) q Q) as (_ & _ & Y). fold mn in Y. clearbody mn. clear - X Y SMALL Q. nia.
      - pose proof (exp_mval hi ltac:(lia)) as X. rewrite <- EE in X. fold q in X. rewrite <- sval_abs in X.
        destruct (quot_up (sval hi) q Q) as (_ & _ & Y). set (T := Z.quot (sval hi) q) in *. clearbody T mn. clear - X Y Q T4 SMALL. nia. }
    set (T := Z.quot (sval hi) q) in *. set (t := tok E mn s mask hi) in *.
    assert (2 ^ 21 <= back mn s t); [|lia].
    destruct (Z.eq_dec s 0) as [S0|SN]; [rewrite S0 in T7 at 2; change (2 ^ 0) with 1 in T7; lia|].
    destruct S2 as [|S2]; [contradiction|].
    assert (SP : 2 ^ s = 2 * 2 ^ (s - 1)).
    { replace s with (1 + (s - 1)) at 1 by lia. rewrite Z.pow_add_r by lia. reflexivity. }
    pose proof (pow_pos (s - 1) ltac:(lia)) as HP.
    assert (MX : 2 ^ s <= T - mn).
    { pose proof (Z.mul_div_le (T - mn) (2 ^ (s - 1)) HP) as D. set (d := (T - mn) / 2 ^ (s - 1)) in *. rewrite SP. assert (2 <= d) as D2 by lia. apply (Z.mul_le_mono_nonneg_l _ _ (2 ^ (s - 1))) in D2; [|lia]. lia. }
    assert (MU : T - mn < (mask + 1) * 2 ^ s).
    { pose proof (Z.div_mod (T - mn) (2 ^ s) ltac:(lia)) as D. pose proof (Z.mod_pos_bound (T - mn) (2 ^ s) ltac:(lia)) as DB. apply (Z.mul_le_mono_nonneg_l _ _ (2 ^ s)) in S1; [|lia]. lia. }
    assert (HALF : T - mn <= 2 * (t * 2 ^ s)).
    { subst t. unfold tok. fold q. fold T. destruct (pow_half s ltac:(lia)) as [R1 R2]. specialize (R2 ltac:(lia)).
      pose proof (Z.div_mod (T - mn + 2 ^ s / 2) (2 ^ s) ltac:(lia)) as D. pose proof (Z.mod_pos_bound (T - mn + 2 ^ s / 2) (2 ^ s) ltac:(lia)) as DB.
      set (d := (T - mn + 2 ^ s / 2) / 2 ^ s) in *. set (m := (T - mn + 2 ^ s / 2) mod 2 ^ s) in *. set (r := 2 ^ s / 2) in *. set (p := 2 ^ s) in *.
      clearbody d m r p T mn mask. clear - D DB R1 R2 MX MU M0.
      assert (1 <= d) by nia. destruct (Z.le_gt_cases mask d); [rewrite Z.min_l by lia|rewrite Z.min_r by lia]; nia. }
    unfold back. lia.
Qed.

Lemma unscale q' k b : 0 < q' -> 0 <= k -> Z.quot (b * (q' * 2 ^ k)) q' = b * 2 ^ k.
Proof. intros. replace (b * (q' * 2 ^ k)) with (b * 2 ^ k * q') by ring. apply Z.quot_mul. lia. Qed.

Lemma exact_div a p : 0 <= p -> (a * 2 ^ p + 2 ^ p / 2) / 2 ^ p = a.
Proof.
  intros H. destruct (pow_half p H) as [A _]. pose proof (pow_pos p H). rewrite Z.div_add_l, Z.div_small by lia. lia.
Qed.

Lemma twice nbits ws xs ys E lo hi s E' lo' hi' s' : 1 <= nbits ->
  packing nbits ws xs E lo hi s -> packing nbits xs ys E' lo' hi' s' -> ys = xs.
Proof.
  intros NB PK PK'. pose proof PK as (IL & IH & FA & EE & ER & SR & S1 & S2 & F2).
  pose proof PK' as (IL' & IH' & FA' & EE' & ER' & SR' & S1' & S2' & F2').
  set (q := 2 ^ (E - 1)) in *. set (mn := Z.quot (sval lo) q) in *. set (mask := 2 ^ nbits - 1) in *.
  set (q' := 2 ^ (E' - 1)) in *. set (mn' := Z.quot (sval lo') q') in *.
  assert (Q : 0 < q) by (apply pow_pos; lia). assert (Q' : 0 < q') by (apply pow_pos; lia).
  assert (M0 : 1 <= mask) by (unfold mask; pose proof (Z.pow_le_mono_r 2 1 nbits ltac:(lia) ltac:(lia)); change (2 ^ 1) with 2 in *; lia).
  assert (TK : forall w, In w ws -> let t := tok E mn s mask w in
     0 <= t <= mask /\ mn <= t * 2 ^ s + mn <= Z.quot (sval w) q + 2 ^ s / 2 /\ Z.quot (sval w) q < 2 ^ 24 /\
     mn <= back mn s t < 2 ^ 24 /\ Z.abs mn < 2 ^ 24 /\ Z.quot (sval w) q <= Z.quot (sval hi) q).
  { intros w I. destruct (one nbits ws xs E lo hi s w NB PK I) as (A1 & A2 & A3 & A4 & A5 & A6 & _). cbv zeta. tauto. }
  assert (MN : Z.abs mn < 2 ^ 24) by apply (TK lo IL).
  assert (SRC : forall x, In x xs -> exists w, In w ws /\ sval x = back mn s (tok E mn s mask w) * q).
  { intros x I. destruct (forall2_r _ _ _ F2 x I) as (w & J & _ & V & _). exists w. auto. }
  assert (EXP : forall x, In x xs -> w_exp x <= E).
  { intros x I. destruct (SRC x I) as (w & J & V). destruct (TK w J) as (_ & _ & _ & B & _).
    apply (mval_exp x E ltac:(lia)). rewrite <- sval_abs, V, Z.abs_mul, (Z.abs_eq q) by lia.
    replace (23 + E) with (24 + (E - 1)) by lia. rewrite Z.pow_add_r by lia. fold q. apply Z.mul_lt_mono_pos_r; [exact Q|]. lia. }
  assert (EL : E' <= E) by (rewrite EE'; apply Z.max_lub; apply EXP; assumption).
  set (k := E - E'). assert (K : 0 <= k) by lia.
  assert (QQ : q = q' * 2 ^ k). { unfold q, q', k. rewrite <- Z.pow_add_r by lia. f_equal. lia. }
  assert (LOV : sval lo' = mn * q).
  { destruct (forall2_l _ _ _ F2 lo IL) as (x0 & IX & _ & V & _).
    rewrite (low_token_0 E mn s mask lo) in V by (try reflexivity; lia).
    replace (back mn s 0) with mn in V by (unfold back; lia).
    rewrite Forall_forall in FA'. destruct (FA' x0 IX) as [B0 _]. destruct (SRC lo' IL') as (w & J & V').
    destruct (TK w J) as (_ & _ & _ & B & _). rewrite V' in *. rewrite V in B0. apply Z.le_antisymm; [exact (proj1 B0)|]. apply Z.mul_le_mono_nonneg_r; lia. }
  assert (MN' : mn' = mn * 2 ^ k) by (unfold mn'; rewrite LOV, QQ; apply unscale; assumption).
  destruct (SRC hi' IH') as (wh & JH & VH). set (th := tok E mn s mask wh) in *.
  assert (TH' : Z.quot (sval hi') q' = back mn s th * 2 ^ k) by (rewrite VH, QQ; apply unscale; assumption).
  rewrite TH', MN' in S1', S2'. rewrite <- Z.mul_sub_distr_r in S1', S2'.
  pose proof (pow_pos k K) as KP.
  (* it is enough that each number keeps its value *)
  assert (ENOUGH : forall l m r, Forall2 (unpacked E mn s mask) l m -> (forall w, In w l -> In w ws) -> (forall x, In x m -> In x xs) ->
     Forall2 (unpacked E' mn' s' mask) m r ->
     (forall w x, In w ws -> In x xs -> unpacked E mn s mask w x ->
        back mn' s' (tok E' mn' s' mask x) * q' = back mn s (tok E mn s mask w) * q) -> r = m).
  { clear - Q Q'. induction l as [|w l IHl]; intros m r F SUB SUB' F' EQ; inversion F; subst; inversion F'; subst; [reflexivity|].
    f_equal.
    - match goal with A : unpacked E mn s mask w ?x, B : unpacked E' mn' s' mask ?x ?y |- _ =>
        pose proof (EQ w x (SUB w (or_introl eq_refl)) (SUB' x (or_introl eq_refl)) A) as EQX;
        destruct A as (FX & VX & GX), B as (FY & VY & GY) end.
      fold q in VX. fold q' in VY.
      assert (V : sval y0 = sval y) by congruence.
      apply sval_inj; try assumption. rewrite GX, GY. unfold back in VX, VY.
      set (u := tok E mn s mask w * 2 ^ s + mn) in *. set (v := tok E' mn' s' mask y * 2 ^ s' + mn') in *. clearbody u v.
      destruct (Z.ltb_spec u 0), (Z.ltb_spec v 0); try reflexivity; exfalso; nia.
    - apply (IHl l' l'0); [assumption|intros u J; apply SUB; right; exact J|intros u J; apply SUB'; right; exact J|assumption|exact EQ]. }
  apply (ENOUGH ws xs ys F2 (fun w I => I) (fun x I => I) F2'). clear ENOUGH.
  intros w x IW IX (_ & V & _). fold q in V.
  assert (TX : Z.quot (sval x) q' = back mn s (tok E mn s mask w) * 2 ^ k) by (rewrite V, QQ; apply unscale; assumption).
  assert (TX24 : Z.abs (Z.quot (sval x) q') < 2 ^ 24).
  { apply quot_24; [lia|]. rewrite Forall_forall in FA'. apply (FA' x IX). }
  assert (BH : forall y, In y xs -> sval y <= sval hi').
  { intros y I. rewrite Forall_forall in FA'. apply (FA' y I). }
  assert (BW : back mn s (tok E mn s mask w) <= back mn s th).
  { pose proof (BH x IX) as H. rewrite V, VH in H. apply Z.mul_le_mono_pos_r in H; [|exact Q]. exact H. }
  destruct (TK w IW) as (T1 & T2 & T3 & T4 & _). destruct (TK wh JH) as (H1 & H2 & H3 & H4 & _). fold th in H1, H2, H4.
  unfold tok at 1. fold q'. rewrite TX. set (t := tok E mn s mask w) in *.
  destruct (Forall_dec (fun w => tok E mn s mask w * 2 ^ s + mn <= 2 ^ 24 - 1) ltac:(intros; apply Z_le_dec) ws) as [ALL|SOME].
  - (* no number was held at the top *)
    rewrite Forall_forall in ALL. pose proof (ALL w IW) as AW. pose proof (ALL wh JH) as AH. cbv beta in AW, AH. fold t in AW. fold th in AH.
    assert (BT : back mn s t = t * 2 ^ s + mn) by (unfold back; apply Z.min_l; exact AW).
    assert (BTH : back mn s th = th * 2 ^ s + mn) by (unfold back; apply Z.min_l; exact AH).
    rewrite BTH in S1', S2', BW. rewrite BT in BW, TX. rewrite BT.
    replace ((th * 2 ^ s + mn - mn) * 2 ^ k) with (th * 2 ^ (s + k)) in S1', S2' by (rewrite Z.pow_add_r by lia; ring).
    assert (SS : s' <= s + k).
    { destruct (Z.le_gt_cases s' (s + k)) as [|G]; [assumption|exfalso]. destruct S2' as [|S2']; [lia|].
      assert (th * 2 ^ (s + k) / 2 ^ (s' - 1) <= th * 2 ^ (s + k) / 2 ^ (s + k)).
      { apply Z.div_le_compat_l; [pose proof (pow_pos (s + k) ltac:(lia)); apply Z.mul_nonneg_nonneg; lia|]. split; [apply pow_pos; lia|apply Z.pow_le_mono_r; lia]. }
      rewrite Z.div_mul in H by (pose proof (pow_pos (s + k) ltac:(lia)); lia). lia. }
    rewrite MN'. replace ((t * 2 ^ s + mn) * 2 ^ k - mn * 2 ^ k) with (t * 2 ^ (s + k - s') * 2 ^ s').
    2:{ rewrite <- Z.mul_assoc, <- Z.pow_add_r by lia. replace (s + k - s' + s') with (s + k) by lia. rewrite Z.pow_add_r by lia. ring. }
    rewrite exact_div by lia.
    assert (AM : t * 2 ^ (s + k - s') <= mask).
    { apply Z.le_trans with (th * 2 ^ (s + k) / 2 ^ s'); [|exact S1'].
      apply Z.div_le_lower_bound; [apply pow_pos; lia|].
      replace (2 ^ s' * (t * 2 ^ (s + k - s'))) with (t * 2 ^ (s + k)).
      2:{ replace (s + k) with (s' + (s + k - s')) at 1 by lia. rewrite Z.pow_add_r by lia. ring. }
      pose proof (pow_pos s ltac:(lia)). apply Z.mul_le_mono_nonneg_r; [apply Z.lt_le_incl, pow_pos; clear - SR K; lia|]. apply (Z.mul_le_mono_pos_r _ _ (2 ^ s)); [assumption|]. clear - BW. lia. }
    rewrite Z.min_r by exact AM. unfold back.
    replace (t * 2 ^ (s + k - s') * 2 ^ s' + mn * 2 ^ k) with ((t * 2 ^ s + mn) * 2 ^ k).
    2:{ rewrite <- Z.mul_assoc, <- Z.pow_add_r by lia. replace (s + k - s' + s') with (s + k) by lia. rewrite Z.pow_add_r by lia. ring. }
    rewrite Z.min_l by lia. rewrite QQ. ring.
  - (* some number was held at the top *)
    apply neg_Forall_Exists_neg in SOME; [|intros; apply Z_le_dec]. apply Exists_exists in SOME as (wc & JC & UC).
    destruct (forall2_l _ _ _ F2 wc JC) as (xc & IC & _ & VC & _). fold q in VC.
    set (tc := tok E mn s mask wc) in *.
    assert (BC : back mn s tc = 2 ^ 24 - 1) by (unfold back; lia). rewrite BC in VC.
    assert (KZ : k = 0).
    { assert (E <= E'); [|lia]. apply Z.le_trans with (w_exp xc).
      - destruct (Z.le_gt_cases E (w_exp xc)) as [|G]; [assumption|exfalso].
        assert (L : w_exp xc <= E - 1) by lia. apply (mval_exp xc (E - 1) ltac:(lia)) in L. rewrite <- sval_abs, VC, Z.abs_mul, (Z.abs_eq q) in L by lia.
        rewrite Z.pow_add_r in L by lia. fold q in L. clear - L Q. nia.
      - rewrite Forall_forall in FA'. apply (FA' xc IC). }
    rewrite KZ in *. change (2 ^ 0) with 1 in *. rewrite Z.mul_1_r in *. rewrite <- QQ in *.
    assert (BHI : back mn s th = 2 ^ 24 - 1).
    { pose proof (BH xc IC) as H. rewrite VC, VH in H. apply Z.mul_le_mono_pos_r in H; [|exact Q]. lia. }
    rewrite BHI in *.
    destruct (TK wc JC) as (C1 & C2 & C3 & _). fold tc in C1, C2.
    pose proof (pow_pos s ltac:(lia)) as SP.
    assert (SS : s' = s).
    { destruct (Z.lt_trichotomy s' s) as [L|[|L]]; [exfalso|assumption|exfalso].
      - destruct S2 as [|S2]; [lia|].
        assert (Z.quot (sval hi) q - mn <= 2 ^ 24 - 1 - mn) by (destruct (TK hi IH) as (_ & _ & X & _); lia).
        assert ((Z.quot (sval hi) q - mn) / 2 ^ (s - 1) <= (2 ^ 24 - 1 - mn) / 2 ^ (s - 1)) by (apply Z.div_le_mono; [apply pow_pos; lia|assumption]).
        assert ((2 ^ 24 - 1 - mn) / 2 ^ (s - 1) <= (2 ^ 24 - 1 - mn) / 2 ^ s').
        { apply Z.div_le_compat_l; [lia|]. split; [apply pow_pos; lia|apply Z.pow_le_mono_r; lia]. }
        lia.
      - destruct S2' as [|S2']; [lia|].
        assert ((2 ^ 24 - 1 - mn) / 2 ^ (s' - 1) <= (2 ^ 24 - 1 - mn) / 2 ^ s).
        { apply Z.div_le_compat_l; [lia|]. split; [apply pow_pos; lia|apply Z.pow_le_mono_r; lia]. }
        assert ((2 ^ 24 - 1 - mn) / 2 ^ s < tc) by (apply Z.div_lt_upper_bound; lia). lia. }
    rewrite SS, MN'. f_equal. 
    destruct (Z.le_gt_cases (t * 2 ^ s + mn) (2 ^ 24 - 1)) as [U|U].
    + assert (BT : back mn s t = t * 2 ^ s + mn) by (unfold back; apply Z.min_l; exact U). rewrite BT.
      replace (t * 2 ^ s + mn - mn) with (t * 2 ^ s) by ring. rewrite exact_div, Z.min_r by lia. exact BT.
    + assert (BT : back mn s t = 2 ^ 24 - 1) by (unfold back; apply Z.min_r; clear - U; lia). rewrite BT.
      assert (D : (2 ^ 24 - 1 - mn + 2 ^ s / 2) / 2 ^ s = t).
      { symmetry. destruct (pow_half s ltac:(lia)) as [R1 _]. apply Z.div_unique with (2 ^ 24 - 1 - mn + 2 ^ s / 2 - 2 ^ s * t); [left; lia|ring]. }
      rewrite D, Z.min_r by lia. exact BT.
Qed.
