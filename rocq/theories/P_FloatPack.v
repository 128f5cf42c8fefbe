(** C47: fields of real numbers packed in tokens of at most 16 bits. *)
From Coq Require Import ZArith List Bool Lia Reals Lra.
From Flocq Require Import Core BinarySingleNaN.
From Verif Require Import Bits BitIO Xdf Flo FloatPack FloatWords FloatPackFacts FloatPackMain FloatPackLoss FloatPackTwice.
Import ListNotations.
Open Scope Z_scope.
Open Scope opt_scope.

(** Specification: the real number a word of IEEE single precision stands for,
    and the words that stand for one. *)
Definition ieee32 (w : Z) : R :=
  let e := (w / 2 ^ 23) mod 256 in
  let m := w mod 2 ^ 23 in
  ((if 2 ^ 31 <=? w then -1 else 1) *
   (if e =? 0 then IZR m * bpow radix2 (-149) else IZR (2 ^ 23 + m) * bpow radix2 (e - 150)))%R.
Definition number32 (w : Z) : Prop := 0 <= w < 2 ^ 32 /\ (w / 2 ^ 23) mod 256 <> 255.

(** The fields the packer handles: at least one number, fewer than 2^31, and
    either one number is at least 2^-103 in magnitude, or none is below 2^-126,
    or all are zero. *)
Definition packable (ws : list Z) : Prop :=
  0 < Z.of_nat (length ws) < 2 ^ 31 /\ Forall number32 ws /\
  ((exists w, In w ws /\ (bpow radix2 (-103) <= Rabs (ieee32 w))%R) \/
   (forall w, In w ws -> (bpow radix2 (-126) <= Rabs (ieee32 w))%R) \/
   (forall w, In w ws -> ieee32 w = 0%R)).

Lemma ieee32_sval w : ieee32 w = (IZR (sval w) * bpow radix2 (-149))%R.
Proof.
  unfold ieee32, sval, mval. fold (w_exp w) (w_man w) (w_sign w). pose proof (exp_range w) as R. cbv zeta.
  destruct (Z.eqb_spec (w_exp w) 0) as [E|E].
  - destruct (w_sign w); [rewrite opp_IZR|]; ring.
  - replace (w_exp w - 150) with (w_exp w - 1 + -149) by lia. rewrite bpow_plus.
    assert (X : IZR ((2 ^ 23 + w_man w) * 2 ^ (w_exp w - 1)) = (IZR (2 ^ 23 + w_man w) * bpow radix2 (w_exp w - 1))%R).
    { rewrite mult_IZR. change (2 ^ (w_exp w - 1)) with (radix2 ^ (w_exp w - 1)). rewrite IZR_Zpower by lia. reflexivity. }
    destruct (w_sign w); [rewrite opp_IZR|]; rewrite X; ring.
Qed.

Lemma ieee32_f32 w : number32 w -> ieee32 w = r32 (word_f32 w).
Proof. intros H. rewrite ieee32_sval. symmetry. apply word_value. exact H. Qed.

Lemma u_pos : (0 < bpow radix2 (-149))%R.
Proof. apply bpow_gt_0. Qed.

Lemma ieee32_abs w e : 0 <= e -> (bpow radix2 (e - 126) <= Rabs (ieee32 w))%R -> e + 1 <= w_exp w.
Proof.
  intros HE H. rewrite ieee32_sval, Rabs_mult, (Rabs_pos_eq (bpow radix2 (-149))) in H by apply bpow_ge_0.
  replace (e - 126) with (23 + e + -149) in H by lia. rewrite bpow_plus in H.
  apply Rmult_le_reg_r in H; [|apply u_pos]. rewrite <- abs_IZR, sval_abs in H.
  rewrite <- IZR_Zpower in H by lia. apply le_IZR in H. change (radix2 ^ (23 + e)) with (2 ^ (23 + e)) in H.
  destruct (Z.le_gt_cases (w_exp w) e) as [L|]; [|lia]. apply (mval_exp w e HE) in L. lia.
Qed.

Lemma packable_field ws : packable ws -> field_ok ws \/ (ws <> [] /\ Forall finite_word ws /\ forall w, In w ws -> sval w = 0).
Proof.
  intros (L & F & S). assert (NE : ws <> []) by (destruct ws; [cbn in L; lia|discriminate]).
  destruct S as [(w & I & B)|[A|A]].
  - left. split; [exact NE|]. split; [exact F|]. split; [lia|]. left. exists w. split; [exact I|].
    change (-103) with (23 - 126) in B. apply ieee32_abs in B; lia.
  - left. split; [exact NE|]. split; [exact F|]. split; [lia|]. right. apply Forall_forall. intros w I. specialize (A w I).
    change (-126) with (0 - 126) in A. apply ieee32_abs in A; lia.
  - right. split; [exact NE|]. split; [exact F|]. intros w I. specialize (A w I). rewrite ieee32_sval in A.
    apply Rmult_integral in A as [A|A]; [apply eq_IZR; exact A|]. pose proof u_pos. lra.
Qed.

(** A field of zeros. *)
Lemma pack_zeros junk ws nbits stream : ws <> [] -> Z.of_nat (length ws) < 2 ^ 31 -> Forall finite_word ws -> (forall w, In w ws -> sval w = 0) ->
  1 <= nbits <= 16 ->
  exists h str, c_float_packer junk ws nbits = Some (0, h, str) /\ length h = 3%nat /\ length str = ((length ws + 1) / 2)%nat /\
    c_float_unpacker h stream (Z.of_nat (length ws)) = Some (0, nbits, repeat 0 (length ws)).
Proof.
  intros NE LEN F Z0 HB. destruct (min_max_ok ws NE F) as (lo & hi & MM & IL & IH & BD).
  assert (EZ : forall w, In w ws -> w_exp w = 0 /\ w_man w = 0).
  { intros w I. specialize (Z0 w I). assert (M : mval w = 0) by (rewrite <- sval_abs, Z0; reflexivity).
    pose proof (exp_range w). assert (X : w_exp w = 0).
    { assert (w_exp w <= 0); [|lia]. apply (mval_exp w 0 ltac:(lia)). rewrite M. reflexivity. }
    split; [exact X|]. unfold mval in M. rewrite X in M. exact M. }
  assert (SC : forall w, In w ws -> scaled 0 w = Some (if w_sign w then - 2 ^ 23 else 2 ^ 23)).
  { intros w I. destruct (EZ w I) as [A B]. unfold scaled. rewrite A, B. cbv zeta. change (0 - 0) with 0. change (0 <? 0) with false. change (31 <? 0) with false.
    cbv iota. rewrite Z.shiftr_0_r, Z.add_0_r. reflexivity. }
  assert (TK : forall l, (forall w, In w l -> In w ws) -> exists ts, tokens 0 0 0 0 (2 ^ nbits - 1) l = Some ts /\ length ts = length l).
  { induction l as [|w l IHl]; intros SUB; [exists []; split; reflexivity|].
    destruct IHl as (ts & E & L); [intros u J; apply SUB; right; exact J|].
    cbn [tokens]. unfold token. rewrite (SC w (SUB w (or_introl eq_refl))). cbn [bind].
    rewrite i32_ok by (destruct (w_sign w); lia). cbn [bind]. rewrite i32_ok by (destruct (w_sign w); lia). cbn [bind]. cbv zeta. rewrite E. cbn [bind].
    eexists. split; [reflexivity|]. cbn [length]. lia. }
  destruct (TK ws (fun w I => I)) as (ts & ET & LT). clear TK.
  pose proof (h0_fields (nbits - 1) 0 0 ltac:(lia) ltac:(lia) ltac:(lia)) as HF. cbv zeta in HF.
  set (h0 := Z.lor (Z.lor (Z.lor (w32 (Z.shiftl 3839 20)) (Z.shiftl (nbits - 1) 16)) (Z.shiftl (Z.land 0 255) 8)) (Z.land 0 255)) in *.
  exists [h0; w32 0; w32 (Z.of_nat (length ws))], (store junk false ts).
  destruct (EZ lo IL) as [EL _]. destruct (EZ hi IH) as [EH _].
  split; [|split; [reflexivity|split]].
  - unfold c_float_packer. assert (((16 <? nbits) || (nbits <? 1)) = false) as ->.
    { apply orb_false_intro; apply Z.ltb_ge; lia. }
    rewrite MM. cbn [bind]. cbv zeta. rewrite EL, EH. change (Z.max 0 0) with 0.
    rewrite (SC hi IH). cbn [bind]. rewrite (SC lo IL). cbn [bind]. change (0 <? 1) with true. cbv iota.
    change (i32 (0 - 0)) with (Some 0). cbn [bind].
    assert (X : fit 32 0 (2 ^ nbits - 1) 1 0 = Some (0, 0)).
    { pose proof (pow_pos nbits ltac:(lia)). cbn [fit]. assert ((0 <=? 2 ^ nbits - 1) = true) as -> by (apply Z.leb_le; lia). reflexivity. }
    rewrite X. cbn [bind]. rewrite ET. cbn [bind]. fold h0. reflexivity.
  - rewrite store_length, LT. reflexivity.
  - destruct HF as (H1 & H2 & H3 & H4 & _). unfold c_float_unpacker. cbn [nth_error bind]. cbv zeta.
    rewrite H1, H2, H3. change (negb (3839 =? 3839)) with false. cbv iota. rewrite (sgn32_w32 (Z.of_nat (length ws))) by lia.
    rewrite Z.eqb_refl. cbn [negb]. change (0 =? 0) with true. cbv iota. rewrite Nat2Z.id. do 3 f_equal. lia.
Qed.

Lemma real_bound lo hi a b w x nbits : 1 <= nbits ->
  (lo <= ieee32 a)%R -> (ieee32 b <= hi)%R -> (lo <= hi)%R -> sval a <= sval b ->
  Z.abs (sval x - sval w) * (2 ^ (nbits - 1) * 2 ^ 23) <=
    (sval b - sval a) * 2 ^ 23 + Z.max (Z.abs (sval a)) (Z.abs (sval b)) * 2 ^ (nbits - 1) ->
  (lo <= ieee32 b)%R -> (ieee32 a <= hi)%R ->
  (Rabs (ieee32 x - ieee32 w) <= (hi - lo) / bpow radix2 (nbits - 1) + Rmax (Rabs lo) (Rabs hi) / bpow radix2 23)%R.
Proof.
  intros N LA HB LH AB H LB HA. pose proof u_pos as U. set (u := bpow radix2 (-149)) in *.
  apply IZR_le in H. rewrite plus_IZR, !mult_IZR, minus_IZR, abs_IZR, minus_IZR in H.
  change (2 ^ 23) with (radix2 ^ 23) in H. change (2 ^ (nbits - 1)) with (radix2 ^ (nbits - 1)) in H. rewrite !IZR_Zpower in H by lia.
  assert (P : (0 < bpow radix2 (nbits - 1))%R) by apply bpow_gt_0. assert (C : (0 < bpow radix2 23)%R) by apply bpow_gt_0.
  set (p := bpow radix2 (nbits - 1)) in *. set (c := bpow radix2 23) in *.
  rewrite ieee32_sval in LA, HB, LB, HA. rewrite !ieee32_sval. fold u in LA, HB, LB, HA |- *.
  assert (MX : (IZR (Z.max (Z.abs (sval a)) (Z.abs (sval b))) * u <= Rmax (Rabs lo) (Rabs hi))%R).
  { assert (forall v, (lo <= IZR (sval v) * u <= hi)%R -> (IZR (Z.abs (sval v)) * u <= Rmax (Rabs lo) (Rabs hi))%R).
    { intros v [V1 V2]. rewrite abs_IZR. replace (Rabs (IZR (sval v)) * u)%R with (Rabs (IZR (sval v) * u)) by (rewrite Rabs_mult, (Rabs_pos_eq u) by lra; reflexivity).
      set (y := (IZR (sval v) * u)%R) in *. clearbody y. unfold Rmax. destruct (Rle_dec (Rabs lo) (Rabs hi)); unfold Rabs in *; repeat destruct Rcase_abs; lra. }
    destruct (Z.max_spec (Z.abs (sval a)) (Z.abs (sval b))) as [[_ ->]|[_ ->]]; auto. }
  set (M := IZR (Z.max (Z.abs (sval a)) (Z.abs (sval b)))) in *. clearbody M p c u. clear AB.
  set (R := Rmax (Rabs lo) (Rabs hi)) in *. clearbody R.
  replace (IZR (sval x) * u - IZR (sval w) * u)%R with ((IZR (sval x) - IZR (sval w)) * u)%R by ring.
  rewrite Rabs_mult, (Rabs_pos_eq u) by lra. set (d := Rabs (IZR (sval x) - IZR (sval w))) in *. clearbody d.
  apply Rmult_le_reg_r with (p * c)%R; [apply Rmult_lt_0_compat; assumption|].
  replace (((hi - lo) / p + R / c) * (p * c))%R with ((hi - lo) * c + R * p)%R by (field; lra).
  replace (d * u * (p * c))%R with (d * (p * c) * u)%R by ring.
  apply Rle_trans with (((IZR (sval b) - IZR (sval a)) * c + M * p) * u)%R; [apply Rmult_le_compat_r; lra|].
  replace (((IZR (sval b) - IZR (sval a)) * c + M * p) * u)%R with ((IZR (sval b) * u - IZR (sval a) * u) * c + (M * u) * p)%R by ring.
  apply Rplus_le_compat; apply Rmult_le_compat_r; lra.
Qed.

(** Packing a field in tokens of 1 to 16 bits and unpacking it gives back the
    number of bits and as many numbers, each within 2^(1-bits) of the range of the
    field plus 2^-23 of its largest magnitude. The unpacker must be able to read one
    word after the packed data. *)
Theorem c47_error junk ws nbits next lo hi : packable ws -> 1 <= nbits <= 16 ->
  (forall w, In w ws -> (lo <= ieee32 w <= hi)%R) ->
  exists h str xs, c_float_packer junk ws nbits = Some (0, h, str) /\
    length h = 3%nat /\ length str = ((length ws + 1) / 2)%nat /\
    c_float_unpacker h (str ++ [next]) (Z.of_nat (length ws)) = Some (0, nbits, xs) /\
    Forall2 (fun w x => number32 x /\
      (Rabs (ieee32 x - ieee32 w) <= (hi - lo) / bpow radix2 (nbits - 1) + Rmax (Rabs lo) (Rabs hi) / bpow radix2 23)%R) ws xs.
Proof.
  intros PA NB BD. destruct (packable_field ws PA) as [FO|(NE & F & ZZ)].
  - destruct (pack_core junk ws nbits next FO NB) as (E & a & b & s & xs & h & str & IA & IB & FA & EE & ER & SR & H).
    cbv zeta in H. destruct H as (S1 & S2 & P1 & P2 & P3 & P4 & P5 & _).
    exists h, str, xs. split; [exact P1|]. split; [exact P3|]. split; [exact P2|]. split; [exact P4|].
    assert (G : forall l m, Forall2 (unpacked E (Z.quot (sval a) (2 ^ (E - 1))) s (2 ^ nbits - 1)) l m -> (forall w, In w l -> In w ws) ->
      Forall2 (fun w x => number32 x /\
      (Rabs (ieee32 x - ieee32 w) <= (hi - lo) / bpow radix2 (nbits - 1) + Rmax (Rabs lo) (Rabs hi) / bpow radix2 23)%R) l m).
    { induction l as [|w l IHl]; intros m F2 SUB; inversion F2; subst; constructor.
      - match goal with U : unpacked _ _ _ _ w ?x |- _ => rename U into UX end. split; [apply UX|].
        rewrite Forall_forall in FA. destruct (FA w (SUB w (or_introl eq_refl))) as [B1 B2]. destruct (FA a IA) as [B3 _].
        destruct (BD a IA), (BD b IB).
        apply (real_bound lo hi a b); try assumption; try lia; try lra.
        apply (loss (Z.max (w_exp b) (w_exp a)) a b s nbits w _ (2 ^ nbits - 1)); try assumption; try reflexivity; try lia. cbv zeta. auto.
      - apply IHl; [assumption|]. intros u J. apply SUB. right. exact J. }
    apply G; [exact P5|auto].
  - destruct (pack_zeros junk ws nbits [next] NE (proj2 (proj1 PA)) F ZZ NB) as (h & str & P1 & P2 & P3 & _).
    destruct (pack_zeros junk ws nbits (str ++ [next]) NE (proj2 (proj1 PA)) F ZZ NB) as (h' & str' & Q1 & _ & _ & Q4).
    rewrite P1 in Q1. injection Q1 as <- <-.
    exists h, str, (repeat 0 (length ws)). split; [exact P1|]. split; [exact P2|]. split; [exact P3|]. split; [exact Q4|].
    assert (X : (0 <= (hi - lo) / bpow radix2 (nbits - 1) + Rmax (Rabs lo) (Rabs hi) / bpow radix2 23)%R).
    { destruct ws as [|w ws]; [contradiction|]. destruct (BD w (or_introl eq_refl)).
      assert (0 <= Rmax (Rabs lo) (Rabs hi))%R by (apply Rle_trans with (Rabs lo); [apply Rabs_pos|apply Rmax_l]).
      apply Rplus_le_le_0_compat; (apply Rmult_le_pos; [lra|apply Rlt_le, Rinv_0_lt_compat, bpow_gt_0]). }
    clear - ZZ X. induction ws as [|w ws IH]; cbn [length repeat]; constructor.
    + split; [split; [lia|discriminate]|]. rewrite !ieee32_sval, (ZZ w (or_introl eq_refl)). change (sval 0) with 0.
      rewrite Rminus_diag_eq, Rabs_R0 by reflexivity. exact X.
    + apply IH. intros u J. apply ZZ. right. exact J.
Qed.
Print Assumptions c47_error.

(** A field of one repeated number, of magnitude at least 2^-126, comes back
    exactly. *)
Theorem c47_constant junk w n nbits next : number32 w -> (bpow radix2 (-126) <= Rabs (ieee32 w))%R -> 0 < Z.of_nat n < 2 ^ 31 ->
  1 <= nbits <= 16 ->
  exists h str, c_float_packer junk (repeat w n) nbits = Some (0, h, str) /\
    c_float_unpacker h (str ++ [next]) (Z.of_nat n) = Some (0, nbits, repeat w n).
Proof.
  intros NW BIG HN NB. change (-126) with (0 - 126) in BIG. apply ieee32_abs in BIG; [|lia].
  assert (ALL : forall v, In v (repeat w n) -> v = w) by (intros v I; apply repeat_spec in I; exact I).
  assert (FO : field_ok (repeat w n)).
  { split; [destruct n; [cbn in HN; lia|discriminate]|]. split; [apply Forall_forall; intros v I; rewrite (ALL v I); exact NW|].
    rewrite repeat_length. split; [lia|]. right. apply Forall_forall. intros v I. rewrite (ALL v I). lia. }
  destruct (pack_core junk _ nbits next FO NB) as (E & a & b & s & xs & h & str & IA & IB & FA & EE & ER & SR & H).
  cbv zeta in H. destruct H as (S1 & S2 & P1 & P2 & P3 & P4 & P5 & _). rewrite repeat_length in P4.
  exists h, str. split; [exact P1|]. rewrite P4. do 2 f_equal.
  rewrite (ALL a IA), (ALL b IB) in *. rewrite Z.max_id in EE.
  assert (S0 : s = 0).
  { destruct S2 as [|S2]; [assumption|]. rewrite Z.sub_diag, Zdiv_0_l in S2. pose proof (pow_pos nbits ltac:(lia)). lia. }
  assert (EX : Z.quot (sval w) (2 ^ (E - 1)) * 2 ^ (E - 1) = sval w).
  { unfold sval, mval. assert ((w_exp w =? 0) = false) as -> by (apply Z.eqb_neq; lia). rewrite <- EE.
    pose proof (pow_pos (E - 1) ltac:(lia)). destruct (w_sign w).
    - rewrite <- Z.mul_opp_l, Z.quot_mul by lia. reflexivity.
    - rewrite Z.quot_mul by lia. reflexivity. }
  assert (Q24 : Z.abs (Z.quot (sval w) (2 ^ (E - 1))) < 2 ^ 24) by (apply quot_24; lia).
  assert (G : forall x, unpacked E (Z.quot (sval w) (2 ^ (E - 1))) s (2 ^ nbits - 1) w x -> x = w).
  { intros x (FX & VX & GX). rewrite (low_token_0 E _ s _ w) in VX, GX by (try reflexivity; pose proof (pow_pos nbits ltac:(lia)); lia).
    assert (V : sval x = sval w).
    { rewrite VX. transitivity (Z.quot (sval w) (2 ^ (E - 1)) * 2 ^ (E - 1)); [|exact EX]. f_equal. unfold back. lia. }
    apply sval_inj; [exact FX|exact NW| |exact V]. rewrite GX. rewrite Z.mul_0_l, Z.add_0_l.
    pose proof (exp_mval w BIG) as M. rewrite <- EE in M. pose proof (pow_pos (E - 1) ltac:(lia)) as P.
    unfold sval in *. destruct (w_sign w); [apply Z.ltb_lt|apply Z.ltb_ge]; nia. }
  clear - P5 G ALL. revert xs P5 ALL. generalize (repeat w n) as l. induction l as [|v l IH]; intros xs F A; inversion F; subst; [reflexivity|].
  f_equal.
  - rewrite (A v (or_introl eq_refl)) in *. apply G. assumption.
  - apply IH; [assumption|]. intros u I. apply A. right. exact I.
Qed.
Print Assumptions c47_constant.

(** Packing the unpacked numbers again with as many bits loses nothing more, when
    one number of the field is at least 2^-101 in magnitude. *)
Theorem c47_stable junk ws nbits next h str xs junk' next' : packable ws ->
  (exists w, In w ws /\ (bpow radix2 (-101) <= Rabs (ieee32 w))%R) -> 1 <= nbits <= 16 ->
  c_float_packer junk ws nbits = Some (0, h, str) ->
  c_float_unpacker h (str ++ [next]) (Z.of_nat (length ws)) = Some (0, nbits, xs) ->
  exists h' str', c_float_packer junk' xs nbits = Some (0, h', str') /\
    c_float_unpacker h' (str' ++ [next']) (Z.of_nat (length xs)) = Some (0, nbits, xs).
Proof.
  intros PA (w & I & B) NB PK UN. change (-101) with (25 - 126) in B. apply ieee32_abs in B; [|lia].
  destruct (packable_field ws PA) as [FO|(_ & _ & ZZ)].
  2:{ exfalso. specialize (ZZ w I). pose proof (exp_mval w ltac:(lia)) as M. rewrite <- sval_abs, ZZ in M.
      pose proof (pow_pos (w_exp w - 1) ltac:(lia)). change (Z.abs 0) with 0 in M. lia. }
  destruct (pack_core junk ws nbits next FO NB) as (E & a & b & s & xs1 & h1 & str1 & IA & IB & FA & EE & ER & SR & H).
  cbv zeta in H. destruct H as (S1 & S2 & P1 & P2 & P3 & P4 & P5 & _).
  rewrite PK in P1. injection P1 as <- <-. rewrite UN in P4. injection P4 as <-.
  assert (PG : packing nbits ws xs E a b s).
  { repeat (split; [assumption|]). cbv zeta. auto. }
  assert (E26 : 26 <= E).
  { rewrite Forall_forall in FA. destruct (FA w I). lia. }
  assert (LX : length xs = length ws) by (clear - P5; induction P5; cbn [length]; congruence).
  assert (FO' : field_ok xs).
  { destruct FO as (NE & F & L & _). split; [destruct xs; [destruct ws; [contradiction|discriminate LX]|discriminate]|].
    split; [|split; [rewrite LX; exact L|left; apply (big_enough nbits ws xs E a b s); [lia|exact PG|exact E26]]].
    apply Forall_forall. intros x J. destruct (forall2_r _ _ _ P5 x J) as (v & _ & FX & _). exact FX. }
  destruct (pack_core junk' xs nbits next' FO' NB) as (E' & a' & b' & s' & ys & h' & str' & IA' & IB' & FA' & EE' & ER' & SR' & H').
  cbv zeta in H'. destruct H' as (S1' & S2' & P1' & P2' & P3' & P4' & P5' & _).
  assert (PG' : packing nbits xs ys E' a' b' s').
  { repeat (split; [assumption|]). cbv zeta. auto. }
  rewrite (twice nbits ws xs ys E a b s E' a' b' s' ltac:(lia) PG PG') in P4'.
  exists h', str'. auto.
Qed.
Print Assumptions c47_stable.

(** More than 16 bits or less than one is refused, and so is packed data that is
    not of this kind or that does not hold the number of values asked for. *)
Theorem c47_refused junk ws nbits next h str n : (nbits < 1 \/ 16 < nbits -> c_float_packer junk ws nbits = Some (-1, [], [])) /\
  (packable ws -> 1 <= nbits <= 16 -> c_float_packer junk ws nbits = Some (0, h, str) -> n <> Z.of_nat (length ws) ->
   c_float_unpacker h (str ++ [next]) n = Some (-1, nbits, [])) /\
  (forall h0 r, h = h0 :: r -> Z.land (Z.shiftr h0 20) 0xFFF <> 0xEFF -> exists b, c_float_unpacker h str n = Some (-1, b, [])).
Proof.
  split; [|split].
  - intros H. unfold c_float_packer. assert (((16 <? nbits) || (nbits <? 1)) = true) as ->; [|reflexivity].
    apply orb_true_iff. destruct H; [right|left]; apply Z.ltb_lt; lia.
  - intros PA NB PK NL.
    assert (U : exists xs, c_float_unpacker h (str ++ [next]) (Z.of_nat (length ws)) = Some (0, nbits, xs)).
    { destruct (packable_field ws PA) as [FO|(NE & F & ZZ)].
      - destruct (pack_core junk ws nbits next FO NB) as (E & a & b & s & xs & h1 & str1 & _ & _ & _ & _ & _ & _ & H).
        cbv zeta in H. destruct H as (_ & _ & P1 & _ & _ & P4 & _). rewrite PK in P1. injection P1 as <- <-. exists xs. exact P4.
      - destruct (pack_zeros junk ws nbits (str ++ [next]) NE (proj2 (proj1 PA)) F ZZ NB) as (h' & str' & Q1 & _ & _ & Q4).
        rewrite PK in Q1. injection Q1 as <- <-. eexists. exact Q4. }
    destruct U as (xs & U). unfold c_float_unpacker in U |- *.
    destruct (nth_error h 0) as [h0|]; [|discriminate]. cbn [bind] in U |- *. cbv zeta in U |- *.
    destruct (negb (Z.land (Z.shiftr h0 20) 4095 =? 3839)); [discriminate|].
    destruct (nth_error h 2) as [h2|]; [|discriminate]. cbn [bind] in U |- *.
    destruct (Z.eqb_spec (Z.of_nat (length ws)) (sgn32 h2)) as [EQ|]; [|discriminate]. cbn [negb] in U.
    assert ((n =? sgn32 h2) = false) as -> by (apply Z.eqb_neq; congruence). cbn [negb].
    destruct (nth_error h 1) as [h1|]; [|discriminate]. cbn [bind] in U.
    assert (Z.land (Z.shiftr h0 16) 15 + 1 = nbits) as ->; [|reflexivity].
    destruct (Z.land (Z.shiftr h0 8) 255 =? 0); [injection U; auto|].
    destruct (str ++ [next]) as [|x l]; [discriminate|]. destruct (unpack_loop _ _ _ _ _ _ _) as [ys|]; [|discriminate].
    cbn [bind] in U. injection U; auto.
  - intros h0 r -> H. unfold c_float_unpacker. cbn [nth_error bind]. cbv zeta.
    apply Z.eqb_neq in H. rewrite H. cbn [negb]. eexists. reflexivity.
Qed.
Print Assumptions c47_refused.

(** A field of 1, 3.14159274, -100, 0 in four bits, and again. *)
Definition demo_field : list Z := [0x3f800000; 0x40490fdb; 0xc2c80000; 0].
Lemma demo_ok : packable demo_field /\ (exists w, In w demo_field /\ (bpow radix2 (-101) <= Rabs (ieee32 w))%R) /\
  (forall w, In w demo_field -> (-100 <= ieee32 w <= 22 / 7)%R).
Proof.
  assert (V : ieee32 0x3f800000 = 1%R /\ ieee32 0x40490fdb = (IZR 13176795 * / IZR 4194304)%R /\ ieee32 0xc2c80000 = (-100)%R /\ ieee32 0 = 0%R).
  { repeat split; unfold ieee32; cbv zeta;
    match goal with |- context [(?w / 2 ^ 23) mod 256 =? 0] =>
      let e := eval vm_compute in ((w / 2 ^ 23) mod 256) in let m := eval vm_compute in (w mod 2 ^ 23) in let m' := eval vm_compute in (2 ^ 23 + m) in
      let b := eval vm_compute in (2 ^ 31 <=? w) in let z := eval vm_compute in (e =? 0) in let k := eval vm_compute in (e - 150) in
      replace ((w / 2 ^ 23) mod 256) with e by (vm_compute; reflexivity); replace (w mod 2 ^ 23) with m by (vm_compute; reflexivity);
      change (2 ^ 31 <=? w) with b; change (e =? 0) with z; change (2 ^ 23 + m) with m'; change (e - 150) with k end;
    cbv iota; rewrite ?(bpow_opp radix2 23), ?(bpow_opp radix2 22), ?(bpow_opp radix2 17); 
    try change (bpow radix2 (-23)) with (/ IZR (Z.pow_pos 2 23))%R; try change (bpow radix2 (-22)) with (/ IZR (Z.pow_pos 2 22))%R;
    try change (bpow radix2 (-17)) with (/ IZR (Z.pow_pos 2 17))%R;
    try (change (Z.pow_pos 2 23) with 8388608); try (change (Z.pow_pos 2 22) with 4194304); try (change (Z.pow_pos 2 17) with 131072); lra. }
  destruct V as (V1 & V2 & V3 & V4).
  assert (B : (bpow radix2 (-101) <= bpow radix2 (-103 + 2))%R) by (apply bpow_le; lia).
  assert (B1 : (bpow radix2 (-101) <= 1)%R) by (change 1%R with (bpow radix2 0); apply bpow_le; lia).
  assert (B3 : (bpow radix2 (-103) <= bpow radix2 (-101))%R) by (apply bpow_le; lia).
  assert (R1 : Rabs 1 = 1%R) by (apply Rabs_pos_eq; lra).
  split; [|split].
  - split; [cbn; lia|]. split; [repeat constructor; cbv; congruence|]. left. exists 0x3f800000. split; [left; reflexivity|]. rewrite V1, R1. lra.
  - exists 0x3f800000. split; [left; reflexivity|]. rewrite V1, R1. lra.
  - intros w I. cbn [demo_field In] in I. destruct I as [<-|[<-|[<-|[<-|[]]]]]; rewrite ?V1, ?V2, ?V3, ?V4; lra.
Qed.
Definition pack_unpack (ws : list Z) (nbits : Z) : option (list Z * option (Z * Z * list Z)) :=
  match c_float_packer 0 ws nbits with
  | Some (0, h, str) => Some (str, c_float_unpacker h (str ++ [99]) (Z.of_nat (length ws)))
  | _ => None
  end.
Example c47_demo : pack_unpack demo_field 4 = Some ([851981; 13], Some (0, 4, [0x40800000; 0x40800000; 0xc2c80000; 0x40800000])).
Proof. vm_compute. reflexivity. Qed.
Example c47_demo_again : pack_unpack [0x40800000; 0x40800000; 0xc2c80000; 0x40800000] 4 =
  Some ([851981; 13], Some (0, 4, [0x40800000; 0x40800000; 0xc2c80000; 0x40800000])).
Proof. vm_compute. reflexivity. Qed.

(** The unpacker reads the word after the packed data when the number of values
    is even: with the data alone it is out of bounds. *)
Theorem c47_reads_past_refuted : exists ws h str, packable ws /\ c_float_packer 0 ws 4 = Some (0, h, str) /\
  c_float_unpacker h str (Z.of_nat (length ws)) = None.
Proof.
  exists demo_field, (match c_float_packer 0 demo_field 4 with Some (_, h, _) => h | None => [] end), [851981; 13].
  split; [apply demo_ok|]. split; vm_compute; reflexivity.
Qed.
Print Assumptions c47_reads_past_refuted.

(** In a field of numbers below 2^-103 a zero comes back as another number: here
    0 and 2^-120 in 16 bits give back 2^-127 and 2^-120. *)
Theorem c47_tiny_refuted : exists h str, c_float_packer 0 [0; 7 * 2 ^ 23] 16 = Some (0, h, str) /\
  c_float_unpacker h (str ++ [0]) 2 = Some (0, 16, [2 ^ 22; 7 * 2 ^ 23]) /\
  ieee32 (2 ^ 22) = bpow radix2 (-127) /\ ieee32 (7 * 2 ^ 23) = bpow radix2 (-120) /\
  (bpow radix2 (-127) > (bpow radix2 (-120) - 0) / bpow radix2 (16 - 1) + Rmax (Rabs 0) (Rabs (bpow radix2 (-120))) / bpow radix2 23)%R.
Proof.
  exists (match c_float_packer 0 [0; 7 * 2 ^ 23] 16 with Some (_, h, _) => h | None => [] end), [16809984].
  split; [vm_compute; reflexivity|]. split; [vm_compute; reflexivity|].
  split; [|split].
  - rewrite ieee32_sval. change (sval (2 ^ 22)) with (radix2 ^ 22). rewrite IZR_Zpower, <- bpow_plus by lia. reflexivity.
  - rewrite ieee32_sval. change (sval (7 * 2 ^ 23)) with (radix2 ^ 29). rewrite IZR_Zpower, <- bpow_plus by lia. reflexivity.
  - pose proof (bpow_gt_0 radix2 (-143)) as U. rewrite Rabs_R0, (Rabs_pos_eq (bpow radix2 (-120))) by apply bpow_ge_0.
    rewrite Rmax_right by apply bpow_ge_0. rewrite Rminus_0_r. unfold Rdiv. rewrite <- !bpow_opp, <- !bpow_plus.
    change (-120 + - (16 - 1)) with (-135). change (-120 + - (23)) with (-143).
    change (-127) with (16 + -143). change (-135) with (8 + -143). rewrite !(bpow_plus radix2 _ (-143)).
    change (bpow radix2 16) with 65536%R. change (bpow radix2 8) with 256%R. lra.
Qed.
Print Assumptions c47_tiny_refuted.
