(** Packing then unpacking single precision numbers. *)
From Coq Require Import ZArith List Bool Lia.
From Verif Require Import Bits BitIO Xdf HandlesFacts Flo FloatPack FloatWords FloatPackFacts.
Import ListNotations.
Open Scope Z_scope.
Open Scope opt_scope.

(** Fields on which the packer works: finite numbers, one of them of magnitude
    at least 2^-103 or none below 2^-126. *)
Definition field_ok (ws : list Z) : Prop :=
  ws <> [] /\ Forall finite_word ws /\ Z.of_nat (length ws) < 2 ^ 31 /\
  ((exists w, In w ws /\ 24 <= w_exp w) \/ Forall (fun w => 1 <= w_exp w) ws).

Lemma h0_fields nb E s : 0 <= nb < 16 -> 0 <= E < 256 -> 0 <= s < 256 ->
  let h0 := Z.lor (Z.lor (Z.lor (w32 (Z.shiftl 0xEFF 20)) (Z.shiftl nb 16)) (Z.shiftl (Z.land E 0xFF) 8)) (Z.land s 0xFF) in
  Z.land (Z.shiftr h0 16) 0xF = nb /\ Z.land (Z.shiftr h0 20) 0xFFF = 0xEFF /\ Z.land (Z.shiftr h0 8) 0xFF = E /\ Z.land h0 0xFF = s /\
  0 <= h0 < 2 ^ 32.
Proof.
  intros HN HE HS h0.
  assert (H : h0 = 0xEFF * 2 ^ 20 + nb * 2 ^ 16 + E * 2 ^ 8 + s).
  { subst h0. change (w32 (Z.shiftl 3839 20)) with (3839 * 2 ^ 20).
    change 0xFF with (Z.ones 8). rewrite !Z.land_ones, !(Z.mod_small _ (2 ^ 8)), !Z.shiftl_mul_pow2 by lia.
    rewrite <- (Z.lor_assoc _ (E * 2 ^ 8) s), (Z.lor_comm (E * 2 ^ 8) s), (lor_add_disjoint s E 8) by lia.
    rewrite <- Z.lor_assoc, (Z.lor_comm (nb * 2 ^ 16)), (lor_add_disjoint (s + E * 2 ^ 8) nb 16) by lia.
    rewrite Z.lor_comm, lor_add_disjoint by lia. lia. }
  clearbody h0. subst h0.
  change 0xF with (Z.ones 4). change 0xFFF with (Z.ones 12) at 1. change 0xFF with (Z.ones 8).
  rewrite !Z.land_ones, !Z.shiftr_div_pow2 by lia.
  split; [|split; [|split; [|split]]].
  - replace (3839 * 2 ^ 20 + nb * 2 ^ 16 + E * 2 ^ 8 + s) with ((3839 * 2 ^ 4 + nb) * 2 ^ 16 + (E * 2 ^ 8 + s)) by lia.
    rewrite Z.div_add_l, (Z.div_small (E * 2 ^ 8 + s)), Z.add_0_r by lia.
    rewrite Z.add_comm, Z.mod_add by lia. apply Z.mod_small. lia.
  - replace (3839 * 2 ^ 20 + nb * 2 ^ 16 + E * 2 ^ 8 + s) with (3839 * 2 ^ 20 + (nb * 2 ^ 16 + E * 2 ^ 8 + s)) by lia.
    rewrite Z.div_add_l, (Z.div_small (nb * 2 ^ 16 + E * 2 ^ 8 + s)) by lia. reflexivity.
  - replace (3839 * 2 ^ 20 + nb * 2 ^ 16 + E * 2 ^ 8 + s) with ((3839 * 2 ^ 12 + nb * 2 ^ 8 + E) * 2 ^ 8 + s) by lia.
    rewrite Z.div_add_l, (Z.div_small s), Z.add_0_r by lia.
    replace (3839 * 2 ^ 12 + nb * 2 ^ 8 + E) with (E + (3839 * 2 ^ 4 + nb) * 2 ^ 8) by lia.
    rewrite Z.mod_add by lia. apply Z.mod_small. lia.
  - replace (3839 * 2 ^ 20 + nb * 2 ^ 16 + E * 2 ^ 8 + s) with (s + (3839 * 2 ^ 12 + nb * 2 ^ 8 + E) * 2 ^ 8) by lia.
    rewrite Z.mod_add by lia. apply Z.mod_small. lia.
  - lia.
Qed.

Lemma sgn32_w32 n : - 2 ^ 31 <= n < 2 ^ 31 -> sgn32 (w32 n) = n.
Proof.
  intros H. unfold sgn32, w32. destruct (Z.le_gt_cases 0 n).
  - rewrite Z.mod_small by lia. destruct (Z.leb_spec (2 ^ 31) n); lia.
  - replace (n mod 2 ^ 32) with (n + 2 ^ 32) by (apply Z.mod_unique with (-1); lia).
    destruct (Z.leb_spec (2 ^ 31) (n + 2 ^ 32)); lia.
Qed.

Lemma store_length : forall ts junk b, length (store junk b ts) = ((length ts + (if b then 2 else 1)) / 2)%nat.
Proof.
  induction ts as [|t ts IH]; intros junk b; cbn [store length].
  - destruct b; reflexivity.
  - cbv zeta. destruct b; cbn [length]; rewrite IH.
    + replace (S (length ts) + 2)%nat with (length ts + 1 + 1 * 2)%nat by lia. rewrite Nat.div_add by lia. lia.
    + f_equal. lia.
Qed.

Definition unpacked (E mn s mask : Z) (w x : Z) : Prop :=
  finite_word x /\ sval x = back mn s (tok E mn s mask w) * 2 ^ (E - 1) /\
  w_sign x = (tok E mn s mask w * 2 ^ s + mn <? 0).

Lemma quot_zero w E : 24 <= E -> w_exp w = 0 -> Z.quot (sval w) (2 ^ (E - 1)) = 0.
Proof.
  intros H Q. apply Z.quot_small_iff; [apply Z.pow_nonzero; lia|]. rewrite sval_abs.
  assert (P : 2 ^ 23 <= 2 ^ (E - 1)) by (apply Z.pow_le_mono_r; lia). rewrite (Z.abs_eq (2 ^ (E - 1))) by lia.
  unfold mval. rewrite Q. pose proof (man_range w). change (0 =? 0) with true. cbv iota. lia.
Qed.

Lemma pack_core junk ws nbits next : field_ok ws -> 1 <= nbits <= 16 ->
  exists E lo hi s xs h str,
    In lo ws /\ In hi ws /\ Forall (fun w => sval lo <= sval w <= sval hi /\ w_exp w <= E) ws /\
    E = Z.max (w_exp hi) (w_exp lo) /\ 1 <= E <= 254 /\ 0 <= s <= 25 /\
    (let mn := Z.quot (sval lo) (2 ^ (E - 1)) in
     let mx := Z.quot (sval hi) (2 ^ (E - 1)) - mn in
     let mask := 2 ^ nbits - 1 in
     mx / 2 ^ s <= mask /\ (s = 0 \/ mask < mx / 2 ^ (s - 1)) /\
     c_float_packer junk ws nbits = Some (0, h, str) /\ length str = ((length ws + 1) / 2)%nat /\ length h = 3%nat /\
     c_float_unpacker h (str ++ [next]) (Z.of_nat (length ws)) = Some (0, nbits, xs) /\
     Forall2 (unpacked E mn s mask) ws xs /\ Forall (fun v => 0 <= v < 2 ^ 32) (h ++ str)).
Proof.
  intros (NE & FW & LEN & SIZE) HB.
  destruct (min_max_ok ws NE FW) as (lo & hi & MM & IL & IH & BD).
  set (E := Z.max (w_exp hi) (w_exp lo)).
  assert (FLO : finite_word lo) by (rewrite Forall_forall in FW; apply FW; exact IL).
  assert (FHI : finite_word hi) by (rewrite Forall_forall in FW; apply FW; exact IH).
  pose proof (exp_range lo) as RL. pose proof (exp_range hi) as RH.
  assert (EXP : Forall (fun w => w_exp w <= E) ws).
  { rewrite Forall_forall in *. intros w I. specialize (BD w I). pose proof (exp_range w).
    apply (mval_exp w E); [lia|].
    pose proof (proj1 (mval_exp lo E ltac:(lia)) ltac:(lia)) as ML. pose proof (proj1 (mval_exp hi E ltac:(lia)) ltac:(lia)) as MH.
    rewrite <- sval_abs in *. lia. }
  assert (ES : 1 <= E /\ (24 <= E \/ Forall (fun w => 1 <= w_exp w) ws)).
  { rewrite Forall_forall in EXP. destruct SIZE as [(w & I & X)|ALL].
    - specialize (EXP w I). cbn in EXP. lia.
    - split; [|right; exact ALL]. rewrite Forall_forall in ALL. specialize (ALL lo IL). cbn in ALL. lia. }
  destruct ES as [E1 E24].
  assert (E254 : E <= 254) by (destruct FLO, FHI; lia).
  assert (EOK : forall w, In w ws -> w_exp w <= E /\ (1 <= w_exp w \/ 24 <= E)).
  { intros w I. rewrite Forall_forall in EXP. split; [apply EXP; exact I|].
    destruct E24 as [|ALL]; [right; assumption|left]. rewrite Forall_forall in ALL. apply ALL; exact I. }
  set (q := 2 ^ (E - 1)). assert (Q : 0 < q) by (apply Z.pow_pos_nonneg; lia).
  set (mn := Z.quot (sval lo) q). set (mx := Z.quot (sval hi) q - mn). set (mask := 2 ^ nbits - 1).
  pose proof (quot_24 E lo E1 (proj1 (EOK lo IL))) as QL. fold q in QL. fold mn in QL.
  pose proof (quot_24 E hi E1 (proj1 (EOK hi IH))) as QH. fold q in QH.
  assert (MASK : 1 <= mask <= 2 ^ 16 - 1).
  { unfold mask. assert (2 ^ 1 <= 2 ^ nbits) by (apply Z.pow_le_mono_r; lia). assert (2 ^ nbits <= 2 ^ 16) by (apply Z.pow_le_mono_r; lia).
    change (2 ^ 1) with 2 in *. lia. }
  assert (MX0 : 0 <= mx).
  { unfold mx, mn. assert (Z.quot (sval lo) q <= Z.quot (sval hi) q); [|lia].
    apply Z.quot_le_mono; [lia|]. rewrite Forall_forall in BD. apply BD; exact IL. }
  destruct (fit_ok mask mx ltac:(lia) MX0 32 0 ltac:(lia) ltac:(left; reflexivity)) as (s & FIT & SR & S1 & S2).
  { rewrite Z.pow_0_r, Z.div_1_r. change (2 ^ Z.of_nat 32) with (2 ^ 32). lia. }
  rewrite Z.pow_0_r, Z.div_1_r in FIT.
  assert (S25 : s <= 25).
  { destruct S2 as [->|S2]; [lia|]. destruct (Z.le_gt_cases s 25) as [|G]; [assumption|]. exfalso.
    rewrite Z.div_small in S2; [lia|]. split; [exact MX0|].
    apply Z.lt_le_trans with (2 ^ 25); [lia|]. apply Z.pow_le_mono_r; lia. }
  assert (TOKS : forall l, (forall w, In w l -> In w ws) -> tokens E mn s (2 ^ s / 2) mask l = Some (map (tok E mn s mask) l)).
  { induction l as [|w l IHl]; intros SUB; [reflexivity|]. cbn [tokens map].
    destruct (EOK w (SUB w (or_introl eq_refl))) as [A B].
    rewrite token_ok by (try assumption; lia). cbn [bind]. rewrite IHl; [reflexivity|]. intros w' I. apply SUB. right; exact I. }
  assert (NEAR : forall w, In w ws -> 0 <= tok E mn s mask w <= mask /\ tok E mn s mask w * 2 ^ s < 2 ^ 26).
  { intros w I. destruct (EOK w I) as [A B]. pose proof (quot_24 E w E1 A) as QW. fold q in QW.
    destruct (back_near E mn s mask mx w) as (B1 & _ & B3).
    - lia.
    - lia.
    - exact S1.
    - fold q. lia.
    - fold q. rewrite Forall_forall in BD. specialize (BD w I). unfold mx, mn.
      pose proof (Z.quot_le_mono (sval lo) (sval w) q Q (proj1 BD)). pose proof (Z.quot_le_mono (sval w) (sval hi) q Q (proj2 BD)). lia.
    - split; [exact B1|]. fold q in B3. destruct (pow_half s) as [P1 P2]; [lia|].
      assert (2 ^ s <= 2 ^ 25) by (apply Z.pow_le_mono_r; lia). destruct (Z.eq_dec s 0); [subst s; change (2 ^ 0) with 1 in *; lia|]. lia. }
  pose proof (h0_fields (nbits - 1) E s ltac:(lia) ltac:(lia) ltac:(lia)) as HF. cbv zeta in HF.
  set (h0 := Z.lor (Z.lor (Z.lor (w32 (Z.shiftl 3839 20)) (Z.shiftl (nbits - 1) 16)) (Z.shiftl (Z.land E 255) 8)) (Z.land s 255)) in *.
  assert (PK : c_float_packer junk ws nbits =
    Some (0, [h0; w32 mn; w32 (Z.of_nat (length ws))], store junk false (map (tok E mn s mask) ws))).
  { unfold c_float_packer. assert (((16 <? nbits) || (nbits <? 1)) = false) as ->.
    { apply orb_false_intro; apply Z.ltb_ge; lia. }
    rewrite MM. cbn [bind]. cbv zeta. fold E.
    rewrite (scaled_ok E hi) by (apply EOK; exact IH). cbn [bind]. rewrite (scaled_ok E lo) by (apply EOK; exact IL). cbn [bind].
    fold q.
    assert ((if w_exp hi <? 1 then 0 else Z.quot (sval hi) q) = Z.quot (sval hi) q) as ->.
    { destruct (Z.ltb_spec (w_exp hi) 1) as [L|L]; [|reflexivity]. symmetry. apply quot_zero; [|lia]. destruct (EOK hi IH); lia. }
    assert ((if w_exp lo <? 1 then 0 else Z.quot (sval lo) q) = mn) as ->.
    { destruct (Z.ltb_spec (w_exp lo) 1) as [L|L]; [|reflexivity]. symmetry. apply quot_zero; [|lia]. destruct (EOK lo IL); lia. }
    fold mx. rewrite i32_ok by lia. cbn [bind]. fold mask. rewrite FIT. cbn [bind].
    rewrite (TOKS ws (fun w I => I)). cbn [bind]. fold h0. reflexivity. }
  assert (UT : exists xs, untokens E mn s (map (tok E mn s mask) ws) = Some xs /\ Forall2 (unpacked E mn s mask) ws xs).
  { assert (G : forall l, (forall w, In w l -> In w ws) ->
       exists xs, untokens E mn s (map (tok E mn s mask) l) = Some xs /\ Forall2 (unpacked E mn s mask) l xs).
    { induction l as [|w l IHl]; intros SUB; [exists []; split; [reflexivity|constructor]|].
      destruct IHl as (xs & EX & F2); [intros w' I; apply SUB; right; exact I|].
      destruct (NEAR w (SUB w (or_introl eq_refl))) as [N1 N2].
      destruct (untoken_ok E mn s (tok E mn s mask w)) as (x & UX & U1 & U2 & U3); try lia.
      exists (x :: xs). cbn [map untokens]. rewrite UX. cbn [bind]. rewrite EX. split; [reflexivity|].
      constructor; [|exact F2]. repeat split; try assumption; apply U1. }
    apply G. auto. }
  destruct UT as (xs & UT & F2).
  exists E, lo, hi, s, xs, [h0; w32 mn; w32 (Z.of_nat (length ws))], (store junk false (map (tok E mn s mask) ws)).
  split; [exact IL|]. split; [exact IH|]. split.
  { rewrite Forall_forall in *. intros w I. split; [apply BD; exact I|apply EXP; exact I]. }
  split; [reflexivity|]. split; [lia|]. split; [lia|]. cbv zeta. fold q. fold mn. fold mx. fold mask.
  split; [exact S1|]. split; [exact S2|]. split; [exact PK|].
  split; [rewrite store_length, map_length; reflexivity|]. split; [reflexivity|].
  split; [|split; [exact F2|]].
  - destruct HF as (H1 & H2 & H3 & H4 & H5). unfold c_float_unpacker. cbn [nth_error bind]. cbv zeta.
    rewrite H1, H2, H3, H4. change (negb (3839 =? 3839)) with false. cbv iota.
    rewrite (sgn32_w32 (Z.of_nat (length ws))) by lia. rewrite Z.eqb_refl. cbn [negb].
    rewrite (sgn32_w32 mn) by lia. assert ((E =? 0) = false) as -> by (apply Z.eqb_neq; lia).
    destruct (unpack_store E mn s next (length ws) (map (tok E mn s mask) ws)) with (junk := junk) as (a & rest & U1 & U2).
    + rewrite map_length. lia.
    + apply Forall_map, Forall_forall. intros w I. destruct (NEAR w I). lia.
    + destruct ws; [contradiction|discriminate].
    + rewrite U1. rewrite map_length in U2. rewrite Nat2Z.id, U2, UT. cbn [bind]. do 3 f_equal. lia.
  - apply Forall_app. split.
    + destruct HF as (_ & _ & _ & _ & H5). repeat constructor; try apply w32_shift; lia.
    + generalize (map (tok E mn s mask) ws) as ts. generalize junk false. clear. intros junk b ts. revert junk b.
      induction ts as [|t ts IH]; intros junk b; cbn [store]; cbv zeta.
      * destruct b; [repeat constructor; apply w32_shift|constructor].
      * destruct b; [constructor; [apply w32_shift|apply IH]|apply IH].
Qed.
