(** Searches for a block; element codes and block types. *)
From Coq Require Import ZArith List Lia Bool.
From Verif Require Import Bits BitIO CompactInt SpecPack Handles WaFile Xdf XdfLib XdfEnum XdfKeys XdfKeysThm XdfBuf XdfBufSpec XdfBufFacts Fst Burp Burp2 BurpKeys BurpFile BurpBuf BurpSpec BurpUse BurpPack BurpInv BurpEdit BurpHead BurpBuilt.
Import ListNotations.
Open Scope Z_scope.
Open Scope opt_scope.

Lemma loc_from_spec orc K r its test P : good orc K r its -> (forall it off, head_ok off (it_h it) (it_k it) -> test (it_h it) = P (it_k it)) ->
  forall n i, (i + n)%nat = length its -> exists c, loc_from n i test (b_data (r_b r)) = Some c /\ first_after P (blks its) i c.
Proof.
  intros G T. induction n as [|n IH]; intros i L; cbn [loc_from].
  - exists (-1). split; [reflexivity|]. right. split; [reflexivity|]. intros j k' J E. assert (nth_error (blks its) j <> None) as X by congruence. apply nth_error_Some in X. unfold blks in X. rewrite map_length in X. lia.
  - destruct (nth_error its i) as [it|] eqn:E; [|apply nth_error_None in E; lia].
    destruct (split_item _ _ _ _ _ _ G E) as (a & c & TT & _ & _ & _ & HO & _ & _ & _ & D & _ & LA & _). rewrite D.
    replace (BLOCKS + 4 * i)%nat with (length (K ++ heads a)) by (rewrite app_length, (gd_K _ _ _ _ G), LA; reflexivity). rewrite app_assoc. rewrite take_list by apply (ho_len _ _ _ HO). cbn [bind].
    assert (EB : nth_error (blks its) i = Some (it_k it)) by (unfold blks; rewrite nth_error_map, E; reflexivity).
    destruct (test (it_h it)) eqn:TI.
    + rewrite (T it _ HO) in TI. exists (Z.of_nat i + 1). split; [reflexivity|]. left. exists i, (it_k it). repeat split; try assumption; try lia.
    + rewrite (T it _ HO) in TI. rewrite <- app_assoc, <- D. destruct (IH (S i) ltac:(lia)) as (x & LF & FA). exists x. split; [exact LF|].
      assert (EX : forall j k', (i <= j)%nat -> ~ (S i <= j)%nat -> nth_error (blks its) j = Some k' -> P k' = false) by (intros j k' J1 J2 Q; assert (j = i) as -> by lia; congruence).
      destruct FA as [(i' & k & -> & GE & N & PK & ALL)|[-> ALL]]; [left; exists i', k; repeat split; try assumption; try lia|right; split; [reflexivity|]].
      * intros j k' J Q. destruct (Nat.le_gt_cases (S i) j); [apply (ALL j k'); [lia|exact Q]|apply (EX j k'); [lia|lia|exact Q]].
      * intros j k' J Q. destruct (Nat.le_gt_cases (S i) j); [apply (ALL j k'); [lia|exact Q]|apply (EX j k'); [lia|lia|exact Q]].
Qed.

Lemma swap6_inj a b : 0 <= a < 2 ^ 12 -> 0 <= b < 2 ^ 12 -> (a =? b) = (swap6 a =? swap6 b).
Proof.
  intros A B. assert (X : forall z, 0 <= z < 2 ^ 12 -> swap6 (swap6 z) = z).
  { intros z R. rewrite (swap6_eq z). pose proof (Z.mod_pos_bound z 64 ltac:(lia)). pose proof (Z.mod_pos_bound (z / 64) 64 ltac:(lia)). rewrite swap6_pair by assumption.
    rewrite (Z.mod_small (z / 64) 64) by (split; [apply Z.div_pos; lia|apply Z.div_lt_upper_bound; lia]). pose proof (Z.div_mod z 64 ltac:(lia)). lia. }
  destruct (Z.eqb_spec a b) as [->|N]; [symmetry; apply Z.eqb_refl|]. symmetry. apply Z.eqb_neq. intros E. apply N. rewrite <- (X a A), <- (X b B), E. reflexivity.
Qed.
Lemma getf_range w s n : 0 <= n -> 0 <= getf w s n < 2 ^ n.
Proof. intros N. unfold getf. apply Z.mod_pos_bound. lia. Qed.

Lemma flag_bit n t : 0 <= n -> (Z.land (2 ^ n) t =? 0) = negb (Z.testbit t n).
Proof.
  intros N. destruct (Z.testbit t n) eqn:E; cbn [negb].
  - apply Z.eqb_neq. intros Q. apply (f_equal (fun z => Z.testbit z n)) in Q. rewrite Z.land_spec, Z.pow2_bits_true, E, Z.testbit_0_l in Q by lia. discriminate.
  - apply Z.eqb_eq. apply Z.bits_inj'. intros b B. rewrite Z.land_spec, Z.pow2_bits_eqb, Z.testbit_0_l by lia. destruct (Z.eqb_spec n b) as [->|]; [exact E|reflexivity].
Qed.
(** Part of a type: bits [s], ..., [s + n - 1]. *)
Lemma part_same a b s n : 0 <= s -> 0 <= n -> ((a / 2 ^ s) mod 2 ^ n =? (b / 2 ^ s) mod 2 ^ n) = true <-> forall j, s <= j < s + n -> Z.testbit a j = Z.testbit b j.
Proof.
  intros S N. rewrite Z.eqb_eq, <- !Z.shiftr_div_pow2, <- !Z.land_ones by lia. split.
  - intros E j J. apply (f_equal (fun z => Z.testbit z (j - s))) in E. rewrite !Z.land_spec, !Z.shiftr_spec, Z.ones_spec_low, !andb_true_r in E by lia. replace (j - s + s) with j in E by lia. exact E.
  - intros E. apply Z.bits_inj'. intros j J. rewrite !Z.land_spec, !Z.shiftr_spec by lia. destruct (Z.lt_ge_cases j n); [rewrite (E (j + s)) by lia; reflexivity|rewrite Z.ones_spec_high by lia; rewrite !andb_false_r; reflexivity].
Qed.
Lemma masked_same a b m : (Z.land (Z.lxor a b) m =? 0) = true <-> forall j, 0 <= j -> Z.testbit m j = true -> Z.testbit a j = Z.testbit b j.
Proof.
  rewrite Z.eqb_eq. split.
  - intros E j J M. apply (f_equal (fun z => Z.testbit z j)) in E. rewrite Z.land_spec, Z.lxor_spec, M, andb_true_r, Z.testbit_0_l in E. destruct (Z.testbit a j), (Z.testbit b j); try reflexivity; discriminate.
  - intros E. apply Z.bits_inj'. intros j J. rewrite Z.land_spec, Z.lxor_spec, Z.testbit_0_l. destruct (Z.testbit m j) eqn:M; [rewrite (E j J M), xorb_nilpotent|rewrite andb_false_r]; reflexivity.
Qed.
Lemma mask_bits (c : bool) s n j : 0 <= s -> 0 <= n -> 0 <= j -> Z.testbit (if c then 2 ^ s * (2 ^ n - 1) else 0) j = c && (s <=? j) && (j <? s + n).
Proof.
  intros S N J. destruct c; [|apply Z.testbit_0_l]. replace (2 ^ s * (2 ^ n - 1)) with (Z.shiftl (Z.ones n) s) by (rewrite Z.shiftl_mul_pow2 by lia; rewrite Z.ones_equiv; unfold Z.pred; ring).
  rewrite Z.shiftl_spec by lia. destruct (Z.leb_spec s j); cbn [andb]; [|apply Z.testbit_neg_r; lia]. destruct (Z.ltb_spec j (s + n)); [apply Z.ones_spec_low; lia|apply Z.ones_spec_high; lia].
Qed.

Lemma type_test btyp t : 0 <= t < 2 ^ 15 -> (Z.land (Z.lxor btyp t) (if btyp =? -1 then 0 else
      Z.lor (Z.lor (if Z.land 0x10000000 btyp =? 0 then 0x000f else 0) (if Z.land 0x20000000 btyp =? 0 then 0x07f0 else 0))
            (if Z.land 0x40000000 btyp =? 0 then 0x7800 else 0)) =? 0) = fits_type btyp t.
Proof.
  intros R. unfold fits_type. destruct (btyp =? -1); [rewrite Z.land_0_r; reflexivity|]. cbn [orb].
  change 0x10000000 with (2 ^ 28). change 0x20000000 with (2 ^ 29). change 0x40000000 with (2 ^ 30). rewrite !flag_bit by lia.
  change 0x000f with (2 ^ 0 * (2 ^ 4 - 1)). change 0x07f0 with (2 ^ 4 * (2 ^ 7 - 1)). change 0x7800 with (2 ^ 11 * (2 ^ 4 - 1)).
  set (a := negb (Z.testbit btyp 28)). set (b := negb (Z.testbit btyp 29)). set (c := negb (Z.testbit btyp 30)).
  replace (Z.testbit btyp 28) with (negb a) by (unfold a; apply negb_involutive). replace (Z.testbit btyp 29) with (negb b) by (unfold b; apply negb_involutive). replace (Z.testbit btyp 30) with (negb c) by (unfold c; apply negb_involutive). clearbody a b c.
  apply eq_true_iff_eq. rewrite masked_same, !andb_true_iff, !orb_true_iff.
  replace (btyp mod 16) with ((btyp / 2 ^ 0) mod 2 ^ 4) by (rewrite Z.div_1_r; reflexivity). replace (t mod 16) with ((t / 2 ^ 0) mod 2 ^ 4) by (rewrite Z.div_1_r; reflexivity).
  change 16 with (2 ^ 4). change 128 with (2 ^ 7). change 2048 with (2 ^ 11). rewrite !part_same by lia. split.
  - intros E. assert (M : forall j, 0 <= j -> (a && (0 <=? j) && (j <? 0 + 4)) || (b && (4 <=? j) && (j <? 4 + 7)) || (c && (11 <=? j) && (j <? 11 + 4)) = true -> Z.testbit btyp j = Z.testbit t j). { intros j J Q. apply E; [exact J|]. rewrite !Z.lor_spec, !mask_bits by lia. exact Q. }
    split; [split|]; [destruct a|destruct b|destruct c]; cbn [negb]; try (left; reflexivity); right; intros j J; apply M; try lia; rewrite !orb_true_iff; cbn [andb]; rewrite ?andb_true_iff, ?Z.leb_le, ?Z.ltb_lt; lia.
  - intros [[A B] C] j J. rewrite !Z.lor_spec, !mask_bits by lia. rewrite !orb_true_iff, !andb_true_iff, !Z.leb_le, !Z.ltb_lt.
    destruct a, b, c; cbn [negb] in *; intros [[Q|Q]|Q]; destruct Q as [[Q1 Q2] Q3]; try discriminate;
      match goal with
      | _ : j < 0 + 4 |- _ => destruct A as [A|A]; [discriminate|apply A; lia]
      | _ : j < 4 + 7 |- _ => destruct B as [B|B]; [discriminate|apply B; lia]
      | _ => destruct C as [C|C]; [discriminate|apply C; lia]
      end.
Qed.

Theorem loc_found orc h r ks bfam bdesc btyp n : report_ok orc h r ks -> (n <= length ks)%nat -> search_ok bfam bdesc ->
  exists c, mrbloc r bfam bdesc btyp n = Some c /\ first_after (wanted bfam bdesc btyp) ks n c.
Proof.
  intros (K & its & G & <- & _) N SO. unfold mrbloc. rewrite (gd_nblk _ _ _ _ G). unfold blks in N. rewrite map_length in N.
  assert (HB : forall it off, head_ok off (it_h it) (it_k it) -> 0 <= hb_btyp (it_h it) < 2 ^ 15 /\ 0 <= hb_bfd (it_h it) < 2 ^ 12) by (intros; split; apply getf_range; lia).
  unfold search_ok in SO. destruct (Z.eqb_spec bfam (-1)) as [->|NF].
  - replace ((bdesc =? 0) || (bdesc =? -1)) with true by (destruct SO as [->| ->]; reflexivity). cbv zeta. change (-1 =? -1) with true. cbv iota.
    apply (loc_from_spec orc K r its _ _ G); [|lia]. intros it off HO. destruct (HB _ _ HO) as [T F]. rewrite Z.land_0_r. rewrite type_test by exact T. unfold wanted, fits_family. cbn [orb andb]. rewrite (ho_btyp _ _ _ HO). reflexivity.
  - set (bd := if bdesc =? -1 then 0 else bdesc).
    assert (BD : (if (bdesc =? 0) || (bdesc =? -1) then bfd_of bfam 0 else bfd_of bfam bdesc) = bfd_of bfam bd).
    { unfold bd. destruct (Z.eqb_spec bdesc 0) as [->|]; [reflexivity|]. destruct (bdesc =? -1); reflexivity. }
    rewrite BD. pose proof (bfd_family bfam bd) as BF. destruct (family bfam bd) as [fam|] eqn:EF.
    + destruct BF as (bfd & -> & R & SW). cbv zeta. rewrite (proj2 (Z.eqb_neq bfd (-1))) by lia.
      apply (loc_from_spec orc K r its _ _ G); [|lia]. intros it off HO. destruct (HB _ _ HO) as [T F]. rewrite type_test by exact T. unfold wanted, fits_family. rewrite (proj2 (Z.eqb_neq _ _) NF). cbn [orb]. fold bd. rewrite EF. rewrite (ho_btyp _ _ _ HO). f_equal.
      rewrite Z.land_m1_r. rewrite <- SW, <- (ho_bfam _ _ _ HO), <- swap6_inj by assumption. destruct (Z.eqb_spec bfd (hb_bfd (it_h it))) as [->|Q]; [rewrite Z.lxor_nilpotent; reflexivity|]. apply Z.eqb_neq. intros X. apply Q. apply Z.lxor_eq. exact X.
    + exfalso. unfold family, bd in EF. destruct SO as [->|[->|SO]]; [change (0 =? -1) with false in EF; cbv iota in EF; change (0 =? 0) with true in EF; cbv iota in EF; discriminate EF|change (-1 =? -1) with true in EF; cbv iota in EF; change (0 =? 0) with true in EF; cbv iota in EF; discriminate EF|]. clear BD BF. destruct (Z.eqb_spec bdesc (-1)) as [->|].
      * change (0 =? 0) with true in EF. cbv iota in EF. discriminate EF.
      * destruct (bdesc =? 0); [discriminate EF|]. destruct SO as [SO|SO]; rewrite SO in EF; [change (0 =? 0) with true in EF; cbn [orb] in EF; discriminate EF|]. rewrite Z.eqb_refl, orb_true_r in EF. discriminate EF.
Qed.
Theorem loc_refused r bfam bdesc btyp n : ~ search_ok bfam bdesc -> mrbloc r bfam bdesc btyp n = Some BURP_ERR_BDESC.
Proof.
  intros SO. unfold mrbloc. unfold search_ok in SO. destruct (bfam =? -1).
  - replace ((bdesc =? 0) || (bdesc =? -1)) with false; [reflexivity|]. symmetry. apply orb_false_iff. split; apply Z.eqb_neq; intros E; apply SO; auto.
  - replace ((bdesc =? 0) || (bdesc =? -1)) with false by (symmetry; apply orb_false_iff; split; apply Z.eqb_neq; intros E; apply SO; auto).
    pose proof (bfd_family bfam bdesc) as BF. replace (family bfam bdesc) with (@None Z) in BF; [rewrite BF; reflexivity|]. unfold family.
    rewrite (proj2 (Z.eqb_neq bdesc 0)) by (intros E; apply SO; auto). replace (((bfam / 64) mod 64 =? 0) || ((bfam / 64) mod 64 =? bdesc)) with false; [reflexivity|].
    symmetry. apply orb_false_iff. split; apply Z.eqb_neq; intros E; apply SO; auto.
Qed.

(** ** Codes and types *)
Lemma low_high a b n : 0 <= n -> 0 <= a < 2 ^ n -> Z.land a (Z.shiftl b n) = 0.
Proof.
  intros N A. apply Z.bits_inj'. intros j J. rewrite Z.land_spec, Z.testbit_0_l, Z.shiftl_spec by lia. destruct (Z.lt_ge_cases j n); [rewrite (Z.testbit_neg_r b) by lia; apply andb_false_r|].
  destruct (Z.eq_dec a 0) as [->|NZ]; [rewrite Z.testbit_0_l; reflexivity|]. rewrite Z.bits_above_log2; [reflexivity|lia|]. apply Z.lt_le_trans with n; [apply Z.log2_lt_pow2; lia|lia].
Qed.
Lemma lor_parts a b n : 0 <= n -> 0 <= a < 2 ^ n -> Z.lor a (Z.shiftl b n) = a + b * 2 ^ n.
Proof. intros N A. rewrite <- Z.shiftl_mul_pow2 by lia. rewrite <- Z.lxor_lor by (apply low_high; assumption). symmetry. apply Z.add_nocarry_lxor, low_high; assumption. Qed.
Lemma land_mod a n : 0 <= n -> Z.land a (2 ^ n - 1) = a mod 2 ^ n.
Proof. intros N. rewrite <- Z.land_ones by exact N. rewrite Z.ones_equiv. reflexivity. Qed.
Lemma shr_div a n : 0 <= n -> Z.shiftr a n = a / 2 ^ n.
Proof. apply Z.shiftr_div_pow2. Qed.

Theorem cov_dcv ii vi viii : 0 <= ii <= 3 -> 0 <= vi <= 63 -> 0 <= viii <= 255 -> mrbcov (ii * 100000 + vi * 1000 + viii) = ii * 2 ^ 14 + vi * 2 ^ 8 + viii.
Proof.
  intros A B C. unfold mrbcov. cbv zeta. set (e := ii * 100000 + vi * 1000 + viii) in *. rewrite (Z.quot_div_nonneg e 100000), (Z.rem_mod_nonneg e 100000) by lia. unfold e.
  assert (E1 : (ii * 100000 + vi * 1000 + viii) / 100000 = ii) by (replace (ii * 100000 + vi * 1000 + viii) with (vi * 1000 + viii + ii * 100000) by ring; rewrite Z.div_add by lia; rewrite Z.div_small by lia; lia).
  assert (E2 : (ii * 100000 + vi * 1000 + viii) mod 100000 = vi * 1000 + viii) by (replace (ii * 100000 + vi * 1000 + viii) with (vi * 1000 + viii + ii * 100000) by ring; rewrite Z.mod_add by lia; apply Z.mod_small; lia).
  rewrite E1, E2. rewrite Z.quot_div_nonneg, Z.rem_mod_nonneg by lia. rewrite Z.div_add_l by lia. rewrite (Z.div_small viii) by lia. rewrite Z.add_0_r. replace ((vi * 1000 + viii) mod 1000) with viii by (rewrite Z.add_comm, Z.mod_add by lia; symmetry; apply Z.mod_small; lia).
  change 63 with (2 ^ 6 - 1). change 3 with (2 ^ 2 - 1). rewrite !land_mod by lia. rewrite (Z.mod_small vi) by lia. rewrite (Z.mod_small ii) by lia. rewrite (lor_parts viii vi 8), lor_parts by lia. ring.
Qed.
Theorem dcv_cov c : 0 <= c < 2 ^ 16 -> mrbdcv c = (c / 2 ^ 14) * 100000 + ((c / 2 ^ 8) mod 64) * 1000 + c mod 256 /\ mrbcov (mrbdcv c) = c.
Proof.
  intros C. assert (E : mrbdcv c = (c / 2 ^ 14) * 100000 + ((c / 2 ^ 8) mod 64) * 1000 + c mod 256).
  { unfold mrbdcv. change 3 with (2 ^ 2 - 1). change 63 with (2 ^ 6 - 1). change 255 with (2 ^ 8 - 1). rewrite !land_mod, !shr_div by lia. rewrite (Z.mod_small (c / 2 ^ 14)); [reflexivity|]. split; [apply Z.div_pos; lia|apply Z.div_lt_upper_bound; lia]. }
  split; [exact E|]. rewrite E. assert (0 <= c / 2 ^ 14 <= 3) by (split; [apply Z.div_pos; lia|apply Z.lt_succ_r, Z.div_lt_upper_bound; lia]). pose proof (Z.mod_pos_bound (c / 2 ^ 8) 64 ltac:(lia)). pose proof (Z.mod_pos_bound c 256 ltac:(lia)).
  rewrite cov_dcv by lia. replace (c / 2 ^ 14) with (c / 2 ^ 8 / 64) by (rewrite Z.div_div by lia; reflexivity). pose proof (Z.div_mod c 256 ltac:(lia)). pose proof (Z.div_mod (c / 2 ^ 8) 64 ltac:(lia)). change (2 ^ 8) with 256 in *. lia.
Qed.

(** A block type and its three parts: nature, type, subtype. *)
Theorem typ_make bknat bktyp bkstp : 0 <= bknat <= 15 -> 0 <= bktyp <= 127 -> 0 <= bkstp <= 15 -> mrbtyp bknat bktyp bkstp (-1) = (bknat * 2048 + bktyp * 16 + bkstp, (bknat, bktyp, bkstp)).
Proof.
  intros A B C. unfold mrbtyp. change (-1 <? -1) with false. change (-1 =? -1) with true. cbv iota. f_equal. change 15 with (2 ^ 4 - 1). change 127 with (2 ^ 7 - 1). rewrite !land_mod by lia.
  rewrite (Z.mod_small bkstp), (Z.mod_small bktyp), (Z.mod_small bknat) by lia. rewrite (lor_parts bkstp bktyp 4), lor_parts by lia. ring.
Qed.
Theorem typ_split a b c btyp : 0 <= btyp < 2 ^ 15 -> exists n t s, mrbtyp a b c btyp = (0, (n, t, s)) /\ 0 <= n <= 15 /\ 0 <= t <= 127 /\ 0 <= s <= 15 /\ btyp = n * 2048 + t * 16 + s.
Proof.
  intros R. unfold mrbtyp. rewrite (proj2 (Z.ltb_ge _ _)), (proj2 (Z.eqb_neq _ _)) by lia. do 3 eexists. split; [reflexivity|]. change 15 with (2 ^ 4 - 1). change 127 with (2 ^ 7 - 1). rewrite !land_mod, !shr_div by lia.
  pose proof (Z.mod_pos_bound btyp (2 ^ 4) ltac:(lia)). pose proof (Z.mod_pos_bound (btyp / 2 ^ 4) (2 ^ 7) ltac:(lia)). pose proof (Z.mod_pos_bound (btyp / 2 ^ 11) (2 ^ 4) ltac:(lia)). split; [lia|]. split; [lia|]. split; [lia|].
  rewrite (Z.mod_small (btyp / 2 ^ 11)) by (split; [apply Z.div_pos; lia|apply Z.div_lt_upper_bound; lia]). replace (btyp / 2 ^ 11) with (btyp / 2 ^ 4 / 2 ^ 7) by (rewrite Z.div_div by lia; reflexivity).
  pose proof (Z.div_mod btyp (2 ^ 4) ltac:(lia)). pose proof (Z.div_mod (btyp / 2 ^ 4) (2 ^ 7) ltac:(lia)). lia.
Qed.

(** -1 stands for any. *)
Lemma locx_parts bknat bktyp bkstp : part_ok 4 bknat -> part_ok 7 bktyp -> part_ok 4 bkstp ->
  forall t, 0 <= t < 2 ^ 15 -> fits_type (locx_type bknat bktyp bkstp) t = part_is bknat (t / 2048) && part_is bktyp ((t / 16) mod 128) && part_is bkstp (t mod 16).
Proof.
  intros A B C t T.
  assert (E : locx_type bknat bktyp bkstp = (bkstp mod 16 + (if bkstp =? -1 then 2 ^ 28 else 0)) + (bktyp mod 128 * 16 + (if bktyp =? -1 then 2 ^ 29 else 0)) + (bknat mod 16 * 2048 + (if bknat =? -1 then 2 ^ 30 else 0))).
  { unfold locx_type. change 268435456 with (2 ^ 28). change 536870912 with (2 ^ 29). change 1073741824 with (2 ^ 30).
    assert (X : forall v n b, part_ok n v -> 0 <= n < 15 -> 0 <= b -> n <= b -> Z.land v (2 ^ b) = if v =? -1 then 2 ^ b else 0).
    { intros v n b [->|V] N B0 NB; [apply Z.land_m1_l|]. rewrite (proj2 (Z.eqb_neq _ _)) by lia. apply Z.bits_inj'. intros j J. rewrite Z.land_spec, Z.pow2_bits_eqb, Z.testbit_0_l by lia. destruct (Z.eqb_spec b j) as [<-|]; [|apply andb_false_r].
      rewrite andb_true_r. destruct (Z.eq_dec v 0) as [->|NZ]; [apply Z.testbit_0_l|]. apply Z.bits_above_log2; [lia|]. apply Z.lt_le_trans with n; [apply Z.log2_lt_pow2; lia|lia]. }
    rewrite Z.land_lor_distr_r. rewrite (X bkstp 4 28 C) by lia. rewrite (Z.land_comm (2 ^ 29)), (X bktyp 7 29 B), (Z.land_comm (2 ^ 30)), (X bknat 4 30 A) by lia.
    change 15 with (2 ^ 4 - 1). change 127 with (2 ^ 7 - 1). rewrite !land_mod by lia. change (2 ^ 4) with 16. change (2 ^ 7) with 128. pose proof (Z.mod_pos_bound bkstp 16 ltac:(lia)) as M1. pose proof (Z.mod_pos_bound bktyp 128 ltac:(lia)) as M2. pose proof (Z.mod_pos_bound bknat 16 ltac:(lia)) as M3.
    set (s := bkstp mod 16) in *. set (y := bktyp mod 128) in *. set (n := bknat mod 16) in *. clearbody s y n.
    assert (LB : forall (q : bool) k, (if q then 2 ^ k else 0) = Z.shiftl (if q then 1 else 0) k) by (intros [|] k; [rewrite Z.shiftl_1_l; reflexivity|rewrite Z.shiftl_0_l; reflexivity]). rewrite !LB.
    set (qs := bkstp =? -1). set (qy := bktyp =? -1). set (qn := bknat =? -1). clearbody qs qy qn.
    (* every part has its own bits *)
    rewrite <- !Z.lor_assoc. 
    replace (Z.lor (Z.shiftl (if qs then 1 else 0) 28) (Z.lor s (Z.lor (Z.shiftl (if qy then 1 else 0) 29) (Z.lor (Z.shiftl y 4) (Z.lor (Z.shiftl (if qn then 1 else 0) 30) (Z.shiftl n 11))))))
      with (Z.lor (Z.lor (Z.lor s (Z.shiftl y 4)) (Z.shiftl n 11)) (Z.shiftl (Z.lor (Z.lor (if qs then 1 else 0) (Z.shiftl (if qy then 1 else 0) 1)) (Z.shiftl (if qn then 1 else 0) 2)) 28)).
    - rewrite (lor_parts s y 4) by lia. rewrite (lor_parts _ n 11) by lia. rewrite (lor_parts (if qs then 1 else 0) _ 1) by (destruct qs; lia). rewrite (lor_parts _ _ 2) by (destruct qs, qy; lia). rewrite lor_parts by lia. rewrite !Z.shiftl_mul_pow2 by lia. change (2 ^ 28) with 268435456. change (2 ^ 29) with 536870912. change (2 ^ 30) with 1073741824. destruct qs, qy, qn; lia.
    - rewrite !Z.shiftl_lor, !Z.shiftl_shiftl by lia. change (1 + 28) with 29. change (2 + 28) with 30. apply Z.bits_inj'. intros j J. rewrite !Z.lor_spec.
      destruct (Z.testbit (Z.shiftl (if qs then 1 else 0) 28) j), (Z.testbit s j), (Z.testbit (Z.shiftl (if qy then 1 else 0) 29) j), (Z.testbit (Z.shiftl y 4) j), (Z.testbit (Z.shiftl (if qn then 1 else 0) 30) j), (Z.testbit (Z.shiftl n 11) j); reflexivity. }
  set (L := locx_type bknat bktyp bkstp) in *. clearbody L.
  pose proof (Z.mod_pos_bound bkstp 16 ltac:(lia)) as M1. pose proof (Z.mod_pos_bound bktyp 128 ltac:(lia)) as M2. pose proof (Z.mod_pos_bound bknat 16 ltac:(lia)) as M3.
  set (s := bkstp mod 16) in *. set (y := bktyp mod 128) in *. set (n := bknat mod 16) in *.
  set (low := s + y * 16 + n * 2048). set (hi := (if bkstp =? -1 then 1 else 0) + 2 * (if bktyp =? -1 then 1 else 0) + 4 * (if bknat =? -1 then 1 else 0)).
  assert (EL : L = low + hi * 2 ^ 28). { rewrite E. unfold low, hi. change (2 ^ 28) with 268435456. change (2 ^ 29) with 536870912. change (2 ^ 30) with 1073741824. destruct (bkstp =? -1), (bktyp =? -1), (bknat =? -1); lia. }
  assert (LR : 0 <= low < 2 ^ 15) by (unfold low; lia). assert (HR : 0 <= hi < 8) by (unfold hi; destruct (bkstp =? -1), (bktyp =? -1), (bknat =? -1); lia).
  assert (TB : forall k, 0 <= k -> Z.testbit L (28 + k) = Z.testbit hi k). { intros k K. rewrite EL, Z.add_comm. replace (28 + k) with (k + 28) by lia. rewrite <- Z.shiftr_spec by lia. rewrite shr_div by lia. rewrite Z.add_comm, Z.div_add by lia. rewrite (Z.div_small low) by lia. reflexivity. }
  unfold fits_type. rewrite (proj2 (Z.eqb_neq L (-1))) by (rewrite EL; lia). cbn [orb].
  change 30 with (28 + 2). change 29 with (28 + 1). change 28 with (28 + 0) at 1. rewrite !TB by lia.
  assert (B0 : Z.testbit hi 0 = (bkstp =? -1) /\ Z.testbit hi 1 = (bktyp =? -1) /\ Z.testbit hi 2 = (bknat =? -1)) by (unfold hi; destruct (bkstp =? -1), (bktyp =? -1), (bknat =? -1); repeat split; reflexivity).
  destruct B0 as (-> & -> & ->).
  assert (P1 : L mod 16 = s). { rewrite EL. unfold low. replace (s + y * 16 + n * 2048 + hi * 2 ^ 28) with (s + (y + n * 128 + hi * 2 ^ 24) * 16) by lia. rewrite Z.mod_add by lia. apply Z.mod_small. lia. }
  assert (P2 : (L / 16) mod 128 = y). { rewrite EL. unfold low. replace (s + y * 16 + n * 2048 + hi * 2 ^ 28) with (s + (y + (n + hi * 2 ^ 17) * 128) * 16) by lia. rewrite Z.div_add by lia. rewrite (Z.div_small s) by lia. rewrite Z.add_0_l, Z.mod_add by lia. apply Z.mod_small. lia. }
  assert (P3 : (L / 2048) mod 16 = n). { rewrite EL. unfold low. replace (s + y * 16 + n * 2048 + hi * 2 ^ 28) with (s + y * 16 + (n + (hi * 2 ^ 13) * 16) * 2048) by lia. rewrite Z.div_add by lia. rewrite (Z.div_small (s + y * 16)) by lia. rewrite Z.add_0_l, Z.mod_add by lia. apply Z.mod_small. lia. }
  rewrite P1, P2, P3. replace ((t / 2048) mod 16) with (t / 2048) by (symmetry; apply Z.mod_small; split; [apply Z.div_pos; lia|apply Z.div_lt_upper_bound; lia]).
  unfold part_is. assert (SV : forall v m x, part_ok m v -> (v =? -1) || (v mod 2 ^ m =? x) = (v =? -1) || (v =? x)). { intros v m x [->|V]; [reflexivity|]. rewrite Z.mod_small by exact V. reflexivity. }
  unfold s, y, n. change 128 with (2 ^ 7) at 1. rewrite (SV bktyp 7 _ B). pose proof (SV bkstp 4 (t mod 16) C) as S1. pose proof (SV bknat 4 (t / 2048) A) as S2. change (2 ^ 4) with 16 in S1, S2. rewrite S1, S2.
  destruct ((bkstp =? -1) || (bkstp =? t mod 16)), ((bktyp =? -1) || (bktyp =? (t / 16) mod 128)), ((bknat =? -1) || (bknat =? t / 2048)); reflexivity.
Qed.

Lemma types_range orc h r ks k : report_ok orc h r ks -> In k ks -> 0 <= bk_btyp k < 2 ^ 15.
Proof.
  intros (K & its & G & <- & _) I. unfold blks in I. apply in_map_iff in I. destruct I as (it & <- & I). apply In_nth_error in I. destruct I as (i & E).
  destruct (split_item _ _ _ _ _ _ G E) as (a & c & T & _ & _ & _ & HO & _). rewrite <- (ho_btyp _ _ _ HO). apply getf_range; lia.
Qed.
Lemma first_after_ext P Q ks n c : (forall k, In k ks -> P k = Q k) -> first_after P ks n c -> first_after Q ks n c.
Proof.
  intros E [(i & k & C & N & I & PK & L)|(C & L)]; [left|right].
  - exists i, k. rewrite <- (E k (nth_error_In _ _ I)). repeat split; try assumption. intros j k' J JK. rewrite <- (E k' (nth_error_In _ _ JK)). eauto.
  - split; [exact C|]. intros j k' J JK. rewrite <- (E k' (nth_error_In _ _ JK)). eauto.
Qed.
Theorem locx_found orc h r ks bfam bdesc bknat bktyp bkstp n : report_ok orc h r ks -> (n <= length ks)%nat -> search_ok bfam bdesc -> part_ok 4 bknat -> part_ok 7 bktyp -> part_ok 4 bkstp ->
  exists c, mrblocx r bfam bdesc bknat bktyp bkstp n = Some c /\ first_after (wantedx bfam bdesc bknat bktyp bkstp) ks n c.
Proof.
  intros R N SO A B C. destruct (loc_found orc h r ks bfam bdesc (locx_type bknat bktyp bkstp) n R N SO) as (c & E & FA). exists c. split; [exact E|]. apply (first_after_ext (wanted bfam bdesc (locx_type bknat bktyp bkstp))); [|exact FA].
  intros k I. unfold wanted, wantedx. rewrite (locx_parts _ _ _ A B C _ (types_range _ _ _ _ _ R I)). rewrite !andb_assoc. reflexivity.
Qed.
