(** Round-trip and frame lemmas of compact_integer. *)
From Coq Require Import ZArith List Lia Bool.
From Verif Require Import Bits BitIO BitIOFacts CompactInt CompactIntFacts SpecPack.
Import ListNotations.
Open Scope Z_scope.
Open Scope opt_scope.

Lemma nth_bits_of n v i : (i < n)%nat -> nth i (bits_of n v) false = Z.testbit v (Z.of_nat (n - 1 - i)).
Proof.
  revert i. induction n; intros i Hi; [lia|]. cbn [bits_of]. destruct i; cbn [nth].
  - f_equal. lia.
  - rewrite IHn by lia. f_equal. lia.
Qed.

Lemma nth_flat_bits b l i j : (j < length l)%nat -> (i < b)%nat ->
  nth (b * j + i) (flat_map (bits_of b) l) false = nth i (bits_of b (nth j l 0)) false.
Proof.
  revert j. induction l as [|x l IH]; intros j Hj Hi; cbn [length] in Hj; [lia|].
  cbn [flat_map]. destruct j.
  - rewrite Nat.mul_0_r. rewrite app_nth1 by (rewrite bits_of_length; lia). reflexivity.
  - rewrite app_nth2 by (rewrite bits_of_length; lia). rewrite bits_of_length. cbn [nth].
    rewrite <- IH by lia. f_equal. lia.
Qed.

Lemma bit_at_mbits pk i : (i < 32 * length pk)%nat -> bit_at pk i = nth i (mbits 32 pk) false.
Proof.
  intros Hi. unfold bit_at, mbits.
  pose proof (Nat.div_mod i 32 ltac:(lia)) as DM. pose proof (Nat.mod_upper_bound i 32 ltac:(lia)) as UB.
  rewrite DM at 3. rewrite nth_flat_bits by lia. rewrite nth_bits_of by lia. f_equal.
  change 32 with (Z.of_nat 32). rewrite <- Nat2Z.inj_mod. lia.
Qed.

Lemma words_ok_inr a : words_ok a <-> Forall inr32 a.
Proof. reflexivity. Qed.

Lemma in_map_seq_elt a stride n x :
  In x (map (fun j => nth (j * stride) a 0) (seq 0 n)) -> exists j, (j < n)%nat /\ x = elt a stride j.
Proof. intros H. apply in_map_iff in H. destruct H as (j & <- & Hj). apply in_seq in Hj. exists j. split; [lia|reflexivity]. Qed.

Lemma Forall_elts (P : Z -> Prop) a stride n : (forall j, (j < n)%nat -> P (elt a stride j)) ->
  Forall P (map (fun j => nth (j * stride) a 0) (seq 0 n)).
Proof.
  intros H. apply Forall_forall. intros x Hx. apply in_map_seq_elt in Hx. destruct Hx as (j & Hj & ->). auto.
Qed.

Lemma elt_inr a stride n j : Forall inr32 a -> fits a stride n -> (j < n)%nat -> inr32 (elt a stride j).
Proof.
  intros F H Hj. eapply Forall_forall; eauto. apply nth_In. auto.
Qed.

(** Packing without header: the exact image. *)
Lemma pack_nohdr_image orc signed unp pk n b off stride :
  (1 <= b <= 32)%nat -> words_ok unp -> words_ok pk -> fits unp stride n ->
  (off + n * b <= 32 * length pk)%nat ->
  exists pk', compact_integer orc unp None pk n (Some b) off stride (if signed : bool then 3 else 1)
              = Some (mkci unp None pk' (Z.of_nat b)) /\
    length pk' = length pk /\ words_ok pk' /\
    mbits 32 pk' = overwrite off (tbits b (map (fun j => u32 (elem signed (elt unp stride j) + positive_mask signed b)) (seq 0 n)))
                             (mbits 32 pk).
Proof.
  intros Hb Fu Fp Hfit Hlen.
  destruct (pack_tokens_spec orc pk off b (cleanup_mask orc (Some b))
    (map (fun j => u32 (elem signed (elt unp stride j) + positive_mask signed b)) (seq 0 n)))
    as (pk' & E & L & V & F); auto.
  - lia.
  - apply Forall_forall. intros x Hx. apply in_map_iff in Hx. destruct Hx as (j & <- & _). apply u32_range.
  - rewrite map_length, seq_length. lia.
  - right. intros. apply cleanup_mask_land. lia.
  - exists pk'. split; [|auto].
    assert (EP : ci_pack orc signed unp None pk n (Some b) off stride = Some (mkci unp None pk' (Z.of_nat b))).
    { unfold ci_pack. rewrite gather_spec by exact Hfit. cbn [bind]. rewrite !map_map.
      unfold elt in E. rewrite E. reflexivity. }
    unfold compact_integer. destruct b; [lia|]. destruct signed; exact EP.
Qed.

(** Unpacking what was packed. *)
Lemma nohdr_roundtrip orc signed unp pk n b off stride :
  (1 <= b <= 32)%nat -> words_ok unp -> words_ok pk -> fits unp stride n -> (1 <= stride)%nat ->
  (off + n * b < 32 * length pk)%nat ->
  exists pk', compact_integer orc unp None pk n (Some b) off stride (if signed : bool then 3 else 1)
              = Some (mkci unp None pk' (Z.of_nat b)) /\
    forall dst, fits dst stride n ->
      exists dst', compact_integer orc dst None pk' n (Some b) off stride (if signed then 4 else 2)
                   = Some (mkci dst' None pk' (Z.of_nat b)) /\
        updated dst dst' stride n
          (fun j => u32 (u32 (elem signed (elt unp stride j) + positive_mask signed b) mod 2 ^ Z.of_nat b
                         - positive_mask signed b)).
Proof.
  intros Hb Fu Fp Hfit Hst Hlen.
  destruct (pack_nohdr_image orc signed unp pk n b off stride) as (pk' & E & L & F & V); auto; [lia|].
  exists pk'. split; auto. intros dst Hd.
  set (toks := map (fun j => u32 (elem signed (elt unp stride j) + positive_mask signed b)) (seq 0 n)) in *.
  assert (Lt : length toks = n) by (unfold toks; rewrite map_length, seq_length; reflexivity).
  destruct (unpack_tokens_spec orc pk' off b (fun t => u32 (t - positive_mask signed b)) stride n dst toks)
    as (d & Ed & Ld & A & B); auto.
  - lia.
  - rewrite V. replace (b * n)%nat with (length (tbits b toks)) by (rewrite tbits_length; lia).
    apply overwrite_slice. rewrite tbits_length, mbits_length, Lt. lia.
  - exists d. split.
    + assert (EU : ci_unpack orc signed dst None pk' n (Some b) off stride = Some (mkci d None pk' (Z.of_nat b))).
      { unfold ci_unpack. cbn [bind]. rewrite Ed. reflexivity. }
      unfold compact_integer. destruct b; [lia|]. destruct signed; exact EU.
    + split; auto. split; auto. intros j Hj. rewrite A by auto. unfold toks. rewrite nth_map_seq by auto. reflexivity.
Qed.

Lemma updated_ext dst dst' stride n g h :
  (forall j, (j < n)%nat -> g j = h j) -> updated dst dst' stride n g -> updated dst dst' stride n h.
Proof. intros E (L & A & B). split; auto. split; auto. intros. rewrite <- E by auto. auto. Qed.

Lemma mod_mod_pow x a b : (a <= b)%nat -> (x mod 2 ^ Z.of_nat b) mod 2 ^ Z.of_nat a = x mod 2 ^ Z.of_nat a.
Proof.
  intros. rewrite (pow2_split a b) by lia.
  pose proof (pow2_pos a). pose proof (pow2_pos (b - a)).
  rewrite Z.rem_mul_r by lia. rewrite Z.mul_comm, Z.mod_add by lia. apply Z.mod_mod. lia.
Qed.

Lemma u32_mod x b : (b <= 32)%nat -> u32 x mod 2 ^ Z.of_nat b = x mod 2 ^ Z.of_nat b.
Proof. intros. unfold u32. rewrite two32. apply mod_mod_pow. auto. Qed.

Lemma u32_small x : inr32 x -> u32 x = x.
Proof. intros. apply Z.mod_small. exact H. Qed.

(** Unsigned, no range hypothesis: values are reduced modulo 2^b. *)
Lemma unsigned_mod orc unp pk n b off stride :
  (1 <= b <= 32)%nat -> words_ok unp -> words_ok pk -> fits unp stride n -> (1 <= stride)%nat ->
  (off + n * b < 32 * length pk)%nat ->
  exists pk', compact_integer orc unp None pk n (Some b) off stride 1 = Some (mkci unp None pk' (Z.of_nat b)) /\
    forall dst, fits dst stride n ->
      exists dst', compact_integer orc dst None pk' n (Some b) off stride 2 = Some (mkci dst' None pk' (Z.of_nat b)) /\
        updated dst dst' stride n (fun j => elt unp stride j mod 2 ^ Z.of_nat b).
Proof.
  intros Hb Fu Fp Hfit Hst Hlen.
  destruct (nohdr_roundtrip orc false unp pk n b off stride) as (pk' & E & H); auto.
  exists pk'. split; auto. intros dst Hd. destruct (H dst Hd) as (d & Ed & U). exists d. split; auto.
  eapply updated_ext; [|exact U]. intros j Hj. cbv beta. unfold positive_mask, elem.
  rewrite Z.add_0_r, Z.sub_0_r. rewrite u32_mod by lia. apply u32_small.
  assert (inr32 (elt unp stride j)) by (eapply elt_inr; eauto).
  unfold inr32 in *. pose proof (pow2_pos b).
  pose proof (Z.mod_pos_bound (elt unp stride j) (2 ^ Z.of_nat b) ltac:(lia)).
  assert (elt unp stride j mod 2 ^ Z.of_nat b <= elt unp stride j) by (apply Z.mod_le; lia). lia.
Qed.

Lemma unsigned_roundtrip orc unp pk n b off stride :
  (1 <= b <= 32)%nat -> words_ok unp -> words_ok pk -> fits unp stride n -> (1 <= stride)%nat ->
  (off + n * b < 32 * length pk)%nat ->
  (forall j, (j < n)%nat -> elt unp stride j < 2 ^ Z.of_nat b) ->
  exists pk', compact_integer orc unp None pk n (Some b) off stride 1 = Some (mkci unp None pk' (Z.of_nat b)) /\
    forall dst, fits dst stride n ->
      exists dst', compact_integer orc dst None pk' n (Some b) off stride 2 = Some (mkci dst' None pk' (Z.of_nat b)) /\
        updated dst dst' stride n (elt unp stride).
Proof.
  intros Hb Fu Fp Hfit Hst Hlen Hr.
  destruct (unsigned_mod orc unp pk n b off stride) as (pk' & E & H); auto.
  exists pk'. split; auto. intros dst Hd. destruct (H dst Hd) as (d & Ed & U). exists d. split; auto.
  eapply updated_ext; [|exact U]. intros j Hj. cbv beta.
  assert (inr32 (elt unp stride j)) by (eapply elt_inr; eauto). unfold inr32 in *.
  apply Z.mod_small. split; [lia|auto].
Qed.

Lemma s32_as_int w : s32 w = as_int w.
Proof. reflexivity. Qed.

Lemma s32_mod w : inr32 w -> u32 (s32 w) = w.
Proof.
  intros. unfold u32, s32, inr32 in *. destruct (Z.ltb_spec w (2 ^ 31)).
  - apply Z.mod_small; lia.
  - symmetry. apply Z.mod_unique_pos with (-1); lia.
Qed.

Lemma signed_roundtrip orc unp pk n b off stride :
  (1 <= b <= 32)%nat -> words_ok unp -> words_ok pk -> fits unp stride n -> (1 <= stride)%nat ->
  (off + n * b < 32 * length pk)%nat ->
  (forall j, (j < n)%nat -> - 2 ^ Z.of_nat (b - 1) <= as_int (elt unp stride j) < 2 ^ Z.of_nat (b - 1)) ->
  exists pk', compact_integer orc unp None pk n (Some b) off stride 3 = Some (mkci unp None pk' (Z.of_nat b)) /\
    forall dst, fits dst stride n ->
      exists dst', compact_integer orc dst None pk' n (Some b) off stride 4 = Some (mkci dst' None pk' (Z.of_nat b)) /\
        updated dst dst' stride n (elt unp stride).
Proof.
  intros Hb Fu Fp Hfit Hst Hlen Hr.
  destruct (nohdr_roundtrip orc true unp pk n b off stride) as (pk' & E & H); auto.
  exists pk'. split; auto. intros dst Hd. destruct (H dst Hd) as (d & Ed & U). exists d. split; auto.
  eapply updated_ext; [|exact U]. intros j Hj. cbv beta.
  specialize (Hr j Hj). rewrite <- s32_as_int in Hr.
  assert (Hw : inr32 (elt unp stride j)) by (eapply elt_inr; eauto).
  unfold elem. rewrite positive_mask_signed by lia. rewrite u32_mod by lia.
  rewrite Z.mod_small.
  - rewrite Z.add_simpl_r. apply s32_mod; auto.
  - replace (Z.of_nat b) with (1 + Z.of_nat (b - 1)) by lia. rewrite Z.pow_add_r by lia. lia.
Qed.

(** Frame. *)
Lemma pack_frame orc signed unp pk n b off stride :
  (1 <= b <= 32)%nat -> words_ok unp -> words_ok pk -> fits unp stride n ->
  (off + n * b <= 32 * length pk)%nat ->
  exists pk', compact_integer orc unp None pk n (Some b) off stride (if signed : bool then 3 else 1)
              = Some (mkci unp None pk' (Z.of_nat b)) /\
    length pk' = length pk /\ words_ok pk' /\
    (forall i, (i < 32 * length pk)%nat -> (i < off \/ off + n * b <= i)%nat -> bit_at pk' i = bit_at pk i) /\
    (forall j k, (j < n)%nat -> (k < b)%nat ->
       bit_at pk' (off + j * b + k)
       = Z.testbit (if signed then as_int (elt unp stride j) + 2 ^ Z.of_nat (b - 1) else elt unp stride j)
                   (Z.of_nat (b - 1 - k))).
Proof.
  intros Hb Fu Fp Hfit Hlen.
  destruct (pack_nohdr_image orc signed unp pk n b off stride) as (pk' & E & L & F & V); auto.
  exists pk'. split; auto. split; auto. split; auto.
  set (toks := map (fun j => u32 (elem signed (elt unp stride j) + positive_mask signed b)) (seq 0 n)) in *.
  assert (Lt : length toks = n) by (unfold toks; rewrite map_length, seq_length; reflexivity).
  assert (LT : length (tbits b toks) = (b * n)%nat) by (rewrite tbits_length; lia).
  pose proof (mbits_length 32 pk) as LM.
  split.
  - intros i Hi Ho. rewrite !bit_at_mbits by lia. rewrite V. apply overwrite_nth_out; lia.
  - intros j k Hj Hk. rewrite bit_at_mbits by nia. rewrite V.
    replace (off + j * b + k)%nat with (off + (b * j + k))%nat by lia.
    rewrite overwrite_nth_in by nia. unfold tbits. rewrite nth_flat_bits by lia.
    rewrite nth_bits_of by lia. unfold toks. rewrite nth_map_seq by lia.
    unfold u32. rewrite Z.mod_pow2_bits_low by lia. f_equal.
    destruct signed; unfold elem.
    + rewrite positive_mask_signed by lia. reflexivity.
    + unfold positive_mask. lia.
Qed.

(** ** Header mode *)
Lemma minmax_fold l : forall mn mx, mn <= mx ->
  let '(a, b) := fold_left minmax_step l (mn, mx) in
  a <= mn /\ mx <= b /\ a <= b /\ (a = mn \/ In a l) /\ (b = mx \/ In b l) /\ Forall (fun x => a <= x <= b) l.
Proof.
  induction l as [|x l IH]; intros mn mx H; cbn [fold_left].
  - repeat split; auto; lia.
  - unfold minmax_step at 2. destruct (Z.ltb_spec x mn); [|destruct (Z.ltb_spec mx x)].
    + specialize (IH x mx ltac:(lia)). destruct (fold_left minmax_step l (x, mx)) as [a b].
      destruct IH as (A & B & C & D & E & F). repeat split; try lia.
      * right. destruct D as [->|D]; [left; auto|right; auto].
      * destruct E; [left; auto|right; right; auto].
      * constructor; auto. lia.
    + specialize (IH mn x ltac:(lia)). destruct (fold_left minmax_step l (mn, x)) as [a b].
      destruct IH as (A & B & C & D & E & F). repeat split; try lia.
      * destruct D; [left; auto|right; right; auto].
      * right. destruct E as [->|E]; [left; auto|right; auto].
      * constructor; auto. lia.
    + specialize (IH mn mx H). destruct (fold_left minmax_step l (mn, mx)) as [a b].
      destruct IH as (A & B & C & D & E & F). repeat split; try lia.
      * destruct D; [left; auto|right; right; auto].
      * destruct E; [left; auto|right; right; auto].
      * constructor; auto. lia.
Qed.

Lemma find_min_max_spec l : l <> [] -> exists mn mx, find_min_max l = Some (mn, mx) /\
  In mn l /\ In mx l /\ Forall (fun x => mn <= x <= mx) l.
Proof.
  destruct l as [|x l]; [congruence|]. intros _. simpl.
  pose proof (minmax_fold l x x ltac:(lia)) as H. destruct (fold_left minmax_step l (x, x)) as [a b].
  destruct H as (A & B & C & D & E & F). exists a, b. split; auto.
  split; [destruct D; auto|]. split; [destruct E; auto|]. constructor; auto.
Qed.

Lemma bitlen_spec x : 0 <= x -> x < 2 ^ Z.of_nat (bitlen x).
Proof.
  intros. unfold bitlen. destruct (Z.leb_spec x 0).
  - simpl. lia.
  - rewrite Nat2Z.inj_succ, Z2Nat.id by apply Z.log2_nonneg. apply Z.log2_spec. lia.
Qed.

Lemma bitlen_le x n : 0 <= x < 2 ^ Z.of_nat n -> (bitlen x <= n)%nat.
Proof.
  intros. unfold bitlen. destruct (Z.leb_spec x 0); [lia|].
  assert (Z.log2 x < Z.of_nat n) by (apply Z.log2_lt_pow2; lia).
  pose proof (Z.log2_nonneg x). lia.
Qed.

Lemma bitlen_zero x : bitlen x = 0%nat <-> x <= 0.
Proof. unfold bitlen. destruct (Z.leb_spec x 0); split; try lia; auto. Qed.

Lemma range_of_spec mn mx : mn <= mx -> mx - mn < 2 ^ 32 -> range_of mn mx = mx - mn.
Proof.
  intros. unfold range_of, u32. destruct ((0 <? mx) && (mn <? 0)).
  - rewrite Zplus_mod_idemp_r. replace (mx + - mn) with (mx - mn) by lia. apply Z.mod_small. lia.
  - apply Z.mod_small. lia.
Qed.

Lemma header_word0 shift b : (shift < 64)%nat -> (b < 64)%nat ->
  Z.lor (Z.lor 0xFD000000 (Z.shiftl (Z.of_nat shift) 6)) (Z.of_nat b) = 0xFD000000 + Z.of_nat shift * 64 + Z.of_nat b.
Proof.
  intros. rewrite Z.shiftl_mul_pow2 by lia. change (2 ^ 6) with 64.
  change 0xFD000000 with (0xFD000 * 2 ^ Z.of_nat 12) at 1. rewrite lor_shiftl_add by (change (2 ^ Z.of_nat 12) with 4096; lia).
  change (2 ^ Z.of_nat 12) with (64 * 2 ^ Z.of_nat 6). rewrite Z.mul_assoc.
  replace (0xFD000 * 64 * 2 ^ Z.of_nat 6 + Z.of_nat shift * 64) with ((0xFD000 * 64 + Z.of_nat shift) * 2 ^ Z.of_nat 6)
    by (change (2 ^ Z.of_nat 6) with 64; lia).
  rewrite lor_shiftl_add by (change (2 ^ Z.of_nat 6) with 64; lia). change (2 ^ Z.of_nat 6) with 64. lia.
Qed.

Lemma hdr_bits_ok n mn mx shift b : (shift < 64)%nat -> (b < 64)%nat -> hdr_bits (header_words n mn mx shift b) = Some b.
Proof.
  intros. unfold hdr_bits, header_words, rd. cbn [nth_error bind]. rewrite header_word0 by lia.
  change 63 with (Z.ones 6). rewrite Z.land_ones by lia. change (2 ^ 6) with 64.
  replace (0xFD000000 + Z.of_nat shift * 64 + Z.of_nat b) with (Z.of_nat b + (0xFD000000 / 64 + Z.of_nat shift) * 64).
  2:{ change (0xFD000000 / 64) with 66322432. lia. }
  rewrite Z.mod_add, Z.mod_small by lia. rewrite Nat2Z.id. reflexivity.
Qed.

Lemma hdr_shift_ok n mn mx shift b : (shift < 64)%nat -> (b < 64)%nat -> hdr_shift (header_words n mn mx shift b) = Some shift.
Proof.
  intros. unfold hdr_shift, header_words, rd. cbn [nth_error bind]. rewrite header_word0 by lia.
  rewrite Z.shiftr_div_pow2 by lia. change (2 ^ 6) with 64.
  change 63 with (Z.ones 6). rewrite Z.land_ones by lia. change (2 ^ 6) with 64.
  replace (0xFD000000 + Z.of_nat shift * 64 + Z.of_nat b) with (Z.of_nat b + (66322432 + Z.of_nat shift) * 64) by lia.
  rewrite Z.div_add, Z.div_small by lia.
  replace (0 + (66322432 + Z.of_nat shift)) with (Z.of_nat shift + 1036288 * 64) by lia.
  rewrite Z.mod_add, Z.mod_small by lia. rewrite Nat2Z.id. reflexivity.
Qed.

Lemma elem_u32 (signed : bool) w : inr32 w -> u32 (elem signed w) = w.
Proof. intros. unfold elem. destruct signed; [apply s32_mod|apply u32_small]; auto. Qed.

Lemma elem_diff (signed : bool) v w : inr32 v -> inr32 w -> elem signed v - elem signed w < 2 ^ 32.
Proof.
  unfold inr32, elem, s32. intros.
  destruct signed; [destruct (Z.ltb_spec v (2 ^ 31)), (Z.ltb_spec w (2 ^ 31))|]; lia.
Qed.

Lemma hdr_token_mod orc signed mn x shift b :
  0 <= x - mn < 2 ^ 32 -> (shift + b <= 32)%nat -> (shift < 32)%nat ->
  hdr_token orc signed mn shift x mod 2 ^ Z.of_nat b = ((x - mn) / 2 ^ Z.of_nat shift) mod 2 ^ Z.of_nat b.
Proof.
  intros Hd Hsb Hs. unfold hdr_token. destruct signed.
  - rewrite u32_mod by lia. unfold u32. rewrite (Z.mod_small (x - mn)) by lia.
    unfold s32. destruct (Z.ltb_spec (x - mn) (2 ^ 31)).
    + rewrite Z.shiftr_div_pow2 by lia. reflexivity.
    + rewrite Z.shiftr_div_pow2 by lia.
      replace (x - mn - 2 ^ 32) with (x - mn + (- 2 ^ Z.of_nat (32 - shift)) * 2 ^ Z.of_nat shift).
      2:{ rewrite two32, (pow2_split shift 32) by lia. ring. }
      rewrite Z.div_add by (pose proof (pow2_pos shift); lia).
      rewrite (pow2_split b (32 - shift)) by lia.
      replace (- (2 ^ Z.of_nat b * 2 ^ Z.of_nat (32 - shift - b))) with ((- 2 ^ Z.of_nat (32 - shift - b)) * 2 ^ Z.of_nat b) by ring.
      apply Z.mod_add. pose proof (pow2_pos b). lia.
  - unfold u32. rewrite (Z.mod_small (x - mn)) by lia.
    unfold shr32. replace (shift <? 32)%nat with true by (symmetry; apply Nat.ltb_lt; lia).
    rewrite Z.shiftr_div_pow2 by lia. reflexivity.
Qed.

Lemma hdr_token_range orc signed mn shift x : inr32 (hdr_token orc signed mn shift x).
Proof. unfold hdr_token. destruct signed; [apply u32_range|apply shr32_range, u32_range]. Qed.

(** The value that comes back from a header-mode round trip. *)
Definition hdr_back (mn : Z) (shift : nat) (x : Z) : Z :=
  mn + (x - mn) / 2 ^ Z.of_nat shift * 2 ^ Z.of_nat shift.

Lemma hdr_roundtrip_core orc signed unp pk n (b : bsize) off stride h0 mn mx shift b' :
  words_ok unp -> words_ok pk -> fits unp stride n -> (1 <= stride)%nat -> (1 <= n)%nat -> Z.of_nat n < 2 ^ 32 ->
  b <> Some 0%nat -> (match b with Some b => b <= 32 | None => True end)%nat ->
  find_min_max (map (elem signed) (map (fun j => nth (j * stride) unp 0) (seq 0 n))) = Some (mn, mx) ->
  header_shift (bitlen (range_of mn mx)) b = (shift, b') ->
  (1 <= b' <= 32)%nat ->
  (off + n * b' < 32 * length pk)%nat ->
  ((b' = 32 /\ off mod 32 = 0)%nat \/ forall j, (j < n)%nat ->
     let t := hdr_token orc signed mn shift (elem signed (elt unp stride j)) in
     Z.land t (cleanup_mask orc b) = t mod 2 ^ Z.of_nat b') ->
  exists pk', compact_integer orc unp (Some h0) pk n b off stride (if signed : bool then 3 else 1)
              = Some (mkci unp (Some (header_words n mn mx shift b')) pk' (Z.of_nat b')) /\
    forall dst cnt b2, fits dst stride n -> b2 <> Some 0%nat ->
      exists dst' r, compact_integer orc dst (Some (header_words n mn mx shift b')) pk' cnt b2 off stride (if signed then 4 else 2)
                   = Some (mkci dst' (Some (header_words n mn mx shift b')) pk' r) /\
        updated dst dst' stride n (fun j => u32 (hdr_back mn shift (elem signed (elt unp stride j)))).
Proof.
  intros Fu Fp Hfit Hst Hn Hn32 Hb0 Hb32 Hmm Hhs Hb' Hlen Hmask.
  set (ws := map (fun j => nth (j * stride) unp 0) (seq 0 n)) in *.
  set (xs := map (elem signed) ws) in *.
  assert (Hne : xs <> []).
  { unfold xs, ws. destruct n; [lia|]. discriminate. }
  destruct (find_min_max_spec xs Hne) as (mn' & mx' & Hmm' & Hin1 & Hin2 & HF).
  rewrite Hmm in Hmm'. injection Hmm' as <- <-.
  assert (Hrng : forall j, (j < n)%nat -> mn <= elem signed (elt unp stride j) <= mx).
  { intros j Hj. eapply (proj1 (Forall_forall _ _) HF). unfold xs, ws. rewrite map_map.
    apply in_map_iff. exists j. split; [reflexivity|apply in_seq; lia]. }
  assert (Hmnw : exists j, (j < n)%nat /\ mn = elem signed (elt unp stride j)).
  { unfold xs in Hin1. apply in_map_iff in Hin1. destruct Hin1 as (w & <- & Hw). apply in_map_seq_elt in Hw.
    destruct Hw as (j & Hj & ->). eauto. }
  assert (Hmxw : exists j, (j < n)%nat /\ mx = elem signed (elt unp stride j)).
  { unfold xs in Hin2. apply in_map_iff in Hin2. destruct Hin2 as (w & <- & Hw). apply in_map_seq_elt in Hw.
    destruct Hw as (j & Hj & ->). eauto. }
  destruct Hmnw as (jmn & Hjmn & Emn). destruct Hmxw as (jmx & Hjmx & Emx).
  assert (Hspan : 0 <= mx - mn < 2 ^ 32).
  { split. { specialize (Hrng jmx Hjmx). lia. }
    rewrite Emn, Emx. apply elem_diff; eapply elt_inr; eauto. }
  assert (Hro : range_of mn mx = mx - mn) by (apply range_of_spec; lia).
  rewrite Hro in Hhs.
  assert (Hbl : (bitlen (mx - mn) <= 32)%nat) by (apply bitlen_le; exact Hspan).
  pose proof (bitlen_spec (mx - mn) ltac:(lia)) as Hbl2.
  assert (Hsb : (shift + b' <= 32)%nat /\ (shift < 32)%nat /\ (bitlen (mx - mn) <= shift + b')%nat).
  { unfold header_shift in Hhs. destruct b as [b|]; injection Hhs as <- <-; [|lia].
    lia. }
  destruct Hsb as (Hsb & Hs32 & Hcov).
  assert (Htokval : forall j, (j < n)%nat -> hdr_token orc signed mn shift (elem signed (elt unp stride j)) mod 2 ^ Z.of_nat b'
                    = (elem signed (elt unp stride j) - mn) / 2 ^ Z.of_nat shift).
  { intros j Hj. specialize (Hrng j Hj). rewrite hdr_token_mod by lia. apply Z.mod_small.
    pose proof (pow2_pos shift). split; [apply Z.div_pos; lia|]. apply Z.div_lt_upper_bound; [lia|].
    rewrite <- Z.pow_add_r by lia. rewrite <- Nat2Z.inj_add.
    eapply Z.le_lt_trans with (mx - mn); [lia|]. eapply Z.lt_le_trans; [exact Hbl2|]. apply Z.pow_le_mono_r; lia. }
  set (toks := map (hdr_token orc signed mn shift) xs).
  assert (Lt : length toks = n) by (unfold toks, xs, ws; rewrite !map_length, seq_length; reflexivity).
  assert (Ft : Forall inr32 toks).
  { apply Forall_forall. intros t Ht. unfold toks in Ht. apply in_map_iff in Ht. destruct Ht as (x & <- & _). apply hdr_token_range. }
  destruct (pack_tokens_spec orc pk off b' (cleanup_mask orc b) toks) as (pk' & E & L & V & F); auto.
  { lia. } { rewrite Lt. lia. }
  { destruct Hmask as [H|H]; [left; exact H|right]. intros t Ht.
    unfold toks, xs, ws in Ht. rewrite !map_map in Ht. apply in_map_iff in Ht. destruct Ht as (j & <- & Hj).
    apply in_seq in Hj. apply H. lia. }
  exists pk'. split.
  - assert (EP : ci_pack orc signed unp (Some h0) pk n b off stride
                 = Some (mkci unp (Some (header_words n mn mx shift b')) pk' (Z.of_nat b'))).
    { unfold ci_pack. rewrite gather_spec by exact Hfit. cbn [bind]. fold ws. fold xs. rewrite Hmm. cbn [bind].
      rewrite Hro, Hhs. fold toks. rewrite E. reflexivity. }
    unfold compact_integer. destruct b as [[|b]|]; [congruence| |]; destruct signed; exact EP.
  - intros dst cnt b2 Hd Hb2.
    destruct (unpack_tokens_spec orc pk' off b' (fun t => u32 (shl32 orc t shift + u32 mn)) stride n dst toks)
      as (d & Ed & Ld & A & B); auto.
    { lia. }
    { rewrite V. replace (b' * n)%nat with (length (tbits b' toks)) by (rewrite tbits_length; lia).
      apply overwrite_slice. rewrite tbits_length, mbits_length, Lt. lia. }
    assert (EU : ci_unpack orc signed dst (Some (header_words n mn mx shift b')) pk' cnt b2 off stride
      = Some (mkci d (Some (header_words n mn mx shift b')) pk' (match b2 with Some b => Z.of_nat b | None => -1 end))).
    { unfold ci_unpack. rewrite hdr_bits_ok, hdr_shift_ok by lia. cbn [bind].
      unfold header_words at 1 2, rd. cbn [nth_error bind].
      replace (Z.to_nat (u32 (Z.of_nat n))) with n.
      2:{ unfold u32. rewrite Z.mod_small by lia. lia. }
      rewrite Ed. reflexivity. }
    exists d, (match b2 with Some b => Z.of_nat b | None => -1 end). split.
    + unfold compact_integer. destruct b2 as [[|b2]|]; [congruence| |]; destruct signed; exact EU.
    + split; auto. split; auto. intros j Hj. rewrite A by auto. f_equal.
      assert (EN : nth j toks 0 = hdr_token orc signed mn shift (elem signed (elt unp stride j))).
      { unfold toks, xs, ws. rewrite !map_map. rewrite nth_map_seq by auto. reflexivity. }
      rewrite EN, Htokval by auto. unfold hdr_back.
      set (q := (elem signed (elt unp stride j) - mn) / 2 ^ Z.of_nat shift).
      unfold shl32. replace (shift <? 32)%nat with true by (symmetry; apply Nat.ltb_lt; lia).
      rewrite Z.shiftl_mul_pow2 by lia. unfold u32.
      rewrite <- Zplus_mod. f_equal. lia.
Qed.
