(** Properties C14, C15 and C16: 32-bit field compression, one-bit run-length
    coding and masks. *)
From Coq Require Import ZArith List Lia Bool.
From Verif Require Import Bits BitIO CompactInt TileCodec Compress32 SpecZfst TileFacts Rle1Facts MaskFacts Compress32Main.
Import ListNotations.
Open Scope Z_scope.

(** C15. A sequence of [npts] zeros and ones, packed at word [p] of [z], is
    read back from any memory holding the same words [p .. q-1], and cells
    after the first [npts] of the destination do not change. The packing
    leaves the words before [p] alone and uses at most 8 bits for 7 values,
    plus one word. The source array has one more cell than the sequence: the
    packer reads it. *)
Theorem c15_bit_runs_roundtrip : forall orc u npts z p,
  (npts < length u)%nat -> (forall k, (k < npts)%nat -> nth k u 0 = 0 \/ nth k u 0 = 1) ->
  words32 z -> (p < length z)%nat -> ((32 * p + 8 * (npts + 6) / 7 + 32) / 32 <= length z)%nat ->
  exists z' q, pack1bitRLE orc z p u npts = Some (z', q) /\ length z' = length z /\ words32 z' /\
    firstn p z' = firstn p z /\ (p <= q <= length z)%nat /\ (32 * (q - p) <= 8 * (npts + 6) / 7 + 32)%nat /\
    forall orc' mem arr, words32 mem -> (q < length mem)%nat ->
      firstn (q - p) (skipn p mem) = firstn (q - p) (skipn p z') -> (npts <= length arr)%nat ->
      exists arr', unpack1bitRLE orc' arr mem p npts = Some arr' /\ length arr' = length arr /\
        (forall k, (k < npts)%nat -> nth_error arr' k = Some (nth k u 0)) /\
        (forall k, (npts <= k)%nat -> nth_error arr' k = nth_error arr k).
Proof.
  intros orc u npts z p Hu Hb F Hp Hr. apply rle1_roundtrip; auto.
  intros k Hk. unfold el. destruct (Hb k Hk) as [-> | ->]; lia.
Qed.
Print Assumptions c15_bit_runs_roundtrip.

(** Runs longer than 255, short runs and isolated values in one sequence. *)
Example c15_instance : exists u z' q a,
  length u = 401%nat /\ pack1bitRLE x86 (repeat 0 20) 0 u 400 = Some (z', q) /\ (q < 5)%nat /\
  unpack1bitRLE x86 (repeat 7 400) z' 0 400 = Some a /\ a = firstn 400 u /\ In 0 a /\ In 1 a.
Proof.
  exists ([1; 0; 1; 1; 0; 0; 0] ++ repeat 1 380 ++ repeat 0 13 ++ [1]). do 3 eexists.
  split; [reflexivity|]. split; [vm_compute; reflexivity|]. split; [lia|]. split; [vm_compute; reflexivity|].
  split; [reflexivity|]. split; [right; left; reflexivity|left; reflexivity].
Qed.

(** Finding: the packer reads the cell after the last value, whatever the
    sequence: out of bounds when the array has exactly [npts] cells. *)
Theorem c15_overread_refuted :
  pack1bitRLE x86 (repeat 0 20) 0 (repeat 1 100) 100 = None /\
  pack1bitRLE x86 (repeat 0 20) 0 (repeat 1 101) 100 <> None.
Proof. split; [vm_compute; reflexivity|vm_compute; discriminate]. Qed.
Print Assumptions c15_overread_refuted.

(** C16. *)
Theorem c16_mask_roundtrip : forall src npts z,
  (npts <= length src)%nat -> (forall k, (k < npts)%nat -> nth k src 0 = 0 \/ nth k src 0 = 1) ->
  (npts / 32 < length z)%nat ->
  exists z', compact_mask_char z 0 src npts = Some z' /\ length z' = length z /\
    (forall k, (npts / 32 < k)%nat -> nth_error z' k = nth_error z k) /\
    forall dst, (npts <= length dst)%nat ->
      exists dst', uncompact_mask_char dst z' npts = Some dst' /\ length dst' = length dst /\
        (forall k, (k < npts)%nat -> nth_error dst' k = Some (nth k src 0)) /\
        (forall k, (npts <= k)%nat -> nth_error dst' k = nth_error dst k).
Proof.
  intros src npts z Hs Hb Hz. apply mask_roundtrip; auto.
  intros k Hk. unfold el. destruct (Hb k Hk) as [-> | ->]; lia.
Qed.
Print Assumptions c16_mask_roundtrip.

Example c16_instance : exists z', compact_mask_char [9; 9; 9] 0 ([1; 0; 1] ++ repeat 0 28 ++ [1; 1; 0; 1]) 35 = Some z' /\
  z' = [2 ^ 31 + 5; 5; 9] /\
  uncompact_mask_char (repeat 5 36) z' 35 = Some ([1; 0; 1] ++ repeat 0 28 ++ [1; 1; 0; 1] ++ [5]).
Proof. eexists. split; [vm_compute; reflexivity|]. split; vm_compute; reflexivity. Qed.

(** The mask has one word more than needed when [npts] is a multiple of 32:
    the caller must provide it. *)
Example c16_extra_word : compact_mask_char [9] 0 (repeat 1 32) 32 = None.
Proof. vm_compute. reflexivity. Qed.

(** C14. For every field of 32-bit patterns and every number of bits kept
    (10 .. 32), compression into an array of two words per point either reports
    failure, or returns a length 4n such that decompression, from any memory
    that starts with the same n words and whatever the contents of the scratch
    arrays, gives every pattern with exactly the [32 - znbits] dropped low bits
    cleared, and changes nothing after the ni*nj points. *)
Theorem c14_float_truncation : forall orc gs z fld ni nj nk znbits,
  (16 <= ni)%nat -> (16 <= nj)%nat -> (10 <= znbits <= 32)%nat ->
  Z.of_nat (ni * nj * nk) * 4 < 2 ^ 31 -> Z.of_nat (ni * nj * znbits) < 2 ^ 31 ->
  words32 fld -> words32 z -> (ni * nj <= length fld)%nat -> (2 * (ni * nj) <= length z)%nat -> (0 < length gs)%nat ->
  compress32 orc gs z fld ni nj nk znbits = Some (-1, []) \/
  exists n z', compress32 orc gs z fld ni nj nk znbits = Some (4 * Z.of_nat n, z') /\
    length z' = length z /\ words32 z' /\ (0 < n <= length z')%nat /\
    forall orc' gs' ge gm gt8 gt32 dst mem, words32 mem -> (n <= length mem)%nat -> firstn n mem = firstn n z' ->
      (ni * nj <= length gs')%nat -> (ni * nj <= length ge)%nat -> (ni * nj <= length gm)%nat ->
      (ni * nj <= length gt8)%nat -> (ni * nj <= length gt32)%nat -> (ni * nj <= length dst)%nat ->
      exists dst', uncompress32 orc' gs' ge gm gt8 gt32 dst mem ni nj = Some (Z.of_nat (ni * nj), dst') /\
        length dst' = length dst /\
        (forall k, (k < ni * nj)%nat ->
           nth_error dst' k = Some (nth k fld 0 - nth k fld 0 mod 2 ^ (32 - Z.of_nat znbits))) /\
        (forall k, (ni * nj <= k)%nat -> nth_error dst' k = nth_error dst k).
Proof. exact compress32_roundtrip. Qed.
Print Assumptions c14_float_truncation.

(** With 32 bits kept the patterns come back unchanged. *)
Theorem c14_float_lossless : forall orc gs z fld ni nj nk n z' orc' gs' ge gm gt8 gt32 dst,
  (16 <= ni)%nat -> (16 <= nj)%nat -> Z.of_nat (ni * nj * nk) * 4 < 2 ^ 31 -> Z.of_nat (ni * nj * 32) < 2 ^ 31 ->
  words32 fld -> words32 z -> length fld = (ni * nj)%nat -> (2 * (ni * nj) <= length z)%nat -> (0 < length gs)%nat ->
  compress32 orc gs z fld ni nj nk 32 = Some (n, z') -> n <> -1 ->
  (ni * nj <= length gs')%nat -> (ni * nj <= length ge)%nat -> (ni * nj <= length gm)%nat ->
  (ni * nj <= length gt8)%nat -> (ni * nj <= length gt32)%nat -> length dst = (ni * nj)%nat ->
  uncompress32 orc' gs' ge gm gt8 gt32 dst z' ni nj = Some (Z.of_nat (ni * nj), fld).
Proof.
  intros orc gs z fld ni nj nk n z' orc' gs' ge gm gt8 gt32 dst Hi Hj Hk Ho Ff Fz Lf Lz Lg E Nn G1 G2 G3 G4 G5 G6.
  destruct (compress32_roundtrip orc gs z fld ni nj nk 32) as [E1|(m & z1 & E1 & L1 & F1 & M1 & D)]; auto; try lia.
  { rewrite E1 in E. injection E as <- _. contradiction. }
  rewrite E1 in E. assert (z1 = z') by congruence. subst z1.
  destruct (D orc' gs' ge gm gt8 gt32 dst z') as (dst' & E2 & L2 & I2 & _); auto; try lia.
  rewrite E2. f_equal. f_equal. apply nth_ext with (d := 0) (d' := 0); [lia|].
  intros k Hk'. rewrite (nth_error_nth _ _ _ (I2 k ltac:(lia))). change (32 - Z.of_nat 32) with 0.
  change (2 ^ 0) with 1. rewrite Z.mod_1_r. unfold el. lia.
Qed.
Print Assumptions c14_float_lossless.

(** A 16 x 17 field with both signs, varying exponents, a NaN, a denormal and
    -0: compressed to less than its size and restored; and truncated with 20
    bits kept. *)
Definition c14_field : list Z :=
  [0x7FC00001; 1; 0x80000000] ++
  map (fun k => (k * k * 12 + (if k <? 150 then 2 ^ 31 else 0) + (120 + k / 60) * 2 ^ 23) mod 2 ^ 32) (map Z.of_nat (seq 3 269)).
Example c14_instance : exists n z', words32 c14_field /\
  compress32 x86 (repeat 7 272) (repeat 9 600) c14_field 16 17 1 32 = Some (4 * Z.of_nat n, z') /\ (n < 272)%nat /\
  uncompress32 x86 (repeat 5 600) (repeat 5 600) (repeat 5 600) (repeat 5 600) (repeat 5 600) (repeat 0 272) z' 16 17
    = Some (272, c14_field).
Proof.
  exists 134%nat. eexists. split; [|split; [vm_compute; reflexivity|split; [lia|vm_compute; reflexivity]]].
  apply Forall_forall. intros w Hw. apply in_app_iff in Hw.
  destruct Hw as [[<-|[<-|[<-|[]]]]|Hw]; try lia. apply in_map_iff in Hw. destruct Hw as (k & <- & _). apply Z.mod_pos_bound. lia.
Qed.
Example c14_instance_truncated : exists r z',
  compress32 x86 (repeat 7 272) (repeat 9 600) c14_field 16 17 1 20 = Some (r, z') /\ 0 < r /\
  uncompress32 x86 (repeat 5 600) (repeat 5 600) (repeat 5 600) (repeat 5 600) (repeat 5 600) (repeat 0 272) z' 16 17
    = Some (272, map (fun w => w - w mod 2 ^ 12) c14_field).
Proof. do 2 eexists. split; [vm_compute; reflexivity|split; [lia|vm_compute; reflexivity]]. Qed.

(** Finding: the sign and exponent streams are written before any check on the
    space. The record writer provides 2 * ((ni*nj*nk*nbits + 183) / 64) + 132
    words (fstd98.c lines 992-999 and 1309, counting all the slack). With 10
    bits kept, a checkerboard of 0 and -2^127 makes the streams larger: an
    out-of-bounds write, before the failure is noticed. *)
Definition c14_wild : list Z :=
  map (fun k => if Nat.even (k + k / 64) then 0 else 0xFF000000) (seq 0 (64 * 64)).
Theorem c14_writer_buffer_overflow_refuted :
  words32 c14_wild /\ length c14_wild = (64 * 64)%nat /\
  compress32 x86 (repeat 0 (64 * 64)) (repeat 0 (Z.to_nat (2 * ((64 * 64 * 1 * 10 + 183) / 64) + 132))) c14_wild 64 64 1 10 = None /\
  compress32 x86 (repeat 0 (64 * 64)) (repeat 0 (2 * (64 * 64))) c14_wild 64 64 1 10 = Some (-1, []).
Proof.
  split; [|split; [reflexivity|split; vm_compute; reflexivity]].
  apply Forall_forall. intros w Hw. apply in_map_iff in Hw. destruct Hw as (k & <- & _). destruct (Nat.even _); lia.
Qed.
Print Assumptions c14_writer_buffer_overflow_refuted.
