(** Properties C10-C13: compression of 16-bit fields (armn_compress).
    Vocabulary: SpecZfst.v. [fast]: compression level "fast"; [swap]: the
    16-bit values are stored most significant half first; [g], [g16], [gt]:
    contents of freshly allocated arrays. *)
From Coq Require Import ZArith List Lia Bool.
From Verif Require Import Bits BitIO TileCodec ZfstLib SpecZfst ZfstFacts.
Import ListNotations.
Open Scope Z_scope.

(** C10: fields for which the tile-minimum method is selected. Decompression
    may start from any array holding the [len] compressed bytes. With nk > 1
    only the first ni*nj values are restored (see c10_planes_refuted). *)
Theorem c10_minimum_lossless : forall orc fast swap g fld ni nj nk nbits,
  (2 <= ni)%nat -> (2 <= nj)%nat -> (1 <= nk)%nat -> (1 <= nbits <= 16)%nat ->
  fast = true \/ (ni < 16)%nat \/ (nj < 16)%nat \/ (nbits <= 4)%nat ->
  Z.of_nat (ni * nj * nk) * 16 < 2 ^ 31 ->
  words32 fld -> words32 g -> length g = (ni * nj * nk)%nat -> (1 + ni * nj * nk / 2 <= length fld)%nat ->
  (forall k, (k < ni * nj)%nat -> tok16 swap fld k < 2 ^ Z.of_nat nbits) ->
  exists len fld', armn_compress orc fast swap g fld ni nj nk nbits = Some (len, fld') /\
    length fld' = length fld /\ words32 fld' /\
    (len <> -1 -> exists p, len = 1 + 4 * Z.of_nat p /\
       forall orc' g16 gt mem, words32 mem -> (p < length mem)%nat -> firstn p mem = firstn p fld' ->
         (1 + ni * nj / 2 <= length mem)%nat ->
         words16 g16 -> length g16 = (2 * (ni * nj))%nat -> length gt = (ni * nj)%nat ->
         exists mem', armn_uncompress orc' swap g16 gt mem ni nj nk nbits = Some (Z.of_nat (ni * nj) * 2, mem') /\
           length mem' = length mem /\
           (forall k, (k < ni * nj)%nat -> tok16 swap mem' k = tok16 swap fld k) /\
           (forall i, (1 + ni * nj / 2 <= i)%nat -> nth_error mem' i = nth_error mem i)).
Proof. intros. apply compress_lossless; auto. Qed.
Print Assumptions c10_minimum_lossless.

(** C11: the same for the parallelogram method. *)
Theorem c11_parallelogram_lossless : forall orc swap g fld ni nj nk nbits,
  (16 <= ni)%nat -> (16 <= nj)%nat -> (1 <= nk)%nat -> (5 <= nbits <= 16)%nat ->
  Z.of_nat (ni * nj * nk) * 16 < 2 ^ 31 ->
  words32 fld -> words32 g -> length g = (ni * nj * nk)%nat -> (1 + ni * nj * nk / 2 <= length fld)%nat ->
  (forall k, (k < ni * nj)%nat -> tok16 swap fld k < 2 ^ Z.of_nat nbits) ->
  exists len fld', armn_compress orc false swap g fld ni nj nk nbits = Some (len, fld') /\
    length fld' = length fld /\ words32 fld' /\
    (len <> -1 -> exists p, len = 1 + 4 * Z.of_nat p /\
       forall orc' g16 gt mem, words32 mem -> (p < length mem)%nat -> firstn p mem = firstn p fld' ->
         (1 + ni * nj / 2 <= length mem)%nat ->
         words16 g16 -> length g16 = (2 * (ni * nj))%nat -> length gt = (ni * nj)%nat ->
         exists mem', armn_uncompress orc' swap g16 gt mem ni nj nk nbits = Some (Z.of_nat (ni * nj) * 2, mem') /\
           length mem' = length mem /\
           (forall k, (k < ni * nj)%nat -> tok16 swap mem' k = tok16 swap fld k) /\
           (forall i, (1 + ni * nj / 2 <= i)%nat -> nth_error mem' i = nth_error mem i)).
Proof. intros. apply compress_lossless; auto; lia. Qed.
Print Assumptions c11_parallelogram_lossless.

(** A 19 x 20 field of 12-bit values that both methods compress. *)
Definition ex_field : list Z := map (fun k => Z.of_nat ((k * k / 64) mod 4096) * 2 ^ 16 + Z.of_nat (k mod 1024)) (seq 0 191).
Example c10_c11_instance :
  words32 ex_field /\ (1 + 19 * 20 * 1 / 2 <= length ex_field)%nat /\
  (forall k, (k < 19 * 20)%nat -> tok16 true ex_field k < 2 ^ Z.of_nat 12) /\
  (exists p f, armn_compress x86 true true (repeat 0 380) ex_field 19 20 1 12 = Some (1 + 4 * Z.of_nat p, f)) /\
  (exists p f, armn_compress x86 false true (repeat 0 380) ex_field 19 20 1 12 = Some (1 + 4 * Z.of_nat p, f)).
Proof.
  split. { apply Forall_forall. intros w Hw. unfold ex_field in Hw. apply in_map_iff in Hw. destruct Hw as (k & <- & _).
    pose proof (Nat.mod_upper_bound (k * k / 64) 4096 ltac:(discriminate)). pose proof (Nat.mod_upper_bound k 1024 ltac:(discriminate)).
    lia. }
  split; [vm_compute; lia|]. split.
  { assert (H : forallb (fun k => tok16 true ex_field k <? 4096) (seq 0 380) = true) by (vm_compute; reflexivity).
    rewrite forallb_forall in H. intros k Hk. specialize (H k ltac:(apply in_seq; lia)).
    change (2 ^ Z.of_nat 12) with 4096. apply Z.ltb_lt. exact H. }
  split; [exists 99%nat|exists 111%nat]; eexists; vm_compute; reflexivity.
Qed.

(** Finding: with nk > 1 the call succeeds but values after the first plane
    are lost: two fields that differ only in the second plane give the same
    compressed bytes. *)
Theorem c10_planes_refuted : exists fld1 fld2 len f1 f2,
  tok16 true fld1 64 <> tok16 true fld2 64 /\ (64 < 8 * 8 * 2)%nat /\
  armn_compress x86 true true (repeat 0 128) fld1 8 8 2 16 = Some (len, f1) /\
  armn_compress x86 true true (repeat 0 128) fld2 8 8 2 16 = Some (len, f2) /\
  len = 1 + 4 * Z.of_nat 4 /\ firstn 4 f1 = firstn 4 f2.
Proof.
  exists (repeat 0 65), (repeat 0 32 ++ repeat 1234567 33). do 3 eexists.
  split; [vm_compute; discriminate|]. split; [lia|]. split; [vm_compute; reflexivity|].
  split; [vm_compute; reflexivity|]. split; vm_compute; reflexivity.
Qed.
Print Assumptions c10_planes_refuted.

(** C12. *)
Theorem c12_failure_unchanged : forall orc fast swap g fld ni nj nk nbits fld',
  words32 fld -> armn_compress orc fast swap g fld ni nj nk nbits = Some (-1, fld') -> fld' = fld.
Proof. exact compress_fail. Qed.
Print Assumptions c12_failure_unchanged.

(** An incompressible 4 x 4 field. *)
Example c12_instance : exists fld, words32 fld /\ fld <> [] /\
  armn_compress x86 true true (repeat 0 16) fld 4 4 1 16 = Some (-1, fld).
Proof.
  exists (map (fun k => (Z.of_nat k * 2654435761) mod 2 ^ 32) (seq 0 9)). split; [|split; [discriminate|vm_compute; reflexivity]].
  apply Forall_forall. intros w Hw. apply in_map_iff in Hw. destruct Hw as (k & <- & _). apply Z.mod_pos_bound. lia.
Qed.

(** C13: the reported length is below the size of the 16-bit field, and lies
    within the caller's array, whose size does not change. *)
Theorem c13_length : forall orc fast swap g fld ni nj nk nbits len fld',
  words32 fld -> armn_compress orc fast swap g fld ni nj nk nbits = Some (len, fld') -> len <> -1 ->
  0 < len < 2 * Z.of_nat (ni * nj * nk) /\ len <= 4 * Z.of_nat (length fld) /\ length fld' = length fld.
Proof. exact compress_size. Qed.
Print Assumptions c13_length.

Example c13_instance : exists f, armn_compress x86 true true (repeat 0 128) (repeat 0 65) 8 8 2 16 = Some (17, f).
Proof. eexists. vm_compute. reflexivity. Qed.

(** Finding: decompression writes 1 + ni*nj/2 words, one more than a field of
    an even number of 16-bit values occupies: out of bounds on an array of
    exactly that size. *)
Theorem c13_uncompress_overflow_refuted : forall g16 gt, length g16 = 128%nat -> words16 g16 ->
  exists len f, armn_compress x86 true true (repeat 0 64) (repeat 0 32) 8 8 1 16 = Some (len, f) /\ len <> -1 /\
  armn_uncompress x86 true g16 gt f 8 8 1 16 = None.
Proof.
  intros g16 gt L F. do 2 eexists. split; [vm_compute; reflexivity|]. split; [discriminate|].
  unfold armn_uncompress.
  match goal with |- context [fstunzip ?o ?a ?b ?c 8 8] => destruct (fstunzip o a b c 8 8) as [u|]; [|reflexivity] end.
  cbn [bind]. cbv zeta.
  match goal with |- context [((length ?f <? ?m)%nat || ?b)%bool] => change b with true; rewrite (orb_true_r (length f <? m)%nat) end.
  reflexivity.
Qed.
Print Assumptions c13_uncompress_overflow_refuted.
