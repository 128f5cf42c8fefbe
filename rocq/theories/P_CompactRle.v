(** Properties C08-C09: run-length packing (compact_rle, opcode 1 packs and
    2 unpacks). Vocabulary: SpecPack.v. [junk] is the initial content of an
    uninitialised local variable of the unpacker. *)
From Coq Require Import ZArith List Lia Bool.
From Verif Require Import Bits BitIO CompactRle SpecPack CompactRleMain.
Import ListNotations.
Open Scope Z_scope.

(** C08 and C09. The width leaves at least two codes above the data range
    (hi - lo <= 2^b - 3). The hypothesis on the last three elements excludes
    arrays that end with a run followed by one different element: the code
    drops the pending repeats of that run (refuted below). The bound on the
    written bits is the observable form of C09: no token spills over. *)
Theorem c08_rle_roundtrip_partial : forall orc junk unp pk h0 mx mn n b off stride lo hi,
  (3 <= b <= 31)%nat -> words_ok unp -> words_ok pk -> fits unp stride n -> (1 <= stride)%nat ->
  (1 <= n)%nat -> Z.of_nat n < 2 ^ 26 -> 0 <= junk < 2 ^ 32 ->
  (off + n * b < 32 * length pk)%nat ->
  0 <= lo -> hi < 2 ^ 32 -> hi - lo <= 2 ^ Z.of_nat b - 3 ->
  (forall j, (j < n)%nat -> lo <= elt unp stride j <= hi) ->
  (mx = mn \/ (mx = hi /\ mn = lo)) ->
  (forall k, n = S (S (S k)) -> elt unp stride k = elt unp stride (S k) -> elt unp stride (S k) = elt unp stride (S (S k))) ->
  exists pk' h r, (1 <= r <= n)%nat /\
    compact_rle orc junk unp h0 pk mx mn n b off stride 1 = Some (mkrle unp h pk' (Z.of_nat r)) /\
    length pk' = length pk /\ words_ok pk' /\
    (forall i, (i < 32 * length pk)%nat -> (i < off \/ off + r * b <= i)%nat -> bit_at pk' i = bit_at pk i) /\
    forall dst m, fits dst stride n ->
      exists dst', compact_rle orc junk dst h pk' mx mn m b off stride 2 = Some (mkrle dst' h pk' (Z.of_nat r)) /\
        updated dst dst' stride n (elt unp stride).
Proof. exact rle_roundtrip. Qed.
Print Assumptions c08_rle_roundtrip_partial.

Example c08_instance :
  let unp := [7; 7; 7; 7; 7; 9; 9; 3; 4; 4; 4; 4; 4] in
  words_ok unp /\ fits unp 1 13 /\ (forall j, (j < 13)%nat -> 3 <= elt unp 1 j <= 9) /\ 9 - 3 <= 2 ^ Z.of_nat 4 - 3 /\
  (forall k, 13%nat = S (S (S k)) -> elt unp 1 k = elt unp 1 (S k) -> elt unp 1 (S k) = elt unp 1 (S (S k))) /\
  option_map rle_ret (compact_rle x86 0 unp [] [0; 0; 0] 0 0 13 4 7 1 1) = Some 7.
Proof.
  cbv zeta. split; [repeat constructor; lia|]. split; [intros j Hj; cbn [length]; lia|].
  split. { intros j Hj. do 13 (destruct j as [|j]; [vm_compute; split; congruence|]). lia. }
  split; [vm_compute; congruence|]. split; [intros k Hk; injection Hk as <-; reflexivity|]. vm_compute. reflexivity.
Qed.

(** C08 refuted: the repeat of 5 is lost, the decoder returns [5; 6]. *)
Theorem c08_rle_pending_refuted : forall orc junk, exists h pk' dst',
  compact_rle orc junk [5; 5; 6] [] [0; 0] 0 0 3 4 0 1 1 = Some (mkrle [5; 5; 6] h pk' 2) /\
  compact_rle orc junk [0; 0; 0] h pk' 0 0 3 4 0 1 2 = Some (mkrle dst' h pk' 2) /\
  dst' = [5; 6; 0].
Proof.
  intros orc junk. exists [0xF0100000; 4 * 2 ^ 26 + 2; 5; 1], [0x01000000; 0], [5; 6; 0].
  split; [vm_compute; reflexivity|]. split; [vm_compute; reflexivity|reflexivity].
Qed.
Print Assumptions c08_rle_pending_refuted.

(** C09 refuted when the width leaves a single code above the range: the
    repeat counter passes the limit without being noticed and the token
    10 = 6 + 4 is written in 3 bits. The decoder stores only
    0 2 instead of 0 6 6 6 6. *)
Theorem c09_rle_overflow_refuted : forall orc junk, exists h pk' dst',
  compact_rle orc junk [0; 6; 6; 6; 6] [] [0; 0] 0 0 5 3 0 1 1 = Some (mkrle [0; 6; 6; 6; 6] h pk' 3) /\
  compact_rle orc junk [0; 0; 0; 0; 0] h pk' 0 0 5 3 0 1 2 = Some (mkrle dst' h pk' 3) /\
  dst' <> [0; 6; 6; 6; 6].
Proof.
  intros orc junk.
  destruct (compact_rle orc junk [0; 6; 6; 6; 6] [] [0; 0] 0 0 5 3 0 1 1) as [[u h p r]|] eqn:E; vm_compute in E; [|discriminate].
  injection E as <- <- <- <-.
  eexists _, _, _. split; [reflexivity|]. split; [vm_compute; reflexivity|discriminate].
Qed.
Print Assumptions c09_rle_overflow_refuted.
