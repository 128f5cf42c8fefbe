(** Properties C01-C07: integer packing. Vocabulary: SpecPack.v ([elt],
    [fits], [updated], [bit_at], [as_int]). The last argument of
    [compact_integer] is the opcode: 1/2 pack/unpack unsigned, 3/4 signed. *)
From Coq Require Import ZArith List Lia Bool.
From Verif Require Import Bits BitIO CompactInt CompactShort SpecPack.
From Verif Require Import CompactIntMain CompactIntMain2 CompactIntMain3.
Import ListNotations.
Open Scope Z_scope.

(** C01 *)
Theorem c01_unsigned_roundtrip : forall orc unp pk n b off stride,
  (1 <= b <= 32)%nat -> words_ok unp -> words_ok pk -> fits unp stride n -> (1 <= stride)%nat ->
  (off + n * b < 32 * length pk)%nat ->
  (forall j, (j < n)%nat -> elt unp stride j < 2 ^ Z.of_nat b) ->
  exists pk', compact_integer orc unp None pk n (Some b) off stride 1 = Some (mkci unp None pk' (Z.of_nat b)) /\
    forall dst, fits dst stride n ->
      exists dst', compact_integer orc dst None pk' n (Some b) off stride 2 = Some (mkci dst' None pk' (Z.of_nat b)) /\
        updated dst dst' stride n (elt unp stride).
Proof. exact unsigned_roundtrip. Qed.
Print Assumptions c01_unsigned_roundtrip.

Example c01_instance :
  let unp := [5; 99; 7; 99; 3; 99; 6] in
  words_ok unp /\ words_ok [1; 2; 3] /\ fits unp 2 4 /\ (43 + 4 * 3 < 32 * length [1; 2; 3])%nat /\
  (forall j, (j < 4)%nat -> elt unp 2 j < 2 ^ Z.of_nat 3).
Proof.
  cbv zeta. split; [repeat constructor; lia|]. split; [repeat constructor; lia|].
  split; [intros j Hj; cbn [length]; lia|]. split; [cbn [length]; lia|].
  intros j Hj. do 4 (destruct j as [|j]; [vm_compute; reflexivity|]). lia.
Qed.

(** C01, automatic width: the width that comes back is the smallest one that
    holds every element. *)
Theorem c01_unsigned_auto : forall orc unp pk n off stride,
  words_ok unp -> words_ok pk -> fits unp stride n -> (1 <= stride)%nat ->
  (off + n * 32 < 32 * length pk)%nat ->
  (exists j, (j < n)%nat /\ elt unp stride j <> 0) ->
  exists pk' r, (1 <= r <= 32)%nat /\
    compact_integer orc unp None pk n None off stride 1 = Some (mkci unp None pk' (Z.of_nat r)) /\
    (forall m, (forall j, (j < n)%nat -> elt unp stride j < 2 ^ Z.of_nat m) -> (r <= m)%nat) /\
    forall dst, fits dst stride n ->
      exists dst', compact_integer orc dst None pk' n (Some r) off stride 2 = Some (mkci dst' None pk' (Z.of_nat r)) /\
        updated dst dst' stride n (elt unp stride).
Proof. exact unsigned_auto_roundtrip. Qed.
Print Assumptions c01_unsigned_auto.

Example c01_auto_instance :
  option_map ci_pk (compact_integer x86 [5; 99; 1023] None [0; 0; 0; 0] 3 None 7 1 1)
  = option_map ci_pk (compact_integer x86 [5; 99; 1023] None [0; 0; 0; 0] 3 (Some 10%nat) 7 1 1) /\
  option_map ci_ret (compact_integer x86 [5; 99; 1023] None [0; 0; 0; 0] 3 None 7 1 1) = Some 10.
Proof. vm_compute. auto. Qed.

(** C02 *)
Theorem c02_signed_roundtrip : forall orc unp pk n b off stride,
  (1 <= b <= 32)%nat -> words_ok unp -> words_ok pk -> fits unp stride n -> (1 <= stride)%nat ->
  (off + n * b < 32 * length pk)%nat ->
  (forall j, (j < n)%nat -> - 2 ^ Z.of_nat (b - 1) <= as_int (elt unp stride j) < 2 ^ Z.of_nat (b - 1)) ->
  exists pk', compact_integer orc unp None pk n (Some b) off stride 3 = Some (mkci unp None pk' (Z.of_nat b)) /\
    forall dst, fits dst stride n ->
      exists dst', compact_integer orc dst None pk' n (Some b) off stride 4 = Some (mkci dst' None pk' (Z.of_nat b)) /\
        updated dst dst' stride n (elt unp stride).
Proof. exact signed_roundtrip. Qed.
Print Assumptions c02_signed_roundtrip.

Example c02_instance :
  let unp := [2 ^ 32 - 4; 3; 2 ^ 32 - 1] in
  words_ok unp /\ fits unp 1 3 /\ (9 + 3 * 3 < 32 * length [7])%nat /\
  (forall j, (j < 3)%nat -> - 2 ^ Z.of_nat (3 - 1) <= as_int (elt unp 1 j) < 2 ^ Z.of_nat (3 - 1)).
Proof.
  cbv zeta. split; [repeat constructor; lia|]. split; [intros j Hj; cbn [length]; lia|].
  split; [cbn [length]; lia|].
  intros j Hj. do 3 (destruct j as [|j]; [vm_compute; split; congruence|]). lia.
Qed.

(** The excluded value is INT_MIN, on which the code calls abs(). *)
Theorem c02_signed_auto : forall orc unp pk n off stride,
  words_ok unp -> words_ok pk -> fits unp stride n -> (1 <= stride)%nat -> (1 <= n)%nat ->
  (off + n * 32 < 32 * length pk)%nat ->
  (forall j, (j < n)%nat -> as_int (elt unp stride j) <> - 2 ^ 31) ->
  exists pk' r, (1 <= r <= 32)%nat /\
    compact_integer orc unp None pk n None off stride 3 = Some (mkci unp None pk' (Z.of_nat r)) /\
    forall dst, fits dst stride n ->
      exists dst', compact_integer orc dst None pk' n (Some r) off stride 4 = Some (mkci dst' None pk' (Z.of_nat r)) /\
        updated dst dst' stride n (elt unp stride).
Proof. exact signed_auto_roundtrip. Qed.
Print Assumptions c02_signed_auto.

(** C03: exact bits written, everything else untouched. *)
Theorem c03_pack_frame : forall orc signed unp pk n b off stride,
  (1 <= b <= 32)%nat -> words_ok unp -> words_ok pk -> fits unp stride n ->
  (off + n * b <= 32 * length pk)%nat ->
  exists pk', compact_integer orc unp None pk n (Some b) off stride (if signed : bool then 3 else 1)
              = Some (mkci unp None pk' (Z.of_nat b)) /\
    length pk' = length pk /\ words_ok pk' /\
    (forall i, (i < 32 * length pk)%nat -> (i < off \/ off + n * b <= i)%nat -> bit_at pk' i = bit_at pk i) /\
    (forall j k, (j < n)%nat -> (k < b)%nat ->
       bit_at pk' (off + j * b + k)
       = Z.testbit (if signed then as_int (elt unp stride j) + 2 ^ Z.of_nat (b - 1) else elt unp stride j)
                   (Z.of_nat (b - 1 - k))).
Proof. exact pack_frame. Qed.
Print Assumptions c03_pack_frame.

Example c03_instance :
  compact_integer x86 [0; 31; 0] None [2 ^ 32 - 1; 2 ^ 32 - 1] 3 (Some 5%nat) 25 1 1
  = Some (mkci [0; 31; 0] None [0xFFFFFF83; 0xE0FFFFFF] 5).
Proof. vm_compute. reflexivity. Qed.

(** C04 *)
Theorem c04_unsigned_modulo : forall orc unp pk n b off stride,
  (1 <= b <= 32)%nat -> words_ok unp -> words_ok pk -> fits unp stride n -> (1 <= stride)%nat ->
  (off + n * b < 32 * length pk)%nat ->
  exists pk', compact_integer orc unp None pk n (Some b) off stride 1 = Some (mkci unp None pk' (Z.of_nat b)) /\
    forall dst, fits dst stride n ->
      exists dst', compact_integer orc dst None pk' n (Some b) off stride 2 = Some (mkci dst' None pk' (Z.of_nat b)) /\
        updated dst dst' stride n (fun j => elt unp stride j mod 2 ^ Z.of_nat b).
Proof. exact unsigned_mod. Qed.
Print Assumptions c04_unsigned_modulo.

(** C05, fixed width: [s] is the smallest shift for which the range of the
    array fits in b bits (second conjunct), in particular 0 when the range
    already fits. *)
Theorem c05_header_fixed : forall orc signed unp pk n b off stride h0,
  (1 <= b <= 32)%nat -> words_ok unp -> words_ok pk -> fits unp stride n -> (1 <= stride)%nat ->
  (1 <= n)%nat -> Z.of_nat n < 2 ^ 32 -> (off + n * b < 32 * length pk)%nat ->
  let val j := if signed : bool then as_int (elt unp stride j) else elt unp stride j in
  exists pk' h s jmn jmx, (jmn < n)%nat /\ (jmx < n)%nat /\
    (forall j, (j < n)%nat -> val jmn <= val j <= val jmx) /\
    (val jmx - val jmn < 2 ^ Z.of_nat (b + s) /\ (s = 0%nat \/ 2 ^ Z.of_nat (b + s - 1) <= val jmx - val jmn)) /\
    h = [0xFD000000 + Z.of_nat s * 64 + Z.of_nat b; Z.of_nat n; elt unp stride jmn; elt unp stride jmx] /\
    compact_integer orc unp (Some h0) pk n (Some b) off stride (if signed then 3 else 1)
      = Some (mkci unp (Some h) pk' (Z.of_nat b)) /\
    forall dst cnt, fits dst stride n ->
      exists dst', compact_integer orc dst (Some h) pk' cnt (Some b) off stride (if signed then 4 else 2)
                   = Some (mkci dst' (Some h) pk' (Z.of_nat b)) /\
        updated dst dst' stride n
          (fun j => (val jmn + (val j - val jmn) / 2 ^ Z.of_nat s * 2 ^ Z.of_nat s) mod 2 ^ 32).
Proof. exact hdr_fixed. Qed.
Print Assumptions c05_header_fixed.

Example c05_instance :
  let r := compact_integer x86 [1000; 1015; 2000] (Some [0; 0; 0; 0]) [0; 0] 3 (Some 6%nat) 5 1 1 in
  option_map ci_hdr r = Some (Some [0xFD000000 + 4 * 64 + 6; 3; 1000; 2000]) /\
  match r with
  | Some (mkci _ h pk _) => option_map ci_unp (compact_integer x86 [9; 9; 9] h pk 0 (Some 6%nat) 5 1 2)
  | None => None
  end = Some [1000; 1000; 1992].
Proof. vm_compute. auto. Qed.

(** C05, automatic width, on machines where [x >> 33] shifts by 1 (x86).
    Two exclusions: a constant array, and a range of 2^31 or more at an
    unaligned offset. Both are refuted below. *)
Theorem c05_header_auto_partial : forall orc signed unp pk n off stride h0,
  (forall x, orc false x 33%nat = x86 false x 33%nat) ->
  words_ok unp -> words_ok pk -> fits unp stride n -> (1 <= stride)%nat ->
  (1 <= n)%nat -> Z.of_nat n < 2 ^ 32 -> (off + n * 32 < 32 * length pk)%nat ->
  let val j := if signed : bool then as_int (elt unp stride j) else elt unp stride j in
  (exists i j, (i < n)%nat /\ (j < n)%nat /\ val i <> val j) ->
  (off mod 32 = 0)%nat \/ (forall i j, (i < n)%nat -> (j < n)%nat -> val i - val j < 2 ^ 31) ->
  exists pk' h r, (1 <= r <= 32)%nat /\
    compact_integer orc unp (Some h0) pk n None off stride (if signed then 3 else 1)
      = Some (mkci unp (Some h) pk' (Z.of_nat r)) /\
    forall dst cnt, fits dst stride n ->
      exists dst', compact_integer orc dst (Some h) pk' cnt None off stride (if signed then 4 else 2)
                   = Some (mkci dst' (Some h) pk' (-1)) /\
        updated dst dst' stride n (elt unp stride).
Proof. exact hdr_auto. Qed.
Print Assumptions c05_header_auto_partial.

(** Constant array: 0-bit tokens, and the reader returns the whole word. *)
Theorem c05_header_auto_constant_refuted : exists unp pk h pk' dst',
  unp = [5; 5] /\
  compact_integer x86 unp (Some [0; 0; 0; 0]) pk 2 None 0 1 1 = Some (mkci unp (Some h) pk' 0) /\
  compact_integer x86 [0; 0] (Some h) pk' 2 None 0 1 2 = Some (mkci dst' (Some h) pk' (-1)) /\
  dst' <> unp.
Proof.
  exists [5; 5], [7; 7], [0xFD000000; 2; 5; 5], [7; 7], [12; 12].
  split; [reflexivity|]. split; [vm_compute; reflexivity|]. split; [vm_compute; reflexivity|discriminate].
Qed.

(** Full 32-bit range at an unaligned offset: the top bit is masked away. *)
Theorem c05_header_auto_wide_refuted : exists unp pk h pk' dst',
  unp = [0; 2 ^ 32 - 1] /\
  compact_integer x86 unp (Some [0; 0; 0; 0]) pk 2 None 1 1 1 = Some (mkci unp (Some h) pk' 32) /\
  compact_integer x86 [0; 0] (Some h) pk' 2 None 1 1 2 = Some (mkci dst' (Some h) pk' (-1)) /\
  dst' <> unp.
Proof.
  exists [0; 2 ^ 32 - 1], [0; 0; 0; 0], [0xFD000020; 2; 0; 2 ^ 32 - 1], [0; 0x3FFFFFFF; 0x80000000; 0], [0; 2 ^ 31 - 1].
  split; [reflexivity|]. split; [vm_compute; reflexivity|]. split; [vm_compute; reflexivity|discriminate].
Qed.

(** C06: the unpacked values are functions of the requested bits only, and
    nothing past the word that follows the last requested bit is read. *)
Theorem c06_unpack_value : forall orc signed dst pk n b off stride,
  (1 <= b <= 32)%nat -> words_ok pk -> fits dst stride n -> (1 <= stride)%nat ->
  (off + n * b < 32 * length pk)%nat ->
  exists dst', compact_integer orc dst None pk n (Some b) off stride (if signed : bool then 4 else 2)
               = Some (mkci dst' None pk (Z.of_nat b)) /\
    updated dst dst' stride n (fun j =>
      (val_of (map (bit_at pk) (seq (off + j * b) b)) - (if signed then 2 ^ Z.of_nat (b - 1) else 0)) mod 2 ^ 32).
Proof. exact unpack_value. Qed.
Print Assumptions c06_unpack_value.

(** C06 refuted: whenever the last requested bit is the last bit of the array
    the unpacker reads one word past its end. *)
Theorem c06_footprint_refuted : forall orc signed dst pk n b off stride,
  (1 <= b <= 32)%nat -> words_ok pk -> (1 <= n)%nat -> (off + n * b = 32 * length pk)%nat ->
  compact_integer orc dst None pk n (Some b) off stride (if signed : bool then 4 else 2) = None.
Proof. exact unpack_overread. Qed.
Print Assumptions c06_footprint_refuted.

Example c06_instance :
  words_ok [1; 2] /\ (0 + 8 * 8 = 32 * length [1; 2])%nat /\
  compact_integer x86 [0; 0; 0; 0; 0; 0; 0; 0] None [1; 2; 77] 8 (Some 8%nat) 0 1 2
  = Some (mkci [0; 0; 0; 1; 0; 0; 0; 2] None [1; 2; 77] 8).
Proof. split; [repeat constructor; lia|]. split; [reflexivity|]. vm_compute. reflexivity. Qed.

(** C07, without header. *)
Theorem c07_short_roundtrip : forall orc unp pk n b off stride,
  (1 <= b <= 32)%nat -> Forall (fun v => 0 <= v < 2 ^ 16) unp -> words_ok pk -> fits unp stride n ->
  (1 <= stride)%nat -> (off + n * b < 32 * length pk)%nat ->
  exists pk', compact_short orc unp None pk n (Some b) off stride 5 = Some (mkci unp None pk' (Z.of_nat b)) /\
    length pk' = length pk /\ words_ok pk' /\
    (forall i, (i < 32 * length pk)%nat -> (i < off \/ off + n * b <= i)%nat -> bit_at pk' i = bit_at pk i) /\
    forall dst, fits dst stride n ->
      exists dst', compact_short orc dst None pk' n (Some b) off stride 6 = Some (mkci dst' None pk' (Z.of_nat b)) /\
        updated dst dst' stride n (fun j => elt unp stride j mod 2 ^ Z.of_nat b).
Proof.
  exact (fun orc unp pk n b off stride =>
    small_roundtrip 16 5 6 orc unp pk n b off stride ltac:(lia) ltac:(discriminate)).
Qed.
Print Assumptions c07_short_roundtrip.

Theorem c07_char_roundtrip : forall orc unp pk n b off stride,
  (1 <= b <= 32)%nat -> Forall (fun v => 0 <= v < 2 ^ 8) unp -> words_ok pk -> fits unp stride n ->
  (1 <= stride)%nat -> (off + n * b < 32 * length pk)%nat ->
  exists pk', compact_char orc unp None pk n (Some b) off stride 9 = Some (mkci unp None pk' (Z.of_nat b)) /\
    length pk' = length pk /\ words_ok pk' /\
    (forall i, (i < 32 * length pk)%nat -> (i < off \/ off + n * b <= i)%nat -> bit_at pk' i = bit_at pk i) /\
    forall dst, fits dst stride n ->
      exists dst', compact_char orc dst None pk' n (Some b) off stride 10 = Some (mkci dst' None pk' (Z.of_nat b)) /\
        updated dst dst' stride n (fun j => elt unp stride j mod 2 ^ Z.of_nat b).
Proof.
  exact (fun orc unp pk n b off stride =>
    small_roundtrip 8 9 10 orc unp pk n b off stride ltac:(lia) ltac:(discriminate)).
Qed.
Print Assumptions c07_char_roundtrip.

Example c07_instance :
  compact_short x86 [0; 0; 0] None [0x0000FFFF; 0x00050000; 0] 3 (Some 16%nat) 0 1 6
  = Some (mkci [0; 65535; 5] None [0x0000FFFF; 0x00050000; 0] 16).
Proof. vm_compute. reflexivity. Qed.

(** C07, with header: refuted. The range 200..201 fits in 4 bits, but the
    minimum is not subtracted, so the tokens are truncated. *)
Theorem c07_short_header_refuted : forall orc, exists unp pk h pk' dst',
  unp = [200; 201] /\
  compact_short orc unp (Some [0; 0; 0; 0]) pk 2 (Some 4%nat) 0 1 5 = Some (mkci unp (Some h) pk' 4) /\
  compact_short orc [0; 0] (Some h) pk' 2 (Some 4%nat) 0 1 6 = Some (mkci dst' (Some h) pk' 4) /\
  dst' <> unp.
Proof.
  intros orc. exists [200; 201], [0; 0], [0xFD000004; 2; 200; 201], [0x89000000; 0], [8; 9].
  split; [reflexivity|]. split; [vm_compute; reflexivity|]. split; [vm_compute; reflexivity|discriminate].
Qed.
Print Assumptions c07_short_header_refuted.

Theorem c07_char_header_refuted : forall orc, exists unp pk h pk' dst',
  unp = [200; 201] /\
  compact_char orc unp (Some [0; 0; 0; 0]) pk 2 (Some 4%nat) 0 1 9 = Some (mkci unp (Some h) pk' 4) /\
  compact_char orc [0; 0] (Some h) pk' 2 (Some 4%nat) 0 1 10 = Some (mkci dst' (Some h) pk' 4) /\
  dst' <> unp.
Proof.
  intros orc. exists [200; 201], [0; 0], [0xFD000004; 2; 200; 201], [0x89000000; 0], [8; 9].
  split; [reflexivity|]. split; [vm_compute; reflexivity|]. split; [vm_compute; reflexivity|discriminate].
Qed.
Print Assumptions c07_char_header_refuted.
