(** Vocabulary of the report properties. *)
From Coq Require Import ZArith List Bool.
From Verif Require Import Bits BitIO SpecPack Xdf XdfKeys XdfBuf Burp.
Import ListNotations.
Open Scope Z_scope.

(** A block: dimensions, family, type, bits per value, data type, element
    codes, values (32-bit words; all ones: missing). *)
Record block := mkblk { bk_nele : nat; bk_nval : nat; bk_nt : nat; bk_bfam : Z; bk_btyp : Z; bk_nbit : nat; bk_datyp : Z; bk_codes : list Z; bk_vals : list Z }.
Definition bk_size (k : block) : nat := (bk_nele k * bk_nval k * bk_nt k)%nat.

(** The report contains the blocks [ks]: mrbprm and mrbxtr give the parameters
    and the contents of each, and leave the rest of the arrays as it was. *)
Definition shows (orc : oracle) (r : report) (ks : list block) : Prop :=
  r_nblk r = length ks /\
  forall i k, nth_error ks i = Some k ->
    (exists bit0, mrbprm orc 1 r (S i) = Some (0, mkprm (bk_nele k, bk_nval k, bk_nt k) (bk_bfam k) (bk_btyp k) (Z.of_nat (bk_nbit k)) bit0 (bk_datyp k))) /\
    length (bk_codes k) = bk_nele k /\
    forall lst tbl, (bk_nele k <= length lst)%nat -> (length (bk_vals k) <= length tbl)%nat ->
      mrbxtr orc 1 r (S i) lst tbl = Some (0, bk_codes k ++ skipn (bk_nele k) lst, bk_vals k ++ skipn (length (bk_vals k)) tbl).

(** ** What a block added becomes *)

(** Values that are not missing, as signed integers; the largest magnitude;
    bits for magnitudes up to [m], all ones being kept for missing values. *)
Definition present (vals : list Z) : list Z := filter (fun v => negb (v =? -1)) (map as_int vals).
Definition largest (l : list Z) : Z := fold_right Z.max 0 (map Z.abs l).
Definition width (m : Z) : nat := Z.to_nat (Z.log2 (m + 1) + 1).
(** Bits per value and data type kept for a block. [None]: the values cannot be
    packed. *)
Definition stored_bits (nbit : nat) (datyp : Z) (vals : list Z) : option (nat * Z) :=
  if (datyp =? 2) && (nbit =? 32)%nat then Some (nbit, datyp)
  else if 5 <? datyp then Some (32%nat, datyp)
  else if (datyp =? 3) || (datyp =? 5) then Some (8%nat, datyp)
  else match present vals with
       | [] => Some (nbit, datyp)
       | l =>
         let w := width (largest l) in
         if existsb (fun v => v <? 0) l || (datyp =? 4) then
           if (S w <=? 31)%nat then Some (Nat.max nbit (S w), 4) else None
         else Some (Nat.max nbit (Nat.min 32 w), datyp)
       end.
(** Words given by the caller that are kept: the values; for the data types that
    are not packed, the words that hold them, in even number. *)
Definition packed (datyp : Z) : bool := (datyp =? 2) || (datyp =? 4).
Definition kept (datyp : Z) (n nbit : nat) (tbl : list Z) : list Z :=
  if packed datyp then firstn n tbl
  else if datyp =? 5 then map upcase (firstn (2 * ((n * nbit + 63) / 64)) tbl)
  else firstn (2 * ((n * nbit + 63) / 64)) tbl.
(** Words read from the caller's array. *)
Definition needs (datyp : Z) (n nbit : nat) : nat := if packed datyp then n else (2 * ((n * nbit + 63) / 64))%nat.

(** Codes that the elements of types 7, 8 and 9 must have: 055204, ... *)
Definition code_at (datyp : Z) (j : nat) : option Z :=
  if datyp =? 7 then (if Nat.odd j then Some 14284 else None)
  else if datyp =? 8 then (if Nat.odd j then Some 14285 else None)
  else if datyp =? 9 then nth (j mod 4) [None; Some 14284; Some 14286; Some 14287] None
  else None.
Definition full_codes (datyp : Z) (nele : nat) (lst : list Z) : list Z :=
  map (fun j => match code_at datyp j with Some c => c | None => nth j lst 0 end) (seq 0 nele).
Definition codes_ok (datyp : Z) (nele : nat) (lst : list Z) : Prop :=
  (forall j, (j < nele)%nat -> 0 <= nth j lst 0 < 2 ^ 16) /\
  (forall j c, (j < nele)%nat -> code_at datyp j = Some c -> nth j lst 0 = 0 \/ nth j lst 0 = c) /\
  (datyp = 7 \/ datyp = 8 -> (nele mod 2 = 0)%nat) /\ (datyp = 9 -> (nele mod 4 = 0)%nat).

(** The family, with the description in its upper bits. *)
Definition family (bfam bdesc : Z) : option Z :=
  if bdesc =? 0 then Some (bfam mod 2 ^ 12)
  else if ((bfam / 64) mod 64 =? 0) || ((bfam / 64) mod 64 =? bdesc) then Some (bdesc mod 64 * 64 + bfam mod 64) else None.

(** Arguments of mrbadd. The list has at least three words, which are read even
    when there are fewer elements. *)
Definition acceptable (nele nval nt : nat) (btyp : Z) (nbit : nat) (datyp : Z) (lst tbl : list Z) : Prop :=
  (1 <= nele)%nat /\ (1 <= nval)%nat /\ (1 <= nt)%nat /\ Z.of_nat nele < 2 ^ 16 /\ Z.of_nat nval < 2 ^ 16 /\ Z.of_nat nt < 2 ^ 16 /\ 0 <= btyp < 2 ^ 15 /\
  (1 <= nbit <= 32)%nat /\ 2 <= datyp <= 9 /\ (datyp = 3 \/ datyp = 5 -> nbit = 8%nat) /\
  (3 <= length lst)%nat /\ (nele <= length lst)%nat /\ codes_ok datyp nele lst /\ words_ok tbl.
Definition new_block (nele nval nt : nat) (bfam bdesc btyp : Z) (nbit : nat) (datyp : Z) (lst tbl : list Z) : option block :=
  match stored_bits nbit datyp (firstn (nele * nval * nt) tbl), family bfam bdesc with
  | Some (nb, dt), Some fam => Some (mkblk nele nval nt fam btyp nb dt (full_codes datyp nele lst) (kept dt (nele * nval * nt) nb tbl))
  | _, _ => None
  end.
(** The block with other values. *)
Definition with_vals (k : block) (tbl : list Z) : option block :=
  match stored_bits (bk_nbit k) (bk_datyp k) (firstn (bk_size k) tbl) with
  | Some (nb, dt) => Some (mkblk (bk_nele k) (bk_nval k) (bk_nt k) (bk_bfam k) (bk_btyp k) nb dt (bk_codes k) (kept dt (bk_size k) nb tbl))
  | None => None
  end.

(** ** Room *)

(** Words of a block after its header of four words: elements listed (the
    first three are in the header of blocks that are not large), values. *)
Definition large (k : block) : bool := (127 <=? bk_nele k)%nat || (256 <=? bk_nval k)%nat || (256 <=? bk_nt k)%nat.
Definition even_words (bits : nat) : nat := (2 * ((bits + 63) / 64))%nat.
Definition bk_words (k : block) : nat :=
  (even_words (16 * (if large k then bk_nele k else bk_nele k - 3)) + even_words (bk_size k * bk_nbit k))%nat.
(** Words of all the blocks, without their headers. *)
Definition total_words (ks : list block) : nat := fold_right (fun k n => (bk_words k + n)%nat) O ks.
(** The report fits in its buffer, with one word to spare, and the blocks can be
    addressed. *)
Definition room (r : report) (ks : list block) : Prop :=
  (10 + 4 * length ks + total_words ks < length (b_data (r_b r)))%nat /\ Z.of_nat (total_words ks) < 2 ^ 21.

(** ** Block searches *)
Definition fits_type (btyp t : Z) : bool :=
  (btyp =? -1) ||
  ((Z.testbit btyp 28 || (btyp mod 16 =? t mod 16)) && (Z.testbit btyp 29 || ((btyp / 16) mod 128 =? (t / 16) mod 128)) &&
   (Z.testbit btyp 30 || ((btyp / 2048) mod 16 =? (t / 2048) mod 16))).
