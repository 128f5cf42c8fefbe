(** Model of armn_compress, c_fstzip and c_fstunzip
    (/repo/src/compresseur/c_zfstlib.c lines 70-311), on a little-endian
    machine (Little_Endian defined). *)
From Coq Require Import ZArith List Lia Bool.
From Verif Require Import Bits BitIO CompactInt TileCodec.
Import ListNotations.
Open Scope Z_scope.
Open Scope opt_scope.

(** [(w >> 16) | (w << 16)] on unsigned int: lines 129, 146, 170, 200 *)
Definition swap16 (w : Z) : Z := Z.lor (Z.shiftr w 16) ((Z.shiftl w 16) mod 2 ^ 32).

(** The loops [for (i = 0; i < limite; i++) us_fld[i] = swap(us_fld[i])]. *)
Fixpoint swap_loop (n : nat) (l : list Z) : option (list Z) :=
  match n, l with
  | O, _ => Some l
  | S n', w :: r => r' <- swap_loop n' r ;; Some (swap16 w :: r')
  | S _, [] => None
  end.

(** A little-endian array of words seen as unsigned shorts, and back. *)
Definition halves (ws : list Z) : list Z := flat_map (fun w => [w mod 2 ^ 16; w / 2 ^ 16]) ws.
Fixpoint words_of (hs : list Z) : list Z :=
  match hs with lo :: hi :: r => lo + hi * 2 ^ 16 :: words_of r | _ => [] end.

(** zfstlib.h lines 49-55, little-endian layout of _fstzip. *)
Definition zip_header (predictor degree step nbits levels version : Z) : Z :=
  predictor + degree * 2 ^ 4 + step * 2 ^ 7 + nbits * 2 ^ 10 + levels * 2 ^ 15 + version * 2 ^ 18.
Definition hdr_predictor (h : Z) : Z := h mod 2 ^ 4.
Definition hdr_step (h : Z) : nat := Z.to_nat ((h / 2 ^ 7) mod 2 ^ 3).
Definition hdr_nbits (h : Z) : nat := Z.to_nat ((h / 2 ^ 10) mod 2 ^ 5).

Definition MINIMUM := 3.
Definition PARALLELOGRAM := 4.

(** c_fstzip lines 211-262 for the two methods armn_compress uses (lines 138
    and 162). *)
Definition fstzip_minimum orc z u ni nj nbits :=
  packTokensMinimum orc z u ni nj nbits 5 (zip_header MINIMUM 0 5 (Z.of_nat nbits) 1 0).
Definition fstzip_parallelogram orc z u ni nj nbits :=
  packTokensParallelogram orc z u ni nj nbits 3 (zip_header PARALLELOGRAM 1 3 (Z.of_nat nbits) 1 0).

(** memcpy(fld, z, 1 + 4*p): the first p words and the low byte of the next. *)
Definition copy_bytes (fld z : list Z) (p : nat) : option (list Z) :=
  if (p <=? length z)%nat && (p <=? length fld)%nat then
    a <- rd fld p ;; b <- rd z p ;;
    Some (firstn p z ++ (a - a mod 2 ^ 8 + b mod 2 ^ 8) :: skipn (S p) fld)
  else None.

(** armn_compress with op_code COMPRESS: lines 113-184.
    [fast]: fstcompression_level = 0; [swap]: swapStream = 1; [g]: the contents
    of the freshly allocated output array (ni*nj*nk words).
    [None]: undefined behaviour (out-of-bounds access, int overflow of
    ni*nj*nk*16). The result is the return value and the caller's array. *)
Definition armn_compress (orc : oracle) (fast swap : bool) (g : list Z) (fld : list Z)
  (ni nj nk nbits : nat) : option (Z * list Z) :=
  if (16 <? nbits)%nat || (ni =? 1)%nat || (nj =? 1)%nat then Some (-1, fld)
  else if 2 ^ 31 <=? Z.of_nat (ni * nj * nk) * 16 then None
  else
    let limite := ((1 + ni * nj) / 2)%nat in
    f1 <- (if swap then swap_loop limite fld else Some fld) ;;
    '(z, p) <- (if fast || (ni <? 16)%nat || (nj <? 16)%nat || (nbits <=? 4)%nat
                then fstzip_minimum orc g (halves f1) ni nj nbits
                else fstzip_parallelogram orc g (halves f1) ni nj nbits) ;;
    let zlng := 1 + 4 * Z.of_nat p in
    if 1 + 2 * Z.of_nat (ni * nj * nk) <=? zlng then
      f2 <- (if swap then swap_loop limite f1 else Some f1) ;; Some (-1, f2)
    else
      f2 <- copy_bytes f1 z p ;; Some (zlng, f2).

(** c_fstunzip lines 265-296; SAMPLE (never produced, line 239) and unknown
    predictors are not modelled. *)
Definition fstunzip (orc : oracle) (u tmp : list Z) (z : list Z) (ni nj : nat) : option (list Z) :=
  h <- rd z 0 ;;
  if hdr_predictor h =? MINIMUM then unpackTokensMinimum orc u z ni nj (hdr_nbits h) (hdr_step h)
  else if hdr_predictor h =? PARALLELOGRAM then
    unpackTokensParallelogram orc pc16 u tmp z 1 ni nj (hdr_nbits h) (hdr_step h)
  else None.

(** armn_compress with op_code UNCOMPRESS: lines 187-206. [g16]: contents of
    the freshly allocated array of 2*ni*nj unsigned shorts, [gt]: contents of
    the scratch array of unpackTokensParallelogram. *)
Definition armn_uncompress (orc : oracle) (swap : bool) (g16 gt : list Z) (fld : list Z)
  (ni nj nk nbits : nat) : option (Z * list Z) :=
  if (16 <? nbits)%nat || (ni =? 1)%nat || (nj =? 1)%nat
  then Some (1 + Z.of_nat (ni * nj * nk * nbits) / 8, fld)
  else
    u <- fstunzip orc g16 gt fld ni nj ;;
    let m := (1 + ni * nj / 2)%nat in
    if (length (words_of u) <? m)%nat || (length fld <? m)%nat then None
    else
      let f1 := firstn m (words_of u) ++ skipn m fld in
      f2 <- (if swap then swap_loop ((1 + ni * nj) / 2) f1 else Some f1) ;;
      Some (Z.of_nat (ni * nj) * 2, f2).
