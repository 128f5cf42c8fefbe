(** Model of /repo/src/compresseur/armn_compress_32.c: 1-bit run-length coding,
    masks, and compression of 32-bit IEEE fields. *)
From Coq Require Import ZArith List Lia Bool.
From Verif Require Import Bits BitIO CompactInt TileCodec ZfstLib.
Import ListNotations.
Open Scope Z_scope.
Open Scope opt_scope.

(** * 1-bit run-length coding *)

(** line 845: [while (ufld[indx] == ufld[last_indx] && indx < npts) indx++] *)
Fixpoint run_end (fuel : nat) (u : list Z) (npts last indx : nat) : option nat :=
  match fuel with
  | O => None
  | S f => a <- rd u indx ;; b <- rd u last ;;
           if (a =? b) && (indx <? npts)%nat then run_end f u npts last (S indx) else Some indx
  end.

(** lines 850-854 and 863-867: code 0, then at most 7 raw values *)
Definition seq_len (npts last : nat) : nat := if (npts <? last + 7)%nat then (npts - last)%nat else 7%nat.
Definition seq_tokens (u : list Z) (npts last : nat) : option (list (Z * nat)) :=
  vs <- gets u (seq last (seq_len npts last)) ;; Some ((0, 1%nat) :: map (fun v => (v, 1%nat)) vs).

(** lines 857-894: the codes of a run of [count] >= 8 equal values. Returns the
    tokens and the final last_indx. *)
Fixpoint rle1_inner (fuel : nat) (u : list Z) (npts count i : nat) (repeat : bool) (last : nat)
  : option (list (Z * nat) * nat) :=
  match fuel with
  | O => None
  | S f =>
    if (i <? count)%nat then
      let rem := (count - i)%nat in
      let lc := if (63 <=? rem)%nat then 62%nat else rem in
      if (lc <? 8)%nat then
        sq <- seq_tokens u npts last ;;
        '(t, l) <- rle1_inner f u npts count (i + lc) repeat (last + 7) ;; Some (sq ++ t, l)
      else if (lc =? 62)%nat then
        if (256 <? rem)%nat && repeat then
          '(t, l) <- rle1_inner f u npts count (i + 255) repeat (last + 255) ;; Some ((255, 8%nat) :: t, l)
        else
          v <- rd u last ;;
          '(t, l) <- rle1_inner f u npts count (i + lc) true (last + lc) ;;
          Some ((1, 1%nat) :: (v, 1%nat) :: (Z.of_nat lc, 6%nat) :: t, l)
      else
        v <- rd u last ;;
        '(t, l) <- rle1_inner f u npts count (i + lc) repeat (last + lc) ;;
        Some ((1, 1%nat) :: (v, 1%nat) :: (Z.of_nat lc, 6%nat) :: t, l)
    else Some ([], last)
  end.

(** lines 841-897; at the head of the loop indx = last_indx + 1. *)
Fixpoint rle1_outer (fuel : nat) (u : list Z) (npts last : nat) : option (list (Z * nat)) :=
  match fuel with
  | O => None
  | S f =>
    if (S last <=? npts)%nat then
      indx <- run_end (S npts) u npts last (S last) ;;
      let count := (indx - last)%nat in
      if (count <? 8)%nat then
        sq <- seq_tokens u npts last ;;
        t <- rle1_outer f u npts (last + 7) ;; Some (sq ++ t)
      else
        '(t1, l) <- rle1_inner (S count) u npts count 0 false last ;;
        t <- rle1_outer f u npts l ;; Some (t1 ++ t)
    else Some []
  end.

(** lines 825-905. [z] with start index [p]; returns the array and the index
    [q] of the final cur: *zlng = 1 + 4*(q - p). *)
Definition pack1bitRLE (orc : oracle) (z : list Z) (p : nat) (u : list Z) (npts : nat)
  : option (list Z * nat) :=
  toks <- rle1_outer (S npts) u npts 0 ;; pack_stream orc z p toks.

(** lines 908-964. [fuel] bounds the number of codes: every code takes at least
    one bit of [z]. *)
Fixpoint unrle1 (fuel : nat) (orc : oracle) (z : list Z) (npts i : nat) (last_val : Z) (s : rst)
  (arr : list Z) : option (list Z) :=
  match fuel with
  | O => None
  | S f =>
    if (i <? npts)%nat then
      '(ty, s1) <- extract orc z 1 s ;;
      if ty =? 0 then
        let limite := seq_len npts i in
        '(s2, a) <- dec_tile orc z 1 (fun t => t mod 2 ^ 8) (seq i limite) s1 arr ;;
        unrle1 f orc z npts (i + limite) last_val s2 a
      else
        '(v, s2) <- extract orc z 1 s1 ;;
        '(count, s3) <- extract orc z 6 s2 ;;
        if count =? 63 then
          a <- fill_tile (last_val mod 2 ^ 8) (seq i 255) arr ;;
          unrle1 f orc z npts (i + 255) last_val s3 a
        else
          a <- fill_tile (v mod 2 ^ 8) (seq i (Z.to_nat count)) arr ;;
          unrle1 f orc z npts (i + Z.to_nat count) v s3 a
    else Some arr
  end.
Definition unpack1bitRLE (orc : oracle) (arr : list Z) (z : list Z) (p npts : nat) : option (list Z) :=
  s <- rstart z p ;; unrle1 (S (32 * length z)) orc z npts 0 (2 ^ 32 - 1) s arr.

(** * Masks *)

(** lines 967-983: dest[p ..] *)
Fixpoint zero_words (n p : nat) (z : list Z) : option (list Z) :=
  match n with O => Some z | S n' => z' <- wr z p 0 ;; zero_words n' (S p) z' end.
Fixpoint mask_loop (n : nat) (i p : nat) (src z : list Z) : option (list Z) :=
  match n with
  | O => Some z
  | S n' => v <- rd src i ;; w <- rd z (p + i / 32) ;;
            z' <- wr z (p + i / 32) (Z.lor w ((Z.shiftl v (Z.of_nat (i mod 32))) mod 2 ^ 32)) ;;
            mask_loop n' (S i) p src z'
  end.
Definition compact_mask_char (z : list Z) (p : nat) (src : list Z) (npts : nat) : option (list Z) :=
  z1 <- zero_words (1 + npts / 32) p z ;; mask_loop npts 0 p src z1.

(** lines 986-996: [(src[entier] & (1 << fraction)) >> fraction], computed on
    unsigned int and stored in an int. *)
Fixpoint unmask_loop (n i : nat) (src dst : list Z) : option (list Z) :=
  match n with
  | O => Some dst
  | S n' => w <- rd src (i / 32) ;;
            d <- wr dst i (Z.shiftr (Z.land w (2 ^ Z.of_nat (i mod 32))) (Z.of_nat (i mod 32))) ;;
            unmask_loop n' (S i) src d
  end.
Definition uncompact_mask_char (dst src : list Z) (npts : nat) : option (list Z) := unmask_loop npts 0 src dst.

(** * Parallelogram coders *)

(** lines 640-744: exponents (unsigned char); lines 433-552: mantissas
    (unsigned int). [(float) local_max] is exact below 2^24, so that
    [(r_lmax.i >> 23) - 126] is the number of significant bits. *)
Definition nb8 (mx : Z) : nat :=
  if mx =? 0 then 0%nat else if mx <? 256 then fastlog mx else (8 + fastlog (Z.shiftr mx 8))%nat.
Definition pc8 : pcoder := mkpc (fun v => v) nb8 (fun nb => Z.to_nat (nb + 1)) (2 ^ 8).
Definition pc32 : pcoder := mkpc (fun v => s32 (v mod 2 ^ 32)) bitlen (fun nb => Z.to_nat (nb + 1)) (2 ^ 32).

Definition packTokensParallelogram_8 (orc : oracle) (z : list Z) (p : nat) (u : list Z) (ni nj nbits istep : nat)
  : option (list Z * nat) :=
  d <- diffs pc8 ni nj u ;;
  toks <- para_stream pc8 u d ni nj nbits istep 4 ;;
  pack_stream orc z p toks.

(** lines 501-545: the tiles with the check on the remaining space. The result
    [Some None] is the early return with *zlng = 0. *)
Fixpoint stuff_tiles32 (orc : oracle) (d : list Z) (nbits p : nat) (remaining : Z) (ts : list (list nat)) (s : wst)
  : option (option wst) :=
  match ts with
  | [] => Some (Some s)
  | ks :: r =>
    vals <- gets d ks ;;
    let nb := pc_nb pc32 (scan_abs_max vals) in
    s1 <- stuffs orc (para_tile_tokens pc32 5 vals) s ;;
    if negb (nb =? 0)%nat &&
       (remaining <? (Z.of_nat (w_ptr s1) - Z.of_nat p) + (1 + (Z.of_nat nb + 9 * Z.of_nat nbits) / 32))
    then Some None
    else stuff_tiles32 orc d nbits p remaining r s1
  end.

(** lines 433-552; the early return gives back the array as it stands, which
    callers ignore. *)
Definition packTokensParallelogram32 (orc : oracle) (z : list Z) (p : nat) (u : list Z) (ni nj istep nbits : nat)
  (remaining : Z) : option (option (list Z * nat)) :=
  d <- diffs pc32 ni nj u ;;
  z1 <- wr z p 0 ;;
  b <- gets u (border ni nj) ;;
  s1 <- stuffs orc ((5, istep) :: map (fun v => (v, nbits)) b) (mkw z1 p 0 32) ;;
  r <- stuff_tiles32 orc d nbits p remaining (tiles 2 istep ni nj) s1 ;;
  match r with
  | None => Some None
  | Some s2 => s3 <- stuffs orc [(0, 16%nat); (0, 16%nat)] s2 ;; Some (Some (w_mem s3, w_ptr s3))
  end.

(** * c_armn_compress32 *)
Definition PARALLELOGRAM32 := 5.
Definition MEME_SIGNE_POSITIF := 0x00.
Definition MEME_SIGNE_NEGATIF := 0x10.
Definition DIFF_SIGNE_PACKED := 0x20.
Definition DIFF_SIGNE_STREAM := 0x30.
Definition MEME_EXPOSANT := 0x00.
Definition DIFF_EXPOSANT_PACKED := 0x08.
Definition DIFF_EXPOSANT_STREAM := 0x0C.

Definition round4 (n : Z) : Z := if n mod 4 =? 0 then n else n + (4 - n mod 4).

(** lines 108-121 *)
Definition f_sign (w : Z) : Z := Z.shiftr w 31.
Definition f_exp (w : Z) : Z := Z.land (Z.shiftr w 23) 0xff.
Definition f_mant (nbits : nat) (w : Z) : Z :=
  let m := Z.land w 0x07fffff in
  if (nbits <? 23)%nat then Z.shiftr m (Z.of_nat (23 - nbits)) else m.

(** lines 161-197: the sign stream; its length goes to word 2 and the stream to
    word 3. Returns zstream, the index of the next free word, the code and the
    length. *)
Definition compress32_signs (orc : oracle) (z signe : list Z) (le_signe_or le_signe_and : Z) (npts : nat)
  : option (list Z * nat * Z * Z) :=
  if Z.shiftr le_signe_or 31 =? Z.shiftr le_signe_and 31 then
    Some (z, 2%nat, if Z.shiftr le_signe_or 31 =? 1 then MEME_SIGNE_NEGATIF else MEME_SIGNE_POSITIF, 0)
  else
    '(za, q) <- pack1bitRLE orc z 3 signe npts ;;
    let lng := 1 + 4 * Z.of_nat (q - 3) in
    '(zb, lng1, code) <-
      (if Z.of_nat npts / 4 <? lng then
         zb <- compact_mask_char za 3 signe npts ;; Some (zb, 1 + Z.of_nat npts / 32, DIFF_SIGNE_STREAM)
       else Some (za, lng, DIFF_SIGNE_PACKED)) ;;
    zc <- wr zb 2 (round4 lng1) ;;
    Some (zc, (3 + Z.to_nat (round4 lng1 / 4))%nat, code, round4 lng1).

(** lines 232-276: the mantissa stream at word p2 + 1, then the header. *)
Definition compress32_mantissa (orc : oracle) (z : list Z) (p2 : nat) (mantisse : list Z) (ni nj nbits znbits : nat)
  (exp_base : Z) (nbits_needed : nat) (lng_signe codes : Z) : option (Z * list Z) :=
  let remaining := Z.of_nat (ni * nj * znbits) / 32 - Z.of_nat (S p2) in
  r <- packTokensParallelogram32 orc z (S p2) mantisse ni nj 3 nbits remaining ;;
  match r with
  | None => Some (-1, [])
  | Some (za, q) =>
    let lng := round4 (1 + 4 * Z.of_nat (q - S p2)) in
    zb <- wr za p2 lng_signe ;;
    zc <- wr zb 0 (zip_header PARALLELOGRAM32 1 3 (Z.of_nat nbits) 1 2) ;;
    zd <- wr zc 1 (Z.lor (Z.lor (Z.shiftl (exp_base mod 2 ^ 8) 16) (Z.shiftl (Z.of_nat nbits_needed mod 2 ^ 8) 8)) codes) ;;
    Some (4 * Z.of_nat (S p2) + lng, zd)
  end.

(** lines 59-291. [gs]: the uninitialised second half of the array signe;
    [z]: zstream as 32-bit words; [fld]: the bit patterns of the field. The
    result is the return value and zstream; zstream is left out when the return
    value is -1, since callers ignore it.
    Simplification: defined for 10 <= znbits <= 32 only, and when ni*nj*nk and
    ni*nj*znbits fit in an int. *)
Definition compress32 (orc : oracle) (gs : list Z) (z fld : list Z) (ni nj nk znbits : nat)
  : option (Z * list Z) :=
  if (ni <? 16)%nat || (nj <? 16)%nat then Some (-1, [])
  else if (znbits <? 10)%nat || (32 <? znbits)%nat || (2 ^ 31 <=? Z.of_nat (ni * nj * nk) * 4)
       || (2 ^ 31 <=? Z.of_nat (ni * nj * znbits)) then None
  else
    let nbits := (znbits - 9)%nat in
    let npts := (ni * nj)%nat in
    if (length fld <? npts)%nat then None else
    let ws := firstn npts fld in
    let signe := map f_sign ws ++ gs in
    let mantisse := map (f_mant nbits) ws in
    let le_signe_or := fold_left Z.lor ws 0 in
    let le_signe_and := fold_left Z.land ws 0xFFFFFFFF in
    let '(exp_base, exp_max) := scan_min_max (map f_exp ws) in
    let exposant2 := map (fun e => (e - exp_base) mod 2 ^ 8) (map f_exp ws) in
    let nbits_needed := if exp_max - exp_base =? 0 then 0%nat else bitlen (exp_max - exp_base) in
    '(z1, p1, code_signe, lng_signe) <- compress32_signs orc z signe le_signe_or le_signe_and npts ;;
    (* exponent stream *)
    if (nbits_needed =? 0)%nat then
      compress32_mantissa orc z1 p1 mantisse ni nj nbits znbits exp_base nbits_needed lng_signe (Z.lor code_signe MEME_EXPOSANT)
    else
      '(za, q) <- packTokensParallelogram_8 orc z1 (S p1) exposant2 ni nj nbits_needed 3 ;;
      let lng := 1 + 4 * Z.of_nat (q - S p1) in
      if Z.of_nat npts <? lng then Some (-1, [])
      else
        zb <- wr za p1 (round4 lng) ;;
        compress32_mantissa orc zb (S p1 + Z.to_nat (round4 lng / 4)) mantisse ni nj nbits znbits exp_base nbits_needed
          lng_signe (Z.lor code_signe DIFF_EXPOSANT_PACKED).

(** * c_armn_uncompress32 *)

(** lines 391-422; [exposant2[i] << 23] and [signe[i] << 31] are int shifts,
    taken modulo 2^32 (as compilers do). *)
Definition join_float (code_signe s e m : Z) (nbits : nat) : Z :=
  let sg := if code_signe =? MEME_SIGNE_POSITIF then 0
            else if code_signe =? MEME_SIGNE_NEGATIF then 0x80000000
            else (Z.shiftl s 31) mod 2 ^ 32 in
  Z.lor (Z.lor sg ((Z.shiftl e 23) mod 2 ^ 32)) ((Z.shiftl m (Z.of_nat (23 - nbits))) mod 2 ^ 32).

Fixpoint join_loop (n i : nat) (code_signe : Z) (nbits : nat) (ss es ms fld : list Z) : option (list Z) :=
  match n with
  | O => Some fld
  | S n' => s <- rd ss i ;; e <- rd es i ;; m <- rd ms i ;;
            f <- wr fld i (join_float code_signe s e m nbits) ;;
            join_loop n' (S i) code_signe nbits ss es ms f
  end.

(** lines 353-370 *)
Definition uncompress32_signs (orc : oracle) (gs z : list Z) (code_signe : Z) (npts : nat) : option (list Z * nat) :=
  if (code_signe =? DIFF_SIGNE_PACKED) || (code_signe =? DIFF_SIGNE_STREAM) then
    lng <- rd z 2 ;;
    sg <- unpack1bitRLE orc gs z 3 npts ;;
    Some (sg, (3 + Z.to_nat (Z.shiftr lng 2))%nat)
  else
    sg <- fill_tile (if code_signe =? MEME_SIGNE_POSITIF then 0 else 1) (seq 0 npts) gs ;; Some (sg, 2%nat).

(** lines 372-387 *)
Definition uncompress32_exps (orc : oracle) (ge gt8 z : list Z) (p1 : nat) (code_exposant : Z) (ni nj nbits_needed : nat)
  (exp_min : Z) : option (list Z * nat) :=
  if (code_exposant =? DIFF_EXPOSANT_PACKED) || (code_exposant =? DIFF_EXPOSANT_STREAM) then
    lng <- rd z p1 ;;
    ex <- unpackTokensParallelogram orc pc8 ge gt8 z (S p1) ni nj nbits_needed 3 ;;
    vs <- gets ex (seq 0 (ni * nj)) ;;
    Some (map (fun e => (e + exp_min) mod 2 ^ 8) vs, (S p1 + Z.to_nat (Z.shiftr lng 2))%nat)
  else
    ex <- fill_tile (exp_min mod 2 ^ 8) (seq 0 (ni * nj)) ge ;; Some (ex, p1).

(** lines 300-431. [gs], [ge], [gm], [gt8], [gt32]: contents of the freshly
    allocated arrays signe, exposant2, mantisse and of the two scratch arrays.
    code_mantisse is always MANTISSE_PACKED = 0 (only value written, line 236). *)
Definition uncompress32 (orc : oracle) (gs ge gm gt8 gt32 : list Z) (fld z : list Z) (ni nj : nat)
  : option (Z * list Z) :=
  let npts := (ni * nj)%nat in
  hd <- rd z 0 ;; info <- rd z 1 ;;
  let exp_min := Z.shiftr info 16 in
  let nbits_needed := Z.land (Z.shiftr info 8) 0xff in
  let nbits := hdr_nbits hd in
  let codes := Z.land info 0xff in
  let code_signe := Z.land codes 0x30 in
  let code_exposant := Z.land codes 0xC in
  '(signe, p1) <- uncompress32_signs orc gs z code_signe npts ;;
  '(expo, p2) <- uncompress32_exps orc ge gt8 z p1 code_exposant ni nj (Z.to_nat nbits_needed) exp_min ;;
  _ <- rd z p2 ;;
  mant <- (if Z.land codes 0x3 =? 0 then unpackTokensParallelogram orc pc32 gm gt32 z (S p2) ni nj nbits 3 else None) ;;
  f <- join_loop npts 0 code_signe nbits signe expo mant fld ;;
  Some (Z.of_nat npts, f).
