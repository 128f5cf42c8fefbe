(** Model of the tile coders of /repo/src/compresseur/c_zfstlib.c
    (packTokensMinimum, packTokensParallelogram and their inverses) and
    /repo/src/compresseur/armn_compress_32.c (packTokensParallelogram_8,
    packTokensParallelogram32 and their inverses). *)
From Coq Require Import ZArith List Lia Bool.
From Verif Require Import Bits BitIO CompactInt.
Import ListNotations.
Open Scope Z_scope.
Open Scope opt_scope.

(** zfstlib.h line 26: FTN2C(i, j, ni), with i, j >= 1. *)
Definition ftn2c (i j ni : nat) : nat := (ni * (j - 1) + i - 1)%nat.

(** [for (x = start; x <= lim; x += step)]; [fuel] bounds the number of
    iterations, [lim] iterations are enough when start, step >= 1. *)
Fixpoint upto (fuel x step lim : nat) : list nat :=
  match fuel with
  | O => []
  | S f => if (x <=? lim)%nat then x :: upto f (x + step) step lim else []
  end.

(** lcl_m = ((i + istep - 1) >= ni ? ni - i : istep - 1), e.g. c_zfstlib.c
    lines 499 and 508. *)
Definition lcl (x step lim : nat) : nat :=
  if (lim <=? x + step - 1)%nat then (lim - x)%nat else (step - 1)%nat.

(** The indices visited by the loops on n and m inside the tile that starts at
    (i, j), e.g. c_zfstlib.c lines 509-512. *)
Definition tile (step ni nj j i : nat) : list nat :=
  flat_map (fun n => map (fun m => ftn2c (i + m) (j + n) ni) (seq 0 (S (lcl i step ni))))
           (seq 0 (S (lcl j step nj))).

(** The tiles in the order of the loops on j and i, e.g. c_zfstlib.c lines
    497-501 (start = 1) and 715-717 (start = 2). *)
Definition tiles (start step ni nj : nat) : list (list nat) :=
  flat_map (fun j => map (tile step ni nj j) (upto ni start step ni)) (upto nj start step nj).

(** Bounds-checked reads of several cells. *)
Fixpoint gets (a : list Z) (ks : list nat) : option (list Z) :=
  match ks with
  | [] => Some []
  | k :: r => x <- rd a k ;; xs <- gets a r ;; Some (x :: xs)
  end.

(** fastlog[i] = (int)(1 + log(i + 0.5) / log(2)) for 0 <= i < 256
    (c_zfstlib.c lines 105-111), read as the exact integer function
    "number of significant bits". Simplification: the floating point
    evaluation of the logarithm is not modelled. *)
Definition fastlog (i : Z) : nat := bitlen i.

(** c_zfstlib.c lines 518-532 *)
Definition nbits_min (var : Z) : nat :=
  let n := if var =? 0 then 0%nat
           else if var <? 256 then fastlog var else (8 + fastlog (Z.shiftr var 8))%nat in
  if (n =? 16)%nat then 15%nat else n.

(** c_zfstlib.c lines 503-516: the scan starts with the first point. *)
Definition scan_min_max (l : list Z) : Z * Z :=
  match l with
  | [] => (0, 0)
  | x :: _ => fold_left (fun '(mn, mx) v => (if v <? mn then v else mn, if mx <? v then v else mx)) l (x, x)
  end.

(** The tokens of one tile: c_zfstlib.c lines 533-564. *)
Definition min_tile_tokens (nbits : nat) (vals : list Z) : list (Z * nat) :=
  let '(mn, mx) := scan_min_max vals in
  let nb := nbits_min (mx - mn) in
  (Z.of_nat nb, 4%nat) ::
  (if (nb =? 0)%nat then [(mn, nbits)]
   else if (nb =? 15)%nat then map (fun v => (v, 16%nat)) vals
   else (mn, nbits) :: map (fun v => (v - mn, nb)) vals).

Fixpoint min_tokens (nbits : nat) (u : list Z) (ts : list (list nat)) : option (list (Z * nat)) :=
  match ts with
  | [] => Some []
  | ks :: r => vals <- gets u ks ;; l <- min_tokens nbits u r ;;
               Some (min_tile_tokens nbits vals ++ l)
  end.

(** Writes a token stream at word [p] of [z]: [*cur = 0], the tokens, then two
    16-bit zero tokens. Returns the array and the final [cur] (an index).
    E.g. c_zfstlib.c lines 495-496 and 569-573. *)
Definition pack_stream (orc : oracle) (z : list Z) (p : nat) (toks : list (Z * nat))
  : option (list Z * nat) :=
  z' <- wr z p 0 ;;
  s <- stuffs orc (toks ++ [(0, 16%nat); (0, 16%nat)]) (mkw z' p 0 32) ;;
  Some (w_mem s, w_ptr s).

(** c_zfstlib.c lines 464-588. The debugging histogram is left out. *)
Definition packTokensMinimum (orc : oracle) (z : list Z) (u : list Z) (ni nj nbits istep : nat)
  (header : Z) : option (list Z * nat) :=
  z1 <- wr z 0 header ;;
  toks <- min_tokens nbits u (tiles 1 istep ni nj) ;;
  pack_stream orc z1 1 toks.

(** Reading one tile: a value from the stream for each cell ... *)
Fixpoint dec_tile (orc : oracle) (mem : list Z) (b : nat) (f : Z -> Z) (ks : list nat)
  (s : rst) (arr : list Z) : option (rst * list Z) :=
  match ks with
  | [] => Some (s, arr)
  | k :: r => '(t, s1) <- extract orc mem b s ;; a <- wr arr k (f t) ;; dec_tile orc mem b f r s1 a
  end.
(** ... or the same value in each cell. *)
Fixpoint fill_tile (v : Z) (ks : list nat) (arr : list Z) : option (list Z) :=
  match ks with
  | [] => Some arr
  | k :: r => a <- wr arr k v ;; fill_tile v r a
  end.

(** c_zfstlib.c lines 610-643: stores into unsigned short are modulo 2^16. *)
Definition min_dec_tile (orc : oracle) (mem : list Z) (nbits : nat) (ks : list nat)
  (s : rst) (arr : list Z) : option (rst * list Z) :=
  '(nb, s1) <- extract orc mem 4 s ;;
  if nb =? 0 then
    '(mn, s2) <- extract orc mem nbits s1 ;;
    a <- fill_tile (mn mod 2 ^ 16) ks arr ;; Some (s2, a)
  else if (nb =? 15) || (nb =? 16) then dec_tile orc mem 16 (fun t => t mod 2 ^ 16) ks s1 arr
  else
    '(mn, s2) <- extract orc mem nbits s1 ;;
    dec_tile orc mem (Z.to_nat nb) (fun t => (t mod 2 ^ 16 + mn) mod 2 ^ 16) ks s2 arr.

Fixpoint dec_tiles (dec : list nat -> rst -> list Z -> option (rst * list Z)) (ts : list (list nat))
  (s : rst) (arr : list Z) : option (rst * list Z) :=
  match ts with
  | [] => Some (s, arr)
  | ks :: r => '(s1, a) <- dec ks s arr ;; dec_tiles dec r s1 a
  end.

(** [cur = z + p; curword = *cur; bitPackInWord = 32] *)
Definition rstart (mem : list Z) (p : nat) : option rst :=
  w <- rd mem p ;; Some (mkr p w 32).

(** c_zfstlib.c lines 593-646 *)
Definition unpackTokensMinimum (orc : oracle) (arr : list Z) (z : list Z) (ni nj nbits istep : nat)
  : option (list Z) :=
  s <- rstart z 1 ;;
  '(_, a) <- dec_tiles (min_dec_tile orc z nbits) (tiles 1 istep ni nj) s arr ;; Some a.

(** * Parallelogram predictor. The four coders differ by:
    - [pc_cast]: conversion of the difference to int (differences of
      unsigned short or char are computed in int; those of unsigned int wrap),
    - [pc_nb]: nbits_needed as a function of local_max,
    - [pc_w]: width of a difference in the stream as a function of nbits_needed,
    - [pc_mod]: number of values of the element type. *)
Record pcoder := mkpc { pc_cast : Z -> Z; pc_nb : Z -> nat; pc_w : Z -> nat; pc_mod : Z }.

(** ufld_dst: c_zfstlib.c lines 672-687, armn_compress_32.c lines 478-493 and
    628-643. *)
Definition diff_at (pc : pcoder) (ni : nat) (u : list Z) (k : nat) : option Z :=
  if (k <? ni)%nat || (k mod ni =? 0)%nat then Some 0
  else
    a <- rd u k ;; b <- rd u (k - ni) ;; c <- rd u (k - 1) ;; d <- rd u (k - 1 - ni) ;;
    Some (pc_cast pc (a - (b + c - d))).

Fixpoint mapo {A B} (f : A -> option B) (l : list A) : option (list B) :=
  match l with [] => Some [] | x :: r => y <- f x ;; ys <- mapo f r ;; Some (y :: ys) end.

Definition diffs (pc : pcoder) (ni nj : nat) (u : list Z) : option (list Z) :=
  mapo (diff_at pc ni u) (seq 0 (ni * nj)).

(** local_max: c_zfstlib.c lines 718-727. *)
Definition scan_abs_max (l : list Z) : Z :=
  match l with
  | [] => 0
  | x :: _ => fold_left (fun mx v => if mx <? Z.abs v then Z.abs v else mx) l x
  end.

(** [token = ufld_dst[k] & ~((-1) << b)]: the low b bits. *)
Definition low_bits (b : nat) (v : Z) : Z := Z.land v (Z.lnot (Z.shiftl (-1) (Z.of_nat b))).

(** c_zfstlib.c lines 728-781, armn_compress_32.c lines 528-556 and 678-705 *)
Definition para_tile_tokens (pc : pcoder) (container : nat) (vals : list Z) : list (Z * nat) :=
  let nb := pc_nb pc (scan_abs_max vals) in
  (Z.of_nat nb, container) ::
  (if (nb =? 0)%nat then []
   else let b := pc_w pc (Z.of_nat nb) in map (fun v => (low_bits b v, b)) vals).

Fixpoint para_tokens (pc : pcoder) (container : nat) (d : list Z) (ts : list (list nat))
  : option (list (Z * nat)) :=
  match ts with
  | [] => Some []
  | ks :: r => vals <- gets d ks ;; l <- para_tokens pc container d r ;;
               Some (para_tile_tokens pc container vals ++ l)
  end.

(** The indices of the first row and of the rest of the first column:
    c_zfstlib.c lines 705-713. *)
Definition border (ni nj : nat) : list nat :=
  map (fun i => ftn2c i 1 ni) (seq 1 ni) ++ map (fun j => ftn2c 1 j ni) (seq 2 (nj - 1)).

(** container width token (3 bits), border values, tiles *)
Definition para_stream (pc : pcoder) (u d : list Z) (ni nj nbits istep container : nat)
  : option (list (Z * nat)) :=
  b <- gets u (border ni nj) ;;
  t <- para_tokens pc container d (tiles 2 istep ni nj) ;;
  Some ((Z.of_nat container, 3%nat) :: map (fun v => (v, nbits)) b ++ t).

(** [(x << (32-b)) >> (32-b)] on int *)
Definition sext (b : nat) (t : Z) : Z :=
  Z.shiftr (s32 ((Z.shiftl t (Z.of_nat (32 - b))) mod 2 ^ 32)) (Z.of_nat (32 - b)).

(** c_zfstlib.c lines 827-862, armn_compress_32.c lines 602-625 and 786-809 *)
Definition para_dec_tile (orc : oracle) (pc : pcoder) (mem : list Z) (container : nat) (ks : list nat)
  (s : rst) (arr : list Z) : option (rst * list Z) :=
  '(nb, s1) <- extract orc mem container s ;;
  if nb =? 0 then a <- fill_tile 0 ks arr ;; Some (s1, a)
  else let b := pc_w pc nb in dec_tile orc mem b (sext b) ks s1 arr.

(** c_zfstlib.c lines 866-874, armn_compress_32.c lines 627-635 and 811-819:
    stores into the element type are modulo [pc_mod]. *)
Definition rebuild_cell (pc : pcoder) (ni : nat) (tmp : list Z) (arr : list Z) (k : nat) : option (list Z) :=
  t <- rd tmp k ;;
  a <- rd arr (k - ni) ;; b <- rd arr (k - 1) ;; c <- rd arr (k - 1 - ni) ;;
  wr arr k ((t + (a + b - c)) mod pc_mod pc).

Fixpoint foldo {A B} (f : A -> B -> option A) (l : list B) (a : A) : option A :=
  match l with [] => Some a | x :: r => a' <- f a x ;; foldo f r a' end.

Definition cells (ni nj : nat) : list nat :=
  flat_map (fun j => map (fun i => ftn2c i j ni) (seq 2 (ni - 1))) (seq 2 (nj - 1)).

Definition rebuild (pc : pcoder) (ni nj : nat) (tmp arr : list Z) : option (list Z) :=
  foldo (rebuild_cell pc ni tmp) (cells ni nj) arr.

(** c_zfstlib.c lines 799-877 from the third line of the body on,
    armn_compress_32.c lines 575-638, 761-822. [arr] is the destination,
    [tmp] the freshly allocated scratch array. *)
Definition unpackTokensParallelogram (orc : oracle) (pc : pcoder) (arr tmp : list Z) (z : list Z)
  (p : nat) (ni nj nbits istep : nat) : option (list Z) :=
  s <- rstart z p ;;
  '(container, s1) <- extract orc z 3 s ;;
  '(s2, arr1) <- dec_tile orc z nbits (fun t => t mod pc_mod pc) (border ni nj) s1 arr ;;
  '(_, tmp1) <- dec_tiles (para_dec_tile orc pc z (Z.to_nat container)) (tiles 2 istep ni nj) s2 tmp ;;
  rebuild pc ni nj tmp1 arr1.

(** * The 16-bit coder: c_zfstlib.c lines 649-797 *)
Definition nb16 (mx : Z) : nat :=
  let n := if mx =? 0 then 0%nat
           else if mx <? 256 then fastlog mx
           else if 65535 <? mx then bitlen mx else (8 + fastlog (Z.shiftr mx 8))%nat in
  if (n =? 16)%nat then 15%nat else n.
(** lines 739-779: 17 bits for the code 15, nbits_needed + 1 otherwise; the
    reader (lines 838-862) also takes 17 bits for the code 16. *)
Definition w16 (nb : Z) : nat := if (nb =? 15) || (nb =? 16) then 17%nat else Z.to_nat (nb + 1).
Definition pc16 : pcoder := mkpc (fun v => v) nb16 w16 (2 ^ 16).

(** lines 689-701 *)
Definition container16 (nbits : nat) (d : list Z) : nat :=
  if (15 <=? nbits)%nat && existsb (fun v => 65535 <? Z.abs v) d then 5%nat else 4%nat.

Definition packTokensParallelogram (orc : oracle) (z : list Z) (u : list Z) (ni nj nbits istep : nat)
  (header : Z) : option (list Z * nat) :=
  d <- diffs pc16 ni nj u ;;
  z1 <- wr z 0 header ;;
  toks <- para_stream pc16 u d ni nj nbits istep (container16 nbits d) ;;
  pack_stream orc z1 1 toks.
