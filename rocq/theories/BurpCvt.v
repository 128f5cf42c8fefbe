(** Conversion between the values of a block and real numbers: mrbcvt of
    src/burp98_f/mrbcvt.F90. *)
From Coq Require Import ZArith List Bool.
From Verif Require Import Bits BitIO Xdf BurpTbl Flo.
Import ListNotations.
Open Scope Z_scope.
Open Scope opt_scope.

(** A 32-bit integer; the arithmetic of the code is undefined outside. *)
Definition int32 (n : Z) : option Z := if (- 2 ^ 31 <=? n) && (n <? 2 ^ 31) then Some n else None.

(** mrbcvt.F90 125-130: one value of TBLVAL, of which all bits are 1 when it is
    missing; the new one and the one of RVAL. [manque] is the real number that
    stands for a missing value, [echele] the scale. *)
Definition decode (manque echele : f32) (referen v : Z) : option (Z * f32) :=
  if v =? -1 then Some (v, manque)
  else
    let v' := if v <? 0 then v + 1 else v in
    s <- int32 (v' + referen) ;;
    Some (v', f32_div (f32_of s) echele).

(** mrbcvt.F90 137-142: one value of RVAL; the one of TBLVAL. *)
Definition encode (manque echele : f32) (referen : Z) (x : f32) : option Z :=
  if f32_eqb x manque then Some (-1)
  else
    n <- nint (f32_mul x echele) ;;
    t <- int32 (n - referen) ;;
    if t <? 0 then int32 (t - 1) else Some t.

Fixpoint decodes (manque echele : f32) (referen : Z) (vs : list Z) : option (list Z * list f32) :=
  match vs with
  | [] => Some ([], [])
  | v :: vs =>
    ' p <- decode manque echele referen v ;;
    ' ps <- decodes manque echele referen vs ;;
    Some (fst p :: fst ps, snd p :: snd ps)
  end.
Fixpoint encodes (manque echele : f32) (referen : Z) (xs : list f32) : option (list Z) :=
  match xs with
  | [] => Some []
  | x :: xs => t <- encode manque echele referen x ;; ts <- encodes manque echele referen xs ;; Some (t :: ts)
  end.

(** The values of one element: TBLVAL(I,:,:) and RVAL(I,:,:). *)
Definition row : Type := list Z * list f32.

(** mrbcvt.F90 111-146, one element. [pow10 k] is the compiler's 10.0 ** k. *)
Definition cvt_row (manque : f32) (pow10 : Z -> f32) (l : list elt) (mode elem : Z) (r : row) : option row :=
  j <- bufrchr elem l ;;
  if 0 <? j then
    e <- nth_error l (Z.to_nat (j - 1)) ;;
    if mode =? 0 then decodes manque (pow10 (e_scale e)) (e_ref e) (fst r)
    else ts <- encodes manque (pow10 (e_scale e)) (e_ref e) (snd r) ;; Some (ts, snd r)
  else Some r.
Fixpoint cvt_rows (manque : f32) (pow10 : Z -> f32) (l : list elt) (mode : Z) (liste : list Z) (rs : list row) : option (list row) :=
  match liste, rs with
  | [], [] => Some []
  | elem :: liste, r :: rs =>
    r' <- cvt_row manque pow10 l mode elem r ;; rs' <- cvt_rows manque pow10 l mode liste rs ;; Some (r' :: rs')
  | _, _ => None
  end.

(** mrbcvt.F90 97-150: return code, table, values. The arrays have one row for
    each element of the list. *)
Definition mrbcvt (manque : f32) (pow10 : Z -> f32) (file : option (list elt)) (t : tstate) (mode : Z) (liste : list Z) (rs : list row)
  : option (Z * tstate * list row) :=
  match tbl_get file t with
  | Err c => Some (c, t, rs)
  | Go l => rs' <- cvt_rows manque pow10 l mode liste rs ;; Some (0, Some l, rs')
  end.
