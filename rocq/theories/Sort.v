(** Sorting: model of src/base/ipsort.c, src/base/sort.f, src/base/isort.f and
    src/base/permut.f.

    The four csort routines (ipsort.c 70-119, 132-179, 190-236, 248-296) differ
    only in the comparison of two elements, which is the parameter [gt]. *)
From Coq Require Import ZArith List Lia Bool.
From Verif Require Import Bits.
Import ListNotations.
Open Scope Z_scope.
Open Scope opt_scope.

(** Assignment to an array element. *)
Fixpoint set_at {A} (l : list A) (i : nat) (v : A) : list A :=
  match l, i with
  | [], _ => []
  | _ :: l', O => v :: l'
  | a :: l', S i' => a :: set_at l' i' v
  end.

(** Rounding of a quotient of integers to the nearest integer, ties to even. *)
Definition rne (a d : Z) : Z :=
  let q := a / d in
  let r := a mod d in
  if 2 * r <? d then q else if d <? 2 * r then q + 1 else if Z.even q then q else q + 1.

(** Conversion of an int to float: 24 significant bits. *)
Definition float_of_int (g : Z) : Z :=
  if g <? 2 ^ 24 then g else let u := 2 ^ (Z.log2 g - 23) in rne g u * u.

(** SHRINKFACTOR (ipsort.c 26): the double nearest to 1.3, times 2^52. *)
Definition SHRINK : Z := 5854679515581645.
(** ipsort.c 88: (int32_t)((float)gap / SHRINKFACTOR), a division of doubles,
    for a non-negative gap. *)
Definition shrink (g : Z) : Z :=
  let n := float_of_int g * 2 ^ 52 in
  if n <? SHRINK then 0 else
  let s := 52 - Z.log2 (n / SHRINK) in
  rne (n * 2 ^ s) SHRINK / 2 ^ s.

(** ipsort.c 88-101 *)
Definition next_gap (gap : Z) : Z :=
  let g := shrink gap in
  if g =? 0 then 1 else if (g =? 9) || (g =? 10) then 11 else g.

(** ipsort.c 111-113: exclusive or, three times, on elements [i] and [j] whose
    values were [a] and [b] ([i] and [j] differ: the gap is positive). *)
Definition xor_swap (idx : list Z) (i j : nat) (a b : Z) : list Z :=
  let a1 := Z.lxor a b in
  let b1 := Z.lxor a1 b in
  let a2 := Z.lxor a1 b1 in
  set_at (set_at idx i a2) j b1.

(** list[index - 1] *)
Definition key_at {K} (list_ : list K) (p : Z) : option K := if p <? 1 then None else nth_error list_ (Z.to_nat (p - 1)).

(** ipsort.c 107-116: [n] more values of [i]. *)
Fixpoint pass {K} (gt : K -> K -> bool) (list_ : list K) (gap n i : nat) (idx : list Z) (sw : bool) : option (list Z * bool) :=
  match n with
  | O => Some (idx, sw)
  | S n' =>
    a <- nth_error idx i ;;
    b <- nth_error idx (i + gap) ;;
    ka <- key_at list_ a ;;
    kb <- key_at list_ b ;;
    if gt ka kb then pass gt list_ gap n' (S i) (xor_swap idx i (i + gap) a b) true
    else pass gt list_ gap n' (S i) idx sw
  end.

(** ipsort.c 87-117: the do ... while loop. [None]: out of bounds, or more
    than [fuel] passes. The count of switches is taken as not overflowing. *)
Fixpoint comb {K} (gt : K -> K -> bool) (list_ : list K) (size : nat) (fuel : nat) (gap : Z) (idx : list Z) : option (list Z) :=
  match fuel with
  | O => None
  | S f =>
    let gap' := next_gap gap in
    match pass gt list_ (Z.to_nat gap') (Z.to_nat (Z.of_nat size - gap')) 0 idx false with
    | None => None
    | Some (idx', sw) => if sw || (1 <? gap') then comb gt list_ size f gap' idx' else Some idx'
    end
  end.

(** ipsort.c 82-84 *)
Definition iota (size : nat) : list Z := map (fun i => Z.of_nat i + 1) (seq 0 size).
(** ipsort.c 70-119 (csortr), ... The array index has at least [size] elements. *)
Definition csort {K} (gt : K -> K -> bool) (fuel : nat) (list_ : list K) (idx : list Z) (size : nat) : option (list Z) :=
  i0 <- nth_error idx 0 ;;
  if (length idx <? size)%nat then None else
  comb gt list_ size fuel (Z.of_nat size) (if i0 <=? 0 then iota size ++ skipn size idx else idx).
(** ipsort.c 122-129 (ipsort), ... *)
Definition ipsort {K} (gt : K -> K -> bool) (fuel : nat) (idx : list Z) (list_ : list K) (size : nat) : option (list Z) :=
  match idx with [] => None | _ :: r => csort gt fuel list_ (-1 :: r) size end.

(** The comparisons. Integers (csorte), ipsort.c 225. *)
Definition gt_int (a b : Z) : bool := b <? a.
(** Reals (csortr, csortd), ipsort.c 109, 169: a real is a rational number of
    either precision, put on a common denominator, or not a number. *)
Inductive real := Num (v : Z) | NaN.
Definition gt_real (a b : real) : bool := match a, b with Num x, Num y => y <? x | _, _ => false end.
(** Characters (csortc), ipsort.c 284: strncmp of the [len] characters, which
    stops at a null character. *)
Fixpoint strncmp (a b : list Z) : Z :=
  match a, b with
  | x :: a', y :: b' => if x =? y then (if x =? 0 then 0 else strncmp a' b') else x - y
  | _, _ => 0
  end.
Definition gt_str (a b : list Z) : bool := 0 <? strncmp a b.

(** sort.f 93-103, isort.f 94-104: SIFTUP(II,NN). Array elements are numbered
    from 1. [fuel]: number of levels. *)
Definition get1 {K} (a : list K) (i : nat) : option K := match i with O => None | S i' => nth_error a i' end.
Definition set1 {K} (a : list K) (i : nat) (v : K) : list K := match i with O => a | S i' => set_at a i' v end.
Fixpoint siftup {K} (gt : K -> K -> bool) (fuel : nat) (a : list K) (asave : K) (i nn : nat) : option (list K) :=
  match fuel with
  | O => None
  | S f =>
    let j := (i + i)%nat in
    if (nn <? j)%nat then Some (set1 a i asave) else
    j' <- (if (j <? nn)%nat then x <- get1 a (j + 1) ;; y <- get1 a j ;; Some (if gt x y then S j else j) else Some j) ;;
    v <- get1 a j' ;;
    if negb (gt v asave) then Some (set1 a i asave) else siftup gt f (set1 a i v) asave j' nn
  end.
Definition sift {K} (gt : K -> K -> bool) (a : list K) (ii nn : nat) : option (list K) :=
  v <- get1 a ii ;; siftup gt (S nn) a v ii nn.
(** sort.f 68-76: the first loop, II from [ii] down to 2. *)
Fixpoint build {K} (gt : K -> K -> bool) (n : nat) (ii : nat) (a : list K) : option (list K) :=
  match ii with
  | O | S O => Some a
  | S ii' => a' <- sift gt a ii n ;; build gt n ii' a'
  end.
(** sort.f 78-90: the second loop, NN from [nn] down to 2. *)
Fixpoint drain {K} (gt : K -> K -> bool) (nn : nat) (a : list K) : option (list K) :=
  match nn with
  | O | S O => Some a
  | S nn' =>
    a' <- sift gt a 1 nn ;;
    x <- get1 a' 1 ;;
    y <- get1 a' nn ;;
    drain gt nn' (set1 (set1 a' 1 y) nn x)
  end.
(** sort.f 22-107, isort.f 22-108. A(J).LE.ASAVE is the negation of
    A(J).GT.ASAVE for integers and for reals that are numbers. *)
Definition heapsort {K} (gt : K -> K -> bool) (a : list K) (n : nat) : option (list K) :=
  if (n <=? 1)%nat then Some a else
  a' <- (if (n <=? 3)%nat then Some a else build gt n (n / 2) a) ;;
  drain gt n a'.

(** permut.f 53-67: rows exchanged around the middle row, in a matrix stored by
    rows of [ni] elements. *)
Fixpoint swap_row {K} (z : list K) (p q ni : nat) : option (list K) :=
  match ni with
  | O => Some z
  | S n => t <- nth_error z q ;; u <- nth_error z p ;; swap_row (set_at (set_at z q u) p t) (S p) (S q) n
  end.
Fixpoint permut_rows {K} (z : list K) (ni nj j n : nat) : option (list K) :=
  match n with
  | O => Some z
  | S n' => z' <- swap_row z (j * ni) ((nj - 1 - j) * ni) ni ;; permut_rows z' ni nj (S j) n'
  end.
Definition permut {K} (z : list K) (ni nj : nat) : option (list K) := permut_rows z ni nj 0 (nj / 2).
