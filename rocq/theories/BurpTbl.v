(** Element tables of src/burp98_f: the sort, the search, the table of the
    library with the user's additions, the description of elements. A column of
    the table is a triple: code, exponent of the scale, reference. *)
From Coq Require Import ZArith List Bool.
From Verif Require Import Bits BitIO Xdf.
Import ListNotations.
Open Scope Z_scope.
Open Scope opt_scope.

(** mrbcvt.F90 69-75, one column of TABLEAU. *)
Definition elt : Type := Z * Z * Z.
Definition e_code (e : elt) : Z := fst (fst e).
Definition e_scale (e : elt) : Z := snd (fst e).
Definition e_ref (e : elt) : Z := snd e.

(** qbrptri.F90 52-56: columns [i] and [j], counted from 0, exchanged. *)
Definition swap_cols (l : list elt) (i j : nat) : list elt :=
  match nth_error l i, nth_error l j with
  | Some a, Some b => upd (upd l i b) j a
  | _, _ => l
  end.

(** qbrptri.F90 49-58: the column [j], counted from 0, goes back by steps of
    [m] until the one before has a smaller code. The counter bounds the steps. *)
Fixpoint tri_down (fuel : nat) (l : list elt) (m j : nat) : list elt :=
  match fuel with
  | O => l
  | S f =>
    if (j <? m)%nat then l
    else match nth_error l (j - m), nth_error l j with
         | Some a, Some b =>
           if e_code a <? e_code b then l else tri_down f (swap_cols l (j - m) j) m (j - m)
         | _, _ => l
         end
  end.

(** qbrptri.F90 48-60: one pass with step [m]. *)
Definition tri_pass (l : list elt) (m : nat) : list elt :=
  fold_left (fun l i => tri_down (S (length l)) l m i) (seq m (length l - m)) l.

(** qbrptri.F90 45-62: the passes, [m] being the last step used. *)
Fixpoint tri_loop (fuel : nat) (l : list elt) (m : nat) : list elt :=
  match fuel with
  | O => l
  | S f => if (1 <? m)%nat then let m' := ((m + 2) / 3)%nat in tri_loop f (tri_pass l m') m' else l
  end.
Definition qbrptri (l : list elt) : list elt := tri_loop (length l) l (length l).

(** bufrchr.F90 44-62: the position of the code counted from 1, or -1. The
    counter bounds the steps; a read outside the table gives [None]. *)
Fixpoint chr_loop (fuel : nat) (l : list elt) (elem : Z) (debut fin : nat) : option Z :=
  match fuel with
  | O => None
  | S f =>
    let milieu := ((debut + fin) / 2)%nat in
    if (debut =? milieu)%nat then Some (-1)
    else
      e <- nth_error l (milieu - 1) ;;
      if elem =? e_code e then Some (Z.of_nat milieu)
      else if e_code e <? elem then chr_loop f l elem milieu fin else chr_loop f l elem debut milieu
  end.
Definition bufrchr (elem : Z) (l : list elt) : option Z := chr_loop (S (length l)) l elem 0 (S (length l)).

(** mrbcvt.F90 65-66, 91-93: the table kept between calls; [None] as long as it
    has not been read. *)
Definition tstate : Type := option (list elt).

(** mrbcvt.F90 98-106, 164-172, 229-237: the table of the file is read and
    sorted at the first call. [file] is what qrbsct.F90 finds in the file, or
    [None] when it answers 35. qrbsct.F90 refuses more than 4000 elements. *)
Definition tbl_get (file : option (list elt)) (t : tstate) : res (list elt) :=
  match t with
  | Some l => Go l
  | None => match file with
            | Some l => if (4000 <? length l)%nat then Err 35 else Go (qbrptri l)
            | None => Err 35
            end
  end.

(** mrbcvt.F90 163-186: the user's table is sorted, in place, and put at the end
    of the table, of which the size is 4000. *)
Definition mrbsct (file : option (list elt)) (t : tstate) (usr : list elt) : option (Z * tstate * list elt) :=
  match tbl_get file t with
  | Err c => Some (c, t, usr)
  | Go l =>
    let u := qbrptri usr in
    if (4000 <? length (l ++ u))%nat then None else Some (0, Some (l ++ u), u)
  end.

(** mrbcvt.F90 240-250: one column of TBLBURP. *)
Definition cell : Type := Z * Z * Z * Z.
Definition tbl_cell (l : list elt) (c : cell) : option cell :=
  let '(code, s, r, k) := c in
  j <- bufrchr code l ;;
  if 0 <? j then
    e <- nth_error l (Z.to_nat (j - 1)) ;;
    Some (code, e_scale e, e_ref e, 1)
  else Some (code, s, r, 0).
Fixpoint tbl_cells (l : list elt) (cs : list cell) : option (list cell) :=
  match cs with
  | [] => Some []
  | c :: cs => c' <- tbl_cell l c ;; cs' <- tbl_cells l cs ;; Some (c' :: cs')
  end.

(** mrbcvt.F90 219-254. *)
Definition mrbtbl (file : option (list elt)) (t : tstate) (nslots : Z) (cs : list cell) : option (Z * tstate * list cell) :=
  if negb (nslots =? 4) then Some (39, t, cs)
  else match tbl_get file t with
       | Err c => Some (c, t, cs)
       | Go l => cs' <- tbl_cells l cs ;; Some (0, Some l, cs')
       end.
