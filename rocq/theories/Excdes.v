(** src/fstd98/excdes_new.c: the selection of records by sets of wanted
    ("desire") and unwanted ("exclure") criteria. Messages, the count of hits
    and the reading and writing of directives as text (ReadRequestTable,
    WriteRequestTable) are not modelled. [None] is a read or a write outside
    an array, or an integer overflow. *)
From Coq Require Import ZArith List Bool.
From Flocq Require Import Core BinarySingleNaN.
From Verif Require Import Bits Flo FloatField FloatPack Convip.
From Verif Require Dates.
Import ListNotations.
Open Scope Z_scope.
Open Scope opt_scope.

(** excdes_new.h 4-10; excdes_new.c 80-90 *)
Definition MAX_Nlist : Z := 50.
Definition MAX_requetes : Z := 50.
Definition DESIRE : Z := 1.
Definition EXCLURE : Z := -1.
Definition READLX_DELTA : Z := -3.
Definition READLX_RANGE : Z := -2.
Definition UNUSED : Z := 0.
Definition VALUE : Z := 1.
Definition RANGE : Z := 2.
Definition DELTA : Z := 3.
Definition USED : Z := 255.

(** DE_int, DE_char and DesireExclure (excdes_new.c 99-131), without hit.
    [c_data] holds MAX_Nlist areas of 13 characters. *)
Record de_int := { i_use : Z; i_nelm : Z; i_delta : Z; i_data : list Z }.
Record de_char := { c_use : Z; c_nelm : Z; c_data : list (list Z) }.
Record suppl := { s_ni : Z; s_nj : Z; s_nk : Z; s_ig1 : Z; s_ig2 : Z; s_ig3 : Z; s_ig4 : Z; s_grtyp : Z }.
Record request := { r_use : Z; r_supp_use : Z; r_exdes : Z; r_etik : de_char; r_nom : de_char; r_typ : de_char;
  r_dates : de_int; r_ip1 : de_int; r_ip2 : de_int; r_ip3 : de_int; r_supp : suppl }.
(** The static variables (excdes_new.c 93-97, 133-135). *)
Record table := { t_fresh : bool; t_off : bool; t_first : Z; t_last : Z; t_bundle : Z; t_desire : Z; t_req : list request }.

Definition with_use r u e := {| r_use := u; r_supp_use := r_supp_use r; r_exdes := e; r_etik := r_etik r; r_nom := r_nom r; r_typ := r_typ r;
  r_dates := r_dates r; r_ip1 := r_ip1 r; r_ip2 := r_ip2 r; r_ip3 := r_ip3 r; r_supp := r_supp r |}.
Definition with_etik r x := {| r_use := r_use r; r_supp_use := r_supp_use r; r_exdes := r_exdes r; r_etik := x; r_nom := r_nom r; r_typ := r_typ r;
  r_dates := r_dates r; r_ip1 := r_ip1 r; r_ip2 := r_ip2 r; r_ip3 := r_ip3 r; r_supp := r_supp r |}.
Definition with_nom r x := {| r_use := r_use r; r_supp_use := r_supp_use r; r_exdes := r_exdes r; r_etik := r_etik r; r_nom := x; r_typ := r_typ r;
  r_dates := r_dates r; r_ip1 := r_ip1 r; r_ip2 := r_ip2 r; r_ip3 := r_ip3 r; r_supp := r_supp r |}.
Definition with_typ r x := {| r_use := r_use r; r_supp_use := r_supp_use r; r_exdes := r_exdes r; r_etik := r_etik r; r_nom := r_nom r; r_typ := x;
  r_dates := r_dates r; r_ip1 := r_ip1 r; r_ip2 := r_ip2 r; r_ip3 := r_ip3 r; r_supp := r_supp r |}.
Definition with_dates r x := {| r_use := r_use r; r_supp_use := r_supp_use r; r_exdes := r_exdes r; r_etik := r_etik r; r_nom := r_nom r; r_typ := r_typ r;
  r_dates := x; r_ip1 := r_ip1 r; r_ip2 := r_ip2 r; r_ip3 := r_ip3 r; r_supp := r_supp r |}.
Definition with_ip1 r x := {| r_use := r_use r; r_supp_use := r_supp_use r; r_exdes := r_exdes r; r_etik := r_etik r; r_nom := r_nom r; r_typ := r_typ r;
  r_dates := r_dates r; r_ip1 := x; r_ip2 := r_ip2 r; r_ip3 := r_ip3 r; r_supp := r_supp r |}.
Definition with_ip2 r x := {| r_use := r_use r; r_supp_use := r_supp_use r; r_exdes := r_exdes r; r_etik := r_etik r; r_nom := r_nom r; r_typ := r_typ r;
  r_dates := r_dates r; r_ip1 := r_ip1 r; r_ip2 := x; r_ip3 := r_ip3 r; r_supp := r_supp r |}.
Definition with_ip3 r x := {| r_use := r_use r; r_supp_use := r_supp_use r; r_exdes := r_exdes r; r_etik := r_etik r; r_nom := r_nom r; r_typ := r_typ r;
  r_dates := r_dates r; r_ip1 := r_ip1 r; r_ip2 := r_ip2 r; r_ip3 := x; r_supp := r_supp r |}.
Definition with_supp r u x := {| r_use := r_use r; r_supp_use := u; r_exdes := r_exdes r; r_etik := r_etik r; r_nom := r_nom r; r_typ := r_typ r;
  r_dates := r_dates r; r_ip1 := r_ip1 r; r_ip2 := r_ip2 r; r_ip3 := r_ip3 r; r_supp := x |}.
Definition with_req t l := {| t_fresh := t_fresh t; t_off := t_off t; t_first := t_first t; t_last := t_last t; t_bundle := t_bundle t; t_desire := t_desire t; t_req := l |}.

(** An element of an array, and an array with one element changed. *)
Definition at_ {A} (l : list A) (i : Z) : option A := if 0 <=? i then nth_error l (Z.to_nat i) else None.
Fixpoint put {A} (l : list A) (n : nat) (x : A) : list A :=
  match l, n with
  | [], _ => []
  | _ :: l, O => x :: l
  | y :: l, S n => y :: put l n x
  end.
Definition iuse d u := {| i_use := u; i_nelm := i_nelm d; i_delta := i_delta d; i_data := i_data d |}.
Definition idata d l := {| i_use := i_use d; i_nelm := i_nelm d; i_delta := i_delta d; i_data := l |}.
Definition inelm d n := {| i_use := i_use d; i_nelm := n; i_delta := i_delta d; i_data := i_data d |}.

(** What C_requetes_reset leaves of one list (excdes_new.c 1546-1587). strcpy
    writes the blanks and the zero after them only. *)
Definition clear_int : de_int := {| i_use := UNUSED; i_nelm := 0; i_delta := 0; i_data := repeat 0 50 |}.
Definition reset_int (d : de_int) : de_int := {| i_use := UNUSED; i_nelm := 0; i_delta := i_delta d; i_data := repeat 0 50 |}.
Definition reset_char (n : nat) (d : de_char) : de_char :=
  {| c_use := UNUSED; c_nelm := 0; c_data := map (fun a => repeat 32 n ++ 0 :: skipn (S n) a) (c_data d) |}.
Definition no_suppl : suppl := {| s_ni := 0; s_nj := 0; s_nk := 0; s_ig1 := 0; s_ig2 := 0; s_ig3 := 0; s_ig4 := 0; s_grtyp := 32 |}.
Record keeps := { k_nom : bool; k_typ : bool; k_etik : bool; k_dates : bool; k_ip1 : bool; k_ip2 : bool; k_ip3 : bool }.
Definition reset_one (k : keeps) (r : request) : request :=
  {| r_use := UNUSED; r_supp_use := UNUSED; r_exdes := -1;
     r_etik := if k_etik k then r_etik r else reset_char 12 (r_etik r);
     r_nom := if k_nom k then r_nom r else reset_char 4 (r_nom r);
     r_typ := if k_typ k then r_typ r else reset_char 2 (r_typ r);
     r_dates := if k_dates k then r_dates r else reset_int (r_dates r);
     r_ip1 := if k_ip1 k then r_ip1 r else reset_int (r_ip1 r);
     r_ip2 := if k_ip2 k then r_ip2 r else reset_int (r_ip2 r);
     r_ip3 := if k_ip3 k then r_ip3 r else reset_int (r_ip3 r);
     r_supp := no_suppl |}.
(** C_requetes_reset (excdes_new.c 1531-1598) *)
Definition requetes_reset (t : table) (set_nb : Z) (k : keeps) : option (Z * table) :=
  if MAX_requetes - 1 <? set_nb then Some (-1, t)
  else r <- at_ (t_req t) set_nb ;; Some (0, with_req t (put (t_req t) (Z.to_nat set_nb) (reset_one k r))).
(** C_requetes_init (excdes_new.c 1606-1624) *)
Definition keep_none : keeps := {| k_nom := false; k_typ := false; k_etik := false; k_dates := false; k_ip1 := false; k_ip2 := false; k_ip3 := false |}.
Definition requetes_init (t : table) : table :=
  {| t_fresh := false; t_off := t_off t; t_first := 0; t_last := MAX_requetes - 1; t_bundle := -1; t_desire := 1; t_req := map (reset_one keep_none) (t_req t) |}.
(** The lines "if (package_not_initialized) RequetesInit()". *)
Definition ready (t : table) : table := if t_fresh t then requetes_init t else t.
(** The program starts with static variables: those not given are zero. *)
Definition start_char : de_char := {| c_use := 0; c_nelm := 0; c_data := repeat (repeat 0 13) 50 |}.
Definition start_request : request :=
  {| r_use := 0; r_supp_use := 0; r_exdes := 0; r_etik := start_char; r_nom := start_char; r_typ := start_char;
     r_dates := clear_int; r_ip1 := clear_int; r_ip2 := clear_int; r_ip3 := clear_int;
     r_supp := {| s_ni := 0; s_nj := 0; s_nk := 0; s_ig1 := 0; s_ig2 := 0; s_ig3 := 0; s_ig4 := 0; s_grtyp := 0 |} |}.
Definition start : table := {| t_fresh := true; t_off := false; t_first := 0; t_last := MAX_requetes - 1; t_bundle := -1; t_desire := 1; t_req := repeat start_request 50 |}.

(** fst_deactivate_filters, fst_reactivate_filters (excdes_new.c 141-155): the
    old value comes back. *)
Definition set_off (t : table) (b : bool) : Z * table :=
  (if t_off t then 1 else 0,
   {| t_fresh := t_fresh t; t_off := b; t_first := t_first t; t_last := t_last t; t_bundle := t_bundle t; t_desire := t_desire t; t_req := t_req t |}).
(** C_select_groupset (excdes_new.c 892-902) *)
Definition select_groupset (t : table) (a b : Z) : Z * table :=
  let t := ready t in
  if (MAX_requetes - 1 <? a) || (MAX_requetes - 1 <? b) || (b <? a) then (-1, t)
  else (0, {| t_fresh := t_fresh t; t_off := t_off t; t_first := a; t_last := b; t_bundle := t_bundle t; t_desire := t_desire t; t_req := t_req t |}).
(** C_filtre_desire (mode 1) and C_filtre_exclure (mode 0) (excdes_new.c 912-946) *)
Definition filtre (t : table) (mode : Z) : Z * table :=
  let t := ready t in
  (if MAX_requetes - 1 <? t_bundle t + 1 then -1 else 0,
   {| t_fresh := t_fresh t; t_off := t_off t; t_first := t_first t; t_last := t_last t; t_bundle := t_bundle t + 1; t_desire := mode; t_req := t_req t |}).

Definition exdes_of (des_exc : Z) : Z := if des_exc =? 1 then DESIRE else EXCLURE.
Definition drop_dates (r : request) : request := with_dates r (iuse (r_dates r) UNUSED).
(** ValidateRequestForSet (excdes_new.c 285-313, nelm_lt is 1 in every call) and
    its use by the functions Xc_Select_*: a refusal clears the use of the dates
    and gives -1; otherwise [f] gives the status and the new contents. *)
Definition selecting (t : table) (set_nb des_exc nelm : Z) (f : request -> option (Z * request)) : option (Z * table) :=
  let t := ready t in
  r <- at_ (t_req t) set_nb ;;
  let refused :=
    (MAX_requetes - 1 <? set_nb) || (MAX_Nlist <? nelm) || ((nelm <=? 0) && negb (nelm =? 1)) ||
    (negb (r_use r =? 0) && negb (exdes_of des_exc =? r_exdes r)) in
  ' p <- (if refused then Some (-1, drop_dates r) else f r) ;;
  let '(status, r') := p in
  Some (status, with_req t (put (t_req t) (Z.to_nat set_nb) r')).

(** Xc_Select_ip1, Xc_Select_ip2, Xc_Select_ip3 (excdes_new.c 317-487): the
    three differ by the list they fill. [arr] is what the argument iplist points
    to. The copy of the "rest of values" is written as one splice. *)
Definition fill_ip (d : de_int) (arr : list Z) (nelm : Z) : option de_int :=
  a0 <- at_ arr 0 ;;
  let n := if a0 =? -1 then 1 else nelm in
  let d := {| i_use := VALUE; i_nelm := n; i_delta := 0; i_data := put (i_data d) 0 a0 |} in
  if n =? 1 then Some d
  else
    a1 <- at_ arr 1 ;;
    delta <- (if a1 =? READLX_RANGE then a3 <- at_ arr 3 ;; Some ((a3 =? READLX_DELTA) && (n =? 5)) else Some false) ;;
    if (delta : bool) then
      a2 <- at_ arr 2 ;;
      a4 <- at_ arr 4 ;;
      Some (iuse (idata d (put (put (i_data d) 1 a2) 2 a4)) DELTA)
    else if Z.of_nat (length arr) <? n then None
    else
      let l := put (i_data d) 2 READLX_RANGE in
      let l := firstn 1 l ++ firstn (Z.to_nat (n - 1)) (skipn 1 arr) ++ skipn (Z.to_nat n) l in
      let d := idata d l in
      let d := if (a0 =? READLX_RANGE) || (a1 =? READLX_RANGE) then inelm (iuse d RANGE) 2 else d in
      Some (if a1 =? READLX_RANGE then idata d (put l 1 (nth 2 l 0)) else d).
Definition select_ip (which : Z) (t : table) (set_nb des_exc : Z) (arr : list Z) (nelm : Z) : option (Z * table) :=
  selecting t set_nb des_exc nelm (fun r =>
    let r' := with_use r USED (exdes_of des_exc) in
    if which =? 1 then d <- fill_ip (r_ip1 r) arr nelm ;; Some (0, with_ip1 r' d)
    else if which =? 2 then d <- fill_ip (r_ip2 r) arr nelm ;; Some (0, with_ip2 r' d)
    else d <- fill_ip (r_ip3 r) arr nelm ;; Some (0, with_ip3 r' d)).

(** The interval after the delta keyword (excdes_new.c 540-542), in seconds. *)
Definition delta_seconds (v : Z) : option Z :=
  if negb (Z.land v 0x7F800000 =? 0) then f64_int (f64_add (widen (word_f32 (v mod 2 ^ 32))) (lit64 1 2))
  else if v * 3600 <? 2 ^ 31 then Some (v * 3600) else None.
(** The loop of Xc_Select_date (excdes_new.c 531-559) from turn [i] on: the
    Boolean says that the label error was not reached. *)
Fixpoint date_loop (fuel : nat) (d : de_int) (arr : list Z) (nelm i : Z) (range delta : Z) : option (bool * de_int) :=
  match fuel with
  | O => Some (true, d)
  | S fuel =>
      v <- at_ arr i ;;
      let d := idata d (put (i_data d) (Z.to_nat i) v) in
      ' p <- (if v =? READLX_DELTA then
                let delta := delta + 1 in
                if (1 <? delta) || (range =? 0) || (nelm - 1 <=? i) || negb (i =? 3) then Some (false, d, delta)
                else
                  w <- at_ arr (i + 1) ;;
                  s <- delta_seconds w ;;
                  Some (true, {| i_use := DELTA; i_nelm := 3; i_delta := s; i_data := put (i_data d) 2 s |}, delta)
              else Some (true, d, delta)) ;;
      let '(ok, d, delta) := p in
      if negb ok then Some (false, d)
      else if v =? READLX_RANGE then
        let range := range + 1 in
        if (1 <? range) || (1 <? i) then Some (false, d)
        else
          let d := iuse d RANGE in
          l <- (if (i =? 1) && (2 <? nelm) then w <- at_ arr 2 ;; Some (put (i_data d) 1 w) else Some (i_data d)) ;;
          date_loop fuel {| i_use := RANGE; i_nelm := 2; i_delta := i_delta d; i_data := l |} arr nelm (i + 1) range delta
      else date_loop fuel d arr nelm (i + 1) range delta
  end.
(** Xc_Select_date (excdes_new.c 508-564) *)
Definition select_date (t : table) (set_nb des_exc : Z) (arr : list Z) (nelm : Z) : option (Z * table) :=
  selecting t set_nb des_exc nelm (fun r =>
    a0 <- at_ arr 0 ;;
    let n := if a0 =? -1 then 1 else nelm in
    let r' := with_use r USED (exdes_of des_exc) in
    let d := {| i_use := VALUE; i_nelm := n; i_delta := 0; i_data := put (i_data (r_dates r)) 0 a0 |} in
    if n =? 1 then Some (0, with_dates r' d)
    else
      ' p <- date_loop (Z.to_nat n) d arr n 0 0 0 ;;
      let '(ok, d) := p in
      Some (if (ok : bool) then (0, with_dates r' d) else (-1, with_dates r' (iuse d UNUSED)))).

(** strncpy: [n] characters at the start of the area [a], from the text [s]. *)
Definition strncpy (a s : list Z) (n : nat) : list Z := firstn n (s ++ repeat 0 n) ++ skipn n a.
Fixpoint copy_texts (n : nat) (areas texts : list (list Z)) : list (list Z) :=
  match areas, texts with
  | a :: areas, s :: texts => strncpy a s n :: copy_texts n areas texts
  | _, _ => areas
  end.
Definition fill_texts (n : nat) (d : de_char) (texts : list (list Z)) (nelm : Z) : option de_char :=
  if Z.of_nat (length texts) <? nelm then None
  else Some {| c_use := 1; c_nelm := nelm; c_data := copy_texts n (c_data d) (firstn (Z.to_nat nelm) texts) |}.
(** Xc_Select_etiquette, Xc_Select_nomvar, Xc_Select_typvar (excdes_new.c 580-638, 696-717) *)
Definition select_etiquette (t : table) (set_nb des_exc : Z) (texts : list (list Z)) (nelm : Z) : option (Z * table) :=
  selecting t set_nb des_exc nelm (fun r => d <- fill_texts 13 (r_etik r) texts nelm ;; Some (0, with_etik (with_use r 1 (exdes_of des_exc)) d)).
Definition select_nomvar (t : table) (set_nb des_exc : Z) (texts : list (list Z)) (nelm : Z) : option (Z * table) :=
  selecting t set_nb des_exc nelm (fun r => d <- fill_texts 5 (r_nom r) texts nelm ;; Some (0, with_nom (with_use r 1 (exdes_of des_exc)) d)).
Definition select_typvar (t : table) (set_nb des_exc : Z) (texts : list (list Z)) (nelm : Z) : option (Z * table) :=
  selecting t set_nb des_exc nelm (fun r => d <- fill_texts 3 (r_typ r) texts nelm ;; Some (0, with_typ (with_use r 1 (exdes_of des_exc)) d)).
(** Xc_Select_suppl (excdes_new.c 656-680) *)
Definition select_suppl (t : table) (set_nb des_exc : Z) (s : suppl) : option (Z * table) :=
  selecting t set_nb des_exc 1 (fun r => Some (0, with_supp (with_use r 1 (exdes_of des_exc)) 1 s)).

(** fmod and fmodf: exact, with the sign of the first number. *)
Definition fmod_of {prec emax} (P : Prec_gt_0 prec) (E : Prec_lt_emax prec emax) (x y : binary_float prec emax) : binary_float prec emax :=
  match x, y with
  | B754_finite s m e _, B754_finite _ m' e' _ =>
      let c := Z.min e e' in
      let r := (Zpos m * 2 ^ (e - c)) mod (Zpos m' * 2 ^ (e' - c)) in
      binary_normalize prec emax P E mode_NE (if s then - r else r) c s
  | B754_zero s, B754_finite _ _ _ _ => B754_zero s
  | B754_zero _, B754_infinity _ | B754_finite _ _ _ _, B754_infinity _ => x
  | _, _ => B754_nan
  end.
Definition fmodf : f32 -> f32 -> f32 := fmod_of p24 e128.
Definition fmod : f64 -> f64 -> f64 := fmod_of p53 e1024.

(** match_ip (excdes_new.c 954-1027) *)
Definition bound (d : Z) (here : f32 * Z) : f32 * Z := if 0 <=? d then from_ip d else here.
Definition same_level (p1 : f32) (kind1 : Z) (v : Z) : bool :=
  let '(p2, kind2) := from_ip v in
  if negb (kind1 =? kind2) then false
  else if f32_eqb p2 (f32_of 0) && negb (f32_eqb p1 p2) then false
  else
    let delta := narrow (f64_sub (f64_of 1) (widen (f32_div p1 p2))) in
    let delta := if f32_ltb delta (f32_of 0) then Bopp delta else delta in
    f64_ltb (widen delta) (lit64 1 1000000).
Definition match_ip (in_use nelm : Z) (data : list Z) (ip1 : Z) (translatable : bool) : bool :=
  if in_use =? 0 then false
  else if (in_use =? RANGE) || (in_use =? DELTA) then
    if negb translatable then false
    else
      let '(p1, kind1) := from_ip ip1 in
      let '(p2, kind2) := bound (nth 0 data 0) (p1, kind1) in
      let '(p3, kind3) := bound (nth 1 data 0) (p1, kind1) in
      let '(p2, p3) := if f32_ltb p3 p2 then (p3, p2) else (p2, p3) in
      if negb (kind1 =? kind2) || negb (kind1 =? kind3) then false
      else if f32_ltb p1 p2 || f32_ltb p3 p1 then false
      else if in_use =? RANGE then true
      else
        let d := nth 2 data 0 in
        if d <=? 0 then false
        else if f32_eqb p1 p2 then true
        else
          let delta := if d <? 0xFFFFF then f32_of d else word_f32 d in
          if f32_leb delta (f32_of 0) then false
          else
            let modulo := fmodf (f32_sub p1 p2) delta in
            let modulo := if f32_ltb modulo (f32_of 0) then Bopp modulo else modulo in
            let error := f32_div modulo delta in
            f64_ltb (widen error) (lit64 1 100000) || f64_ltb (lit64 99999 100000) (widen error)
  else if in_use =? VALUE then
    let l := firstn (Z.to_nat nelm) data in
    if existsb (fun v => (ip1 =? v) || (v =? -1)) l then true
    else if negb translatable then false
    else let '(p1, kind1) := from_ip ip1 in existsb (same_level p1 kind1) l
  else false.

(** What fstprm says of a record. *)
Record params := { q_date : Z; q_ni : Z; q_nj : Z; q_nk : Z; q_ip1 : Z; q_ip2 : Z; q_ip3 : Z;
  q_typvar : list Z; q_nomvar : list Z; q_etiket : list Z; q_grtyp : Z; q_ig1 : Z; q_ig2 : Z; q_ig3 : Z; q_ig4 : Z }.

(** strlen of an area of 13 characters: without a zero in it the count goes on
    in the next area and is at least 13, which min (n, strlen) does not see. *)
Fixpoint strlen (a : list Z) : nat := match a with [] => O | c :: a => if c =? 0 then O else S (strlen a) end.
(** strncmp (a, b, n) == 0; the zero that ends a text is read as the end of the list. *)
Fixpoint same_start (a b : list Z) (n : nat) : bool :=
  match n with
  | O => true
  | S n =>
      let c := hd 0 a in
      let d := hd 0 b in
      (c =? d) && ((c =? 0) || same_start (tl a) (tl b) n)
  end.
(** The labels Etiquettes, Nomvars and Typvars of C_fstmatch_parm (excdes_new.c 1097-1138). *)
Definition match_texts (n : nat) (d : de_char) (s : list Z) : bool :=
  (hd 0 (hd [] (c_data d)) =? 32) ||
  existsb (fun a => same_start a s (Nat.min n (strlen a))) (firstn (Z.to_nat (c_nelm d)) (c_data d)).
(** The label Supplements (1085-1095). *)
Definition match_suppl (s : suppl) (q : params) : bool :=
  negb ((negb (s_ig1 s =? q_ig1 q) && negb (s_ig1 s =? -1)) || (negb (s_ig2 s =? q_ig2 q) && negb (s_ig2 s =? -1)) ||
        (negb (s_ig3 s =? q_ig3 q) && negb (s_ig3 s =? -1)) || (negb (s_ig4 s =? q_ig2 q) && negb (s_ig4 s =? -1)) ||
        (negb (s_ni s =? q_ni q) && negb (s_ni s =? -1)) || (negb (s_nj s =? q_nj q) && negb (s_nj s =? -1)) ||
        (negb (s_nk s =? q_nk q) && negb (s_nk s =? -1)) || (negb (s_grtyp s =? q_grtyp q) && negb (s_grtyp s =? 32))).
(** difdatr (moduledate.f90 387-540) as a REAL*8 number of hours. *)
Definition difdatr (d1 d2 : Z) : f64 :=
  match Dates.difdat false d1 d2 with Some k => f64_div (f64_of k) (f64_of 720) | None => f64_of (2 ^ 30) end.
(** The label Dates (1140-1212); [None] is the return of 0 for a use that is not known. *)
Definition match_dates (d : de_int) (date : Z) : option bool :=
  let d0 := nth 0 (i_data d) 0 in
  let d1 := nth 1 (i_data d) 0 in
  let debut := if d0 <=? 0 then date else d0 in
  let fin := if d1 <=? 0 then date else d1 in
  let inside := f64_leb (f64_of 0) (difdatr date debut) && f64_leb (difdatr date fin) (f64_of 0) in
  if i_use d =? VALUE then Some ((d0 =? -1) || existsb (fun v => v =? date) (firstn (Z.to_nat (i_nelm d)) (i_data d)))
  else if i_use d =? RANGE then Some inside
  else if i_use d =? DELTA then
    let delta8 := f64_div (f64_of (i_delta d)) (f64_of 3600) in
    Some (inside && f64_leb (fmod (difdatr date debut) delta8) (lit64 5 3600))
  else None.
(** The labels Ip1s, Ip2s, Ip3s (1214-1245). *)
Definition match_ips (d : de_int) (ip : Z) (translatable : bool) : bool :=
  (nth 0 (i_data d) 0 =? -1) || match_ip (i_use d) (i_nelm d) (i_data d) ip translatable.

(** One set against a record: the body of the loop of C_fstmatch_parm (1078-1253). *)
Definition match_set (r : request) (q : params) (translatable : bool) : option bool :=
  if negb (r_supp_use r =? 0) && negb (match_suppl (r_supp r) q) then Some false
  else if negb (c_use (r_etik r) =? 0) && negb (match_texts 12 (r_etik r) (q_etiket q)) then Some false
  else if negb (c_use (r_nom r) =? 0) && negb (match_texts 4 (r_nom r) (q_nomvar q)) then Some false
  else if negb (c_use (r_typ r) =? 0) && negb (match_texts 2 (r_typ r) (q_typvar q)) then Some false
  else
    d <- (if i_use (r_dates r) =? 0 then Some true else match_dates (r_dates r) (q_date q)) ;;
    if negb (d : bool) then Some false
    else if negb (i_use (r_ip1 r) =? 0) && negb (match_ips (r_ip1 r) (q_ip1 q) translatable) then Some false
    else if negb (i_use (r_ip2 r) =? 0) && negb (match_ips (r_ip2 r) (q_ip2 q) translatable) then Some false
    else if negb (i_use (r_ip3 r) =? 0) && negb (match_ips (r_ip3 r) (q_ip3 q) translatable) then Some false
    else Some true.
(** The search from last_R back to a set in use (1257-1265). *)
Fixpoint last_in_use (l : list request) (n : nat) (first last : Z) : option request :=
  r <- at_ l last ;;
  match n with
  | O => Some r
  | S n => if (first <? last) && (r_use r =? 0) then last_in_use l n first (last - 1) else Some r
  end.
(** The loop on the sets; [nb] is nb_desire. *)
Fixpoint match_loop (l : list request) (n : nat) (first last set_nb nb : Z) (q : params) (translatable : bool) : option Z :=
  match n with
  | O =>
      r <- last_in_use l (Z.to_nat (last - first)) first last ;;
      Some (if (r_exdes r =? DESIRE) && negb (r_use r =? 0) then 0 else if nb =? 0 then 1 else 0)
  | S n =>
      r <- at_ l set_nb ;;
      if r_use r =? 0 then match_loop l n first last (set_nb + 1) nb q translatable
      else
        let nb := if r_exdes r =? DESIRE then nb + 1 else nb in
        match match_set r q translatable with
        | None => Some 0
        | Some true => Some (if r_exdes r =? DESIRE then set_nb + 1 else 0)
        | Some false => match_loop l n first last (set_nb + 1) nb q translatable
        end
  end.
(** C_fstmatch_parm (excdes_new.c 1046-1267). [noip] tells the names whose ip
    values are not decoded (FstCanTranslateName, fstd98.c 5192-5240: a table of
    the environment). *)
Definition fstmatch_parm (noip : list Z -> bool) (t : table) (q : params) : option (Z * table) :=
  let t := ready t in
  v <- match_loop (t_req t) (Z.to_nat (t_last t - t_first t + 1)) (t_first t) (t_last t) (t_first t) 0 q (negb (noip (q_nomvar q))) ;;
  Some (v, t).
(** C_fstmatch_req, C_fst_match_req (excdes_new.c 1284-1332), [q] being what
    fstprm gives, or [None] when it fails. *)
Definition fstmatch_req (noip : list Z -> bool) (t : table) (q : option params) : option (Z * table) :=
  if t_off t then Some (1, t)
  else match q with
       | None => Some (0, ready t)
       | Some q => fstmatch_parm noip (ready t) q
       end.

(** C_select_ip1 .. C_select_suppl (excdes_new.c 1344-1390): the functions
    above with the current set and mode. *)
Definition c_select_ip (which : Z) (t : table) (arr : list Z) (nelm : Z) := select_ip which t (t_bundle t) (t_desire t) arr nelm.
Definition c_select_date (t : table) (arr : list Z) (nelm : Z) := select_date t (t_bundle t) (t_desire t) arr nelm.
Definition c_select_etiquette (t : table) (texts : list (list Z)) (nelm : Z) := select_etiquette t (t_bundle t) (t_desire t) texts nelm.
Definition c_select_nomvar (t : table) (texts : list (list Z)) (nelm : Z) := select_nomvar t (t_bundle t) (t_desire t) texts nelm.
Definition c_select_typvar (t : table) (texts : list (list Z)) (nelm : Z) := select_typvar t (t_bundle t) (t_desire t) texts nelm.
Definition c_select_suppl (t : table) (s : suppl) := select_suppl t (t_bundle t) (t_desire t) s.
