(** src/fstd98/convip_plus.f90: levels and other coordinates coded as integers
    (ip1, ip2, ip3) and decoded. REAL is single precision, REAL*8 double, both
    with the arithmetic of Flo.v. The character string (flagv) is not modelled:
    it only receives the value formatted. *)
From Coq Require Import ZArith List Bool.
From Flocq Require Import BinarySingleNaN.
From Verif Require Import Bits Flo FloatField.
Import ListNotations.
Open Scope Z_scope.
Open Scope opt_scope.

(** Literals: a quotient of two integers that are exact, rounded once. *)
Definition lit32 (n d : Z) : f32 := f32_div (f32_of n) (f32_of d).
Definition lit64 (n d : Z) : f64 := f64_div (f64_of n) (f64_of d).
Definition f32_leb (x y : f32) : bool := Bleb x y.
Definition f64_leb (x y : f64) : bool := Bleb x y.
(** NINT of a REAL*8; undefined when it is not a 32-bit integer. *)
Definition nint64 (x : f64) : option Z :=
  if is_finite x then
    let n := Btrunc (@Bnearbyint 53 1024 e1024 mode_NA x) in
    if (- 2 ^ 31 <=? n) && (n <? 2 ^ 31) then Some n else None
  else None.

(** The tables (convip_plus.f90 96-117). *)
Definition validkind (k : Z) : bool := existsb (Z.eqb k) [0; 1; 2; 3; 4; 5; 6; 7; 10; 15; 17; 21; 31].
Definition low_of (k : Z) : Z :=
  if existsb (Z.eqb k) [0; 4] then -20000
  else if existsb (Z.eqb k) [1; 2; 5; 7; 10; 21] then 0
  else if existsb (Z.eqb k) [6; 17] then 1
  else -480000000.
Definition hi_of (k : Z) : Z :=
  if existsb (Z.eqb k) [0; 4] then 100000
  else if existsb (Z.eqb k) [1; 5] then 1
  else if k =? 2 then 1100
  else if k =? 6 then 200000
  else if k =? 7 then 20000
  else if k =? 21 then 1000000
  else 10000000000.
Definition low_val (k : Z) : f32 := f32_of (low_of k).
Definition hi_val (k : Z) : f32 := f32_of (hi_of k).
Definition zero_val (k : Z) : f32 := if existsb (Z.eqb k) [6; 17] then f32_of 1 else if k =? 21 then lit32 1001 10000000 else f32_of 0.
Definition zero_val2 (k : Z) : f32 := if existsb (Z.eqb k) [6; 17] then f32_of 1 else f32_of 0.
Definition fact_of (k : Z) : Z := if k =? 17 then -1 else if k =? 21 then 10000 else 1.
Definition fact_val (k : Z) : f32 := f32_of (fact_of k).
(** exptab (convip_plus.f90 123-125). *)
Definition exptab (e : Z) : f64 := if e <? 4 then lit64 1 (10 ^ (4 - e)) else f64_of (10 ^ (e - 4)).

(** convert_ip123.f90 220-227 *)
Definition is_invalid_kind (k : Z) : bool := (k <? 0) || ((31 <? k) && negb (Z.land k 15 =? 15)).

(** The entries of t15 in conv_kind_15 (convip_plus.f90 362-366): lo, hi, base. *)
Definition t15 (i : Z) : option (Z * Z * Z) := if i =? 1 then Some (0, 2000000, 0) else if i =? 2 then Some (16000000, 15000001, -1000) else None.
(** conv_kind_15 (convip_plus.f90 350-398) from a value, mode 1 or 2. *)
Definition to_kind_15 (p : f32) (kind : Z) : option Z :=
  match t15 (1 + Z.shiftr kind 4) with
  | None => Some (-1)
  | Some (lo, hi, base) =>
      n <- nint p ;;
      let ipv := n - base + lo in
      Some (if (ipv <? lo) || (hi <? ipv) then -1 else Z.lor ipv (Z.shiftl 15 24))
  end.
(** The same from an integer above 0, mode -1: the value and the kind; none in
    the table gives [None]. *)
Definition from_kind_15 (ip : Z) : option (f32 * Z) :=
  if Z.shiftr ip 24 =? 15 then
    let ipv := Z.land ip 0xFFFFFF in
    if (0 <=? ipv) && (ipv <=? 2000000) then Some (f32_of ipv, 15)
    else if (16000000 <=? ipv) && (ipv <=? 15000001) then Some (f32_of (ipv - 16000000 - 1000), 31)
    else None
  else None.

Definition BAD : Z := -999999.

(** The loop of convip_plus.f90 180-190. [n] bounds the number of turns: the
    theorems show that it is not reached. *)
Fixpoint to_range (n : nat) (l1 l2 t : f64) (e : Z) : option (f64 * Z) :=
  if (0 <? e) && (e <? 15) then
    match n with
    | O => None
    | S n =>
        if f64_leb l1 t then to_range n l1 l2 (f64_div t (f64_of 10)) (e - 1)
        else if f64_ltb t l2 then to_range n l1 l2 (f64_mul t (f64_of 10)) (e + 1)
        else Some (t, e)
    end
  else Some (t, e).

(** New style (convip_plus.f90 154-197). *)
Definition to_ip_new (p : f32) (kind : Z) : option Z :=
  if Z.land kind 15 =? 15 then to_kind_15 p kind
  else if f32_ltb p (low_val kind) || f32_ltb (hi_val kind) p then Some BAD
  else
    let temp := widen p in
    let temp := if f64_ltb (Babs temp) (widen (zero_val kind)) then widen (zero_val kind) else temp in
    let temp := f64_mul temp (widen (fact_val kind)) in
    let pos := f64_leb (f64_of 0) temp in
    let temp := if pos then temp else Bopp temp in
    let limit1 := if pos then 1000000 else 48000 in
    let limit2 := if pos then 100000 else 4800 in
    let offset := if pos then 0 else 1000000 in
    ' r <- to_range 64 (f64_of limit1) (f64_of limit2) temp 4 ;;
    let '(temp, iexp) := r in
    n <- (if f64_ltb (f64_of limit1) temp then Some (-1) else n <- nint64 temp ;; Some (offset + n)) ;;
    Some (Z.lor (Z.lor n (Z.shiftl iexp 20)) (Z.shiftl (Z.land 15 kind) 24)).

(** Old style (convip_plus.f90 199-249). *)
Definition to_ip_old (p : f32) (kind : Z) : option Z :=
  if kind =? 0 then
    n <- nint (f32_add (f32_div p (f32_of 5)) (f32_of 12001)) ;;
    Some (Z.max 12001 (Z.min 32000 n))
  else if kind =? 1 then
    if f32_leb (f32_of 0) p && f32_leb p (f32_of 1) then
      n <- nint (f32_mul p (f32_of 10000)) ;;
      Some (n + 2000)
    else Some BAD
  else if kind =? 2 then
    if f32_leb (f32_of 0) p && f32_ltb p (f32_of 1100) then
      if f32_leb (lit32 999999 100000) p && f32_ltb p (f32_of 1100) then nint p
      else if f32_ltb p (lit32 999999 100000) then
        if f32_leb (lit32 999999 1000000) p then n <- nint (f32_mul (f32_of 20) p) ;; Some (1800 + n)
        else if f32_leb (lit32 999999 10000000) p then n <- nint (f32_mul (f32_of 200) p) ;; Some (1600 + n)
        else if f32_leb (lit32 999999 100000000) p then n <- nint (f32_mul (f32_of 2000) p) ;; Some (1400 + n)
        else if f32_leb (lit32 999999 1000000000) p then n <- nint (f32_mul (f32_of 20000) p) ;; Some (1200 + n)
        else Some 0
      else None
    else Some BAD
  else if kind =? 3 then
    n <- nint p ;;
    Some (if (0 <=? n) && (n <=? 100) then 1200 - n else BAD)
  else Some BAD.

(** Mode above 0 (convip_plus.f90 140-154). *)
Definition to_ip (newencoding : bool) (p : f32) (kind : Z) : option Z :=
  if is_invalid_kind kind then Some BAD
  else if (kind =? 2) && f32_eqb p (f32_of 0) then Some 0
  else if newencoding then to_ip_new p kind else to_ip_old p kind.

(** The value of a pseudo mantissa and exponent (convip_plus.f90 272-273). *)
Definition value_of (itemp iexp kind : Z) : f32 := f32_div (narrow (f64_div (f64_of itemp) (exptab iexp))) (fact_val kind).
Definition out_of_range (p : f32) (kind : Z) : bool := f32_ltb p (low_val kind) || f32_ltb (hi_val kind) p.
(** The end of the decoding (convip_plus.f90 287-289). *)
Definition settle (p : f32) (kind : Z) : f32 * Z :=
  let p := if f32_ltb p (low_val kind) then low_val kind else p in
  let p := if f32_ltb (hi_val kind) p then hi_val kind else p in
  (if f32_ltb (Babs p) (f32_mul (lit32 1001 1000) (zero_val kind)) then zero_val2 kind else p, kind).
Definition invalid : f32 * Z := (f32_of BAD, -1).
(** New style (convip_plus.f90 258-289). *)
Definition from_ip_new (ip : Z) : f32 * Z :=
  let kind := Z.land 15 (Z.shiftr ip 24) in
  if kind =? 15 then match from_kind_15 ip with Some r => r | None => invalid end
  else if negb (validkind kind) then invalid
  else
    let iexp := Z.land 15 (Z.shiftr ip 20) in
    let itemp := Z.land 1048575 ip in
    let itemp := if 1000000 <? itemp then - (itemp - 1000000) else itemp in
    let p := value_of itemp iexp kind in
    if out_of_range p kind then
      if validkind (kind + 16) then
        let p := value_of itemp iexp (kind + 16) in
        if out_of_range p (kind + 16) then invalid else settle p (kind + 16)
      else invalid
    else settle p kind.
(** Old style (convip_plus.f90 296-330). *)
Definition from_ip_old (ip : Z) : f32 * Z :=
  if (12000 <? ip) && (ip <=? 32000) then (f32_of (5 * (ip - 12001)), 0)
  else if (2000 <=? ip) && (ip <=? 12000) then (f32_div (f32_of (ip - 2000)) (f32_of 10000), 1)
  else if (0 <=? ip) && (ip <? 1100) then (f32_of ip, 2)
  else if (1200 <? ip) && (ip <? 2000) then
    ((if ip <? 1400 then narrow (f64_div (widen (f32_of (ip - 1200))) (f64_of 20000))
      else if ip <? 1600 then narrow (f64_div (widen (f32_of (ip - 1400))) (f64_of 2000))
      else if ip <? 1800 then narrow (f64_div (widen (f32_of (ip - 1600))) (f64_of 200))
      else narrow (f64_div (widen (f32_of (ip - 1800))) (f64_of 20))), 2)
  else if (1100 <=? ip) && (ip <=? 1200) then (f32_sub (f32_of 1200) (f32_of ip), 3)
  else (f32_of ip, 3).
Definition from_ip (ip : Z) : f32 * Z := if 32767 <? ip then from_ip_new ip else from_ip_old ip.

(** CONVIP_plus (convip_plus.f90 10-339) called with mode 0, 1, 2, 3 or -1. The
    saved switch NEWSTYLE goes in and out, then ip, p and kind come out. *)
Definition convip (newstyle : bool) (ip : Z) (p : f32) (kind mode : Z) : option (bool * (Z * f32 * Z)) :=
  if mode =? 0 then Some (true, (ip, p, kind))
  else if 0 <? mode then
    let newencoding := if mode =? 2 then true else if mode =? 3 then false else newstyle in
    ip' <- to_ip newencoding p kind ;; Some (newstyle, (ip', p, kind))
  else let '(p', kind') := from_ip ip in Some (newstyle, (ip, p', kind')).
