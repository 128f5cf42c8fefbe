(** src/fstd98/convert_ip123.f90: the three integers of a record's position
    (ip1, ip2, ip3) from a level, a time and a third value, each perhaps a range,
    and back. The calls to CONVIP_plus are those of Convip.v with mode 2 or -1.
    The vector versions (encode_ip_1, encode_ip_3, decode_ip_1, decode_ip_3)
    only pass the elements of their arguments. *)
From Coq Require Import ZArith List Bool.
From Flocq Require Import BinarySingleNaN.
From Verif Require Import Bits Flo FloatField Convip.
Import ListNotations.
Open Scope Z_scope.
Open Scope opt_scope.

(** convert_ip123.f90 97-101 *)
Record float_ip := FIP { lo : f32; hi : f32; kd : Z }.
(** convert_ip123.f90 139-145 *)
Definition CONVERT_OK : Z := 0.
Definition CONVERT_GOOD_GUESS : Z := 2.
Definition CONVERT_TERRIBLE_GUESS : Z := 8.
Definition CONVERT_WARNING : Z := 32.
Definition CONVERT_ERROR : Z := 64.

(** The tables order and islevel (convert_ip123.f90 182-188) and the functions that
    read them (195-219). *)
Definition is_level (k : Z) : bool := existsb (Z.eqb k) [0; 1; 2; 3; 4; 5; 6; 7; 21].
Definition ascending (k : Z) : bool := existsb (Z.eqb k) [0; 4; 21].
Definition descending (k : Z) : bool := existsb (Z.eqb k) [1; 2; 7].

(** /= of two reals: true when one is a NaN. *)
Definition f32_neb (x y : f32) : bool := negb (f32_eqb x y).

(** encode_ip_0 (convert_ip123.f90 249-319): the status and the three integers.
    The three coordinates are pairs of a real and a kind, (0, -1) at first. *)
Definition encode_ip_0 (rp1 rp2 rp3 : float_ip) : option (Z * (Z * Z * Z)) :=
  let error := Some (CONVERT_ERROR, (-1, -1, -1)) in
  if is_invalid_kind (kd rp1) || is_invalid_kind (kd rp2) then error
  else if negb (is_level (kd rp1)) then error
  else
    let range1 := f32_neb (hi rp1) (lo rp1) in
    let c3 := if range1 then (hi rp1, kd rp1) else (f32_of 0, -1) in
    let turn1 := range1 && (f32_ltb (hi rp1) (lo rp1) && ascending (kd rp1) || f32_ltb (lo rp1) (hi rp1) && descending (kd rp1)) in
    let c1 := if turn1 then hi rp1 else lo rp1 in
    let c3 := if turn1 then (lo rp1, kd rp1) else c3 in
    if negb (kd rp2 =? 10) then error
    else
      let range2 := f32_neb (hi rp2) (lo rp2) in
      if range1 && range2 then error
      else
        let turn2 := range2 && f32_ltb (lo rp2) (hi rp2) in
        let c2 := if turn2 then hi rp2 else lo rp2 in
        let c3 := if range2 then (if turn2 then (lo rp2, kd rp2) else (hi rp2, kd rp2)) else c3 in
        if negb (range1 || range2) && is_invalid_kind (kd rp3) then error
        else
          let c3 := if range1 || range2 then c3 else (lo rp3, kd rp3) in
          ip1 <- to_ip true c1 (kd rp1) ;;
          ip2 <- to_ip true c2 (kd rp2) ;;
          ip3 <- to_ip true (fst c3) (snd c3) ;;
          Some (CONVERT_OK, (ip1, ip2, ip3)).

(** decode_ip_0 (convert_ip123.f90 358-420): the status and, unless a test jumps
    to label 777, the three coordinates; those left behind by such a jump are
    not modelled. kind(2) and kind(3) have no value when ip2 and ip3 are old
    codes: reading them is undefined ([None]). *)
Definition decode_ip_0 (ip1 ip2 ip3 : Z) : option (Z * option (float_ip * float_ip * float_ip)) :=
  let error := fun status => Some (Z.lor status CONVERT_ERROR, None) in
  if (ip1 <? 0) || (ip2 <? 0) || (ip3 <? 0) then error CONVERT_OK
  else
    let '(p1, kind1) := from_ip ip1 in
    if negb (is_level kind1) then error CONVERT_OK
    else
      let status := if ip1 <? 32768 then CONVERT_GOOD_GUESS else CONVERT_OK in
      let '(p2, kind2) := from_ip ip2 in
      if negb (ip2 <? 32768) && negb (kind2 =? 10) then error status
      else
        let '(p2, k2) := if ip2 <? 32768 then (f32_of ip2, None) else (p2, Some kind2) in
        let status := if ip2 <? 32768 then Z.lor status CONVERT_GOOD_GUESS else status in
        let '(p3, kind3) := from_ip ip3 in
        if negb (ip3 <? 32768) && (kind3 =? -1) then error status
        else
          let '(p3', k3) := if ip3 <? 32768 then (f32_of ip3, None) else (p3, Some kind3) in
          let status := if ip3 <? 32768 then Z.lor status CONVERT_TERRIBLE_GUESS else status in
          k3 <- k3 ;;
          ' r <- (if k3 =? 10 then k2' <- k2 ;; Some (k2' =? k3) else Some false) ;;
          let none := FIP (f32_of 0) (f32_of 0) (-1) in
          let '(rp1, rp2, rp3) :=
            if r then
              let '(l, h) := if f32_ltb p3' p2 then (p3', p2) else (p2, p3') in
              (FIP p1 p1 kind1, FIP l h 10, none)
            else if (k3 <=? 6) && (kind1 =? k3) then
              let '(l, h) := if f32_ltb p3' p1 && ascending k3 || f32_ltb p1 p3' && descending k3 then (p3', p1) else (p1, p3') in
              (FIP l h kind1, FIP p2 p2 10, none)
            else (FIP p1 p1 kind1, FIP p2 p2 10, FIP p3' p3' k3) in
          status <- (if 6 <? kind1 then Some (Z.lor status CONVERT_ERROR)
                     else k2' <- k2 ;; Some (if k2' =? 10 then status else Z.lor status CONVERT_ERROR)) ;;
          Some (status, Some (rp1, rp2, rp3)).

(** encode_ip_2 (convert_ip123.f90 496-540) *)
Definition encode_ip_2 (p1 : f32) (kind1 : Z) (p2 : f32) (kind2 : Z) (p3 : f32) (kind3 : Z) : option (Z * (Z * Z * Z)) :=
  let error := fun status => Some (Z.lor status CONVERT_ERROR, (-1, -1, -1)) in
  if is_invalid_kind kind1 || is_invalid_kind kind2 || is_invalid_kind kind3 then error CONVERT_OK
  else if negb (is_level kind1) then error CONVERT_OK
  else if negb (is_level kind2) && negb (kind2 =? 10) then error CONVERT_OK
  else
    let status := if is_level kind2 then CONVERT_WARNING else CONVERT_OK in
    ip1 <- to_ip true p1 kind1 ;;
    ip2 <- to_ip true p2 kind2 ;;
    ip3 <- to_ip true p3 kind3 ;;
    Some (status,
      if (kind1 =? kind2) && is_level kind1 && (kind3 =? 10) then
        let '(ip2, ip3, p3) := (ip3, ip2, p2) in
        let '(ip1, ip3) := if f32_ltb p3 p1 && ascending kind1 then (ip3, ip1) else (ip1, ip3) in
        let '(ip1, ip3) := if f32_ltb p1 p3 && descending kind1 then (ip3, ip1) else (ip1, ip3) in
        (ip1, ip2, ip3)
      else if (kind2 =? 10) && (kind3 =? 10) && f32_ltb p2 p3 then (ip1, ip3, ip2)
      else (ip1, ip2, ip3)).

(** decode_ip_2 (convert_ip123.f90 551-635): the status and, unless a test jumps
    to label 777, the three pairs. *)
Definition decode_ip_2 (ip1 ip2 ip3 : Z) : Z * option ((f32 * Z) * (f32 * Z) * (f32 * Z)) :=
  let error := fun status => (Z.lor status CONVERT_ERROR, None) in
  if (ip1 <? 0) || (ip2 <? 0) || (ip3 <? 0) then error CONVERT_OK
  else
    let '(ip1, ip2, status) := if snd (from_ip ip1) =? 10 then (ip2, ip1, CONVERT_WARNING) else (ip1, ip2, CONVERT_OK) in
    let '(p1, kind1) := from_ip ip1 in
    if is_invalid_kind kind1 then error status
    else
      let status := if ip1 <? 32768 then Z.lor status CONVERT_GOOD_GUESS else status in
      if negb (is_level kind1) then error status
      else
        let '(p2, kind2) := if ip2 <? 32768 then (f32_of ip2, 10) else from_ip ip2 in
        let status := if ip2 <? 32768 then Z.lor status CONVERT_GOOD_GUESS else status in
        if is_invalid_kind kind2 || negb (kind2 =? 10) && negb (is_level kind2) then error status
        else
          let status := if negb (kind2 =? 10) then Z.lor status CONVERT_WARNING else status in
          let '(p3, kind3) := if ip3 <? 32768 then (f32_of ip3, 3) else from_ip ip3 in
          let status := if ip3 <? 32768 then Z.lor status CONVERT_TERRIBLE_GUESS else status in
          if is_invalid_kind kind3 then error status
          else
            let '(p2, kind2, p3, kind3) := if (kind1 =? kind2) && (kind3 =? 10) then (p3, kind3, p2, kind2) else (p2, kind2, p3, kind3) in
            let '(p1, p3) := if kind1 =? kind3 then (if ascending kind1 && f32_ltb p3 p1 || descending kind1 && f32_ltb p1 p3 then (p3, p1) else (p1, p3)) else (p1, p3) in
            let '(p2, p3) := if (kind2 =? kind3) && (kind2 =? 10) then (if f32_ltb p2 p3 then (p3, p2) else (p2, p3)) else (p2, p3) in
            (status, Some ((p1, kind1), (p2, kind2), (p3, kind3))).
