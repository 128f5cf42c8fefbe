(** Dates: model of src/base/moduledate.f90 (newdate, incdat, difdat), datec.f
    and jdatec.f, with the gregorian calendar.

    Fortran integer division truncates: [Z.quot], [Z.rem]. Intermediate values
    are not wrapped to 32 bits, except the transfer of an extended stamp.
    [None] means the function returned 1 (bad arguments). *)
From Coq Require Import ZArith List Lia Bool.
From Verif Require Import Bits.
Import ListNotations.
Open Scope Z_scope.
Open Scope opt_scope.

Infix "/f" := Z.quot (at level 40, left associativity).
Infix "%f" := Z.rem (at level 40, left associativity).

(** moduledate.f90 1275-1277, jdatec.f 60-62: the julian day. *)
Definition jd (y m d : Z) : Z :=
  d - 32075 + 1461 * (y + 4800 + (m - 14) /f 12) /f 4
  + 367 * (m - 2 - (m - 14) /f 12 * 12) /f 12
  - 3 * ((y + 4900 + (m - 14) /f 12) /f 100) /f 4.

(** datec.f 57-66 *)
Definition datec (j : Z) : Z * Z * Z :=
  let l := j + 68569 in
  let n := 4 * l /f 146097 in
  let l := l - (146097 * n + 3) /f 4 in
  let i := 4000 * (l + 1) /f 1461001 in
  let l := l - 1461 * i /f 4 + 31 in
  let jj := 80 * l /f 2447 in
  let k := l - 2447 * jj /f 80 in
  let l := jj /f 11 in
  (100 * (n - 49) + i + l, jj + 2 - 12 * l, k).

(** moduledate.f90 1249-1255: constants. *)
Definition tdstart : Z := 123200000.
Definition jd1980 : Z := 2444240.
Definition jd1900 : Z := 2415021.
Definition jd0 : Z := 1721060.
Definition jd10k : Z := 5373485.
Definition max_offset : Z := 109572750.
Definition jd2236 : Z := 2537742.
Definition exception : Z := 16663825.
Definition td2000 : Z := 126230400.
Definition td1900 : Z := -504904320.
Definition td2235 : Z := 1615714548.
Definition troisg : Z := 3000000000.
Definition mdays (m : Z) : Z := nth (Z.to_nat (m - 1)) [31; 29; 31; 30; 31; 30; 31; 31; 30; 31; 30; 31] 0.

(** moduledate.f90 1281-1282 *)
Definition validtd (t : Z) : bool := (0 <=? t) || ((t <? 0) && (td1900 <=? t) && ((t - td1900) %f 720 =? 0)).
(** moduledate.f90 1286-1290. A month outside 1 .. 12 is taken as refused,
    although mdays(month) may be read first. *)
Definition validtm (y m d z : Z) : bool :=
  (1900 <=? y) && (y <? 2236) && (m <=? 12) && (d <=? mdays m) && (z <=? 23) && (0 <? m) && (0 <? d) && (0 <=? z).
(** moduledate.f90 1292-1296 *)
Definition validtme (y m d z : Z) : bool :=
  (0 <=? y) && (y <? 10000) && (0 <? m) && (m <=? 12) && (0 <? d) && (d <=? mdays m) && (0 <=? z) && (z <=? 23).
(** moduledate.f90 1298-1300 *)
Definition bissextile (y : Z) : bool := ((y %f 4 =? 0) && negb (y %f 100 =? 0)) || (y %f 400 =? 0).
(** 1339-1341, 1364-1366, ... *)
Definition feb29_ok (y m d : Z) : bool := negb ((m =? 2) && (d =? 29)) || bissextile y.

(** A 64-bit value stored in a 32-bit integer. *)
Definition int32 (v : Z) : Z := let u := v mod 2 ^ 32 in if u <? 2 ^ 31 then u else u - 2 ^ 32.

(** 1371, 1423, 1494, 1534: the encoding of a count on the base 10 of 8 digits. *)
Definition enc8 (t : Z) : Z := (t /f 8) * 10 + t %f 8.
(** 1325, 1439, 1515, 1563 *)
Definition dec8 (s : Z) : Z := s /f 10 * 8 + s %f 10.

(** moduledate.f90 1499-1527, mode -5: extended stamp to printable. *)
Definition mode_m5 (dat1 : Z) : option (Z * Z) :=
  let u := dat1 mod 2 ^ 32 in
  if (u <? troisg) || (troisg + max_offset <=? u) then None else
  let t := dec8 (u - troisg) in
  let '(y, m, d) := datec (jd0 + t /f 24) in
  let z := t %f 24 in
  if negb (validtme y m d z) then None else
  if negb (feb29_ok y m d) then None else
  Some (y * 10000 + m * 100 + d, z * 1000000).

(** moduledate.f90 1317-1344, mode -3: stamp to printable. *)
Definition mode_m3 (dat1 : Z) : option (Z * Z) :=
  let s := dat1 in
  if s <? -1 then mode_m5 dat1 else
  let '(y, m, d, z, dtpr, tmpr) :=
    if tdstart <=? s then
      let t := dec8 (s - tdstart) in
      let '(y, m, d) := datec (jd1900 + (t - td1900) /f 17280) in
      let z := (t - td1900) %f 17280 /f 720 in
      let sec := ((t - td1900) %f 17280 - z * 720) * 5 in
      (y, m, d, z, y * 10000 + m * 100 + d, z * 1000000 + (sec /f 60) * 10000 + sec %f 60 * 100)
    else
      let z := s /f 10 %f 100 in
      let y := s /f 1000 %f 100 + 1900 in
      let d := s /f 100000 %f 100 in
      let m := s /f 10000000 %f 100 in
      (y, m, d, z, y * 10000 + m * 100 + d, z * 1000000) in
  if negb (validtm y m d z) then None else
  if negb (feb29_ok y m d) then None else
  Some (dtpr, tmpr).

(** moduledate.f90 1472-1497, mode 5: printable to extended stamp. *)
Definition mode_5 (dtpr tmpr : Z) : option Z :=
  let y := dtpr /f 10000 %f 10000 in
  let m := dtpr /f 100 %f 100 in
  let d := dtpr %f 100 in
  let z := tmpr /f 1000000 %f 100 in
  let mi := tmpr /f 10000 %f 100 in
  if negb (validtme y m d z) then None else
  if negb (feb29_ok y m d) then None else
  let t := jd y m d in
  if (t <? jd0) || (jd10k <=? t) then None else
  let t := (t - jd0) * 24 + z + mi /f 60 in
  Some (int32 (enc8 t + troisg)).

(** moduledate.f90 1349-1378, mode 3: printable to stamp. *)
Definition mode_3 (dtpr tmpr : Z) : option Z :=
  let y := dtpr /f 10000 %f 10000 in
  if (dtpr =? 19010101) && (tmpr =? 1000000) then mode_5 dtpr tmpr else
  if (y <? 1900) || (2235 <? y) then mode_5 dtpr tmpr else
  let m := dtpr /f 100 %f 100 in
  let d := dtpr %f 100 in
  let z := tmpr /f 1000000 %f 100 in
  let sec := tmpr /f 10000 %f 100 * 60 + tmpr /f 100 %f 100 in
  if negb (validtm y m d z) then None else
  if negb (feb29_ok y m d) then None else
  let t := (jd y m d - jd1980) * 17280 + z * 720 + sec /f 5 in
  if (2000 <=? y) || ((1980 <=? y) && negb (sec =? 0)) then Some (tdstart + enc8 t) else
  let t := (t - td1900) /f 720 * 720 + td1900 in
  let '(y, m, d) := datec (jd1900 + (t - td1900) /f 17280) in
  let z := (t - td1900) %f 17280 /f 720 in
  Some (m * 10000000 + d * 100000 + (y - 1900) * 1000 + z * 10).

(** moduledate.f90 1384-1391, mode -2: true date to printable. *)
Definition mode_m2 (t : Z) : option (Z * Z) :=
  if negb (validtd t) then None else
  let '(y, m, d) := datec (jd1900 + (t - td1900) /f 17280) in
  let z := (t - td1900) %f 17280 /f 720 in
  let sec := ((t - td1900) %f 17280 - z * 720) * 5 in
  Some (y * 10000 + m * 100 + d, z * 1000000 + sec /f 60 * 10000 + sec %f 60 * 100).

(** moduledate.f90 1607-1627, mode 7: printable to extended true date. *)
Definition mode_7 (dtpr tmpr : Z) : option Z :=
  let y := dtpr /f 10000 %f 10000 in
  if (y <? 0) || (10000 <=? y) then None else
  let m := dtpr /f 100 %f 100 in
  let d := dtpr %f 100 in
  let z := tmpr /f 1000000 %f 100 in
  if negb (validtme y m d z) then None else
  if negb (feb29_ok y m d) then None else
  Some ((jd y m d - jd0) * 24 + z).

(** moduledate.f90 1396-1412, mode 2: printable to true date. *)
Definition mode_2 (dtpr tmpr : Z) : option Z :=
  if (dtpr =? 19010101) && (tmpr =? 1000000) then mode_7 dtpr tmpr else
  let y := dtpr /f 10000 %f 10000 in
  let m := dtpr /f 100 %f 100 in
  let d := dtpr %f 100 in
  let z := tmpr /f 1000000 %f 100 in
  let sec := tmpr /f 10000 %f 100 * 60 + tmpr /f 100 %f 100 in
  if negb (validtm y m d z) then None else
  if negb (feb29_ok y m d) then None else
  Some ((jd y m d - jd1980) * 17280 + z * 720 + sec /f 5).

(** moduledate.f90 1417-1432, mode -1: true date and run number to stamp. *)
Definition mode_m1 (t run : Z) : option Z :=
  if (9 <? run) || negb (validtd t) then None else
  if (td2000 <=? t) || negb (t %f 720 =? 0) then Some (tdstart + enc8 t) else
  let '(y, m, d) := datec (jd1900 + (t - td1900) /f 17280) in
  let t := (t - td1900) /f 720 * 720 + td1900 in
  let z := (t - td1900) %f 17280 /f 720 in
  Some (m * 10000000 + d * 100000 + (y - 1900) * 1000 + z * 10 + run).

(** moduledate.f90 1437-1458, mode 1: stamp to true date and run number. *)
Definition mode_1 (s : Z) : option (Z * Z) :=
  if (tdstart <=? s) then
    let t := dec8 (s - tdstart) in
    if negb (validtd t) then None else Some (t, 0)
  else if s <? -1 then None
  else
    let run := s %f 10 in
    let z := s /f 10 %f 100 in
    let y := s /f 1000 %f 100 + 1900 in
    let d := s /f 100000 %f 100 in
    let m := s /f 10000000 %f 100 in
    let t := (jd y m d - jd1980) * 17280 + z * 720 in
    if negb (validtd t) then None else Some (t, run).

(** moduledate.f90 1532-1544, mode -6: extended true date to stamp. *)
Definition mode_m6 (t : Z) : option Z :=
  if (t =? exception) || (t /f 24 + jd0 <? jd1900) || (jd2236 <=? t /f 24 + jd0) then Some (int32 (enc8 t + troisg))
  else mode_m1 ((t /f 24 + jd0 - jd1980) * 17280 + t %f 24 * 720) 0.

(** moduledate.f90 1549-1590, mode 6: stamp to extended true date. The run
    number is left out. *)
Definition mode_6 (s : Z) : option Z :=
  if s <? -1 then
    let u := s mod 2 ^ 32 in
    if (u <? troisg) || (troisg + max_offset <? u) then None else Some (dec8 (u - troisg))
  else
    let t :=
      if tdstart <=? s then
        let t := dec8 (s - tdstart) in
        let '(y, m, d) := datec (jd1900 + (t - td1900) /f 17280) in
        (jd y m d - jd0) * 24 + (t - td1900) %f 17280 /f 720
      else
        let z := s /f 10 %f 100 in
        let y := s /f 1000 %f 100 + 1900 in
        let d := s /f 100000 %f 100 in
        let m := s /f 10000000 %f 100 in
        (jd y m d - jd0) * 24 + z in
    if negb (validtd t) then None else Some t.

(** moduledate.f90 1594-1605, mode -7: extended true date to printable. *)
Definition mode_m7 (t : Z) : option (Z * Z) :=
  if negb (validtd t) then None else
  let '(y, m, d) := datec (jd0 + t /f 24) in
  let z := t %f 24 in
  if negb (validtme y m d z) then None else
  if negb (feb29_ok y m d) then None else
  Some (y * 10000 + m * 100 + d, z * 1000000).

(** moduledate.f90 579-594, mode 4: date array to stamp. [a]: words 2 to 6
    (month, day, year, hour, hundredths of second). *)
Definition itdmag2 (mo d y z h : Z) : Z :=
  let y := if (0 <=? y) && (y <=? 99) then y + 1900 else y in
  match mode_3 (y * 10000 + mo * 100 + d) (z * 1000000 + (h /f 6000) * 10000 + (h /f 100) %f 60 * 100) with
  | Some s => s
  | None => 101010101
  end.
(** moduledate.f90 655-690, mode -4: stamp to date array, words 1 to 6. The
    character words 7 to 13 are not modelled. *)
Definition dmagtp2 (s : Z) : Z * Z * Z * Z * Z * Z :=
  let '(dtpr, tmpr) := match mode_m3 s with Some r => r | None => (19101010, 10000000) end in
  let mo := dtpr /f 100 %f 100 in
  let d := dtpr %f 100 in
  let y := dtpr /f 10000 %f 10000 in
  let z := tmpr /f 1000000 %f 100 in
  let h := tmpr /f 10000 %f 100 * 6000 + tmpr /f 100 %f 100 * 100 + tmpr %f 100 in
  (1 + (jd y mo d + 1) %f 7, mo, d, y, z, h).

(** nint(k / n): nearest integer, halves away from zero. *)
Definition nint (k n : Z) : Z := if 0 <=? k then (2 * k + n) /f (2 * n) else - ((- 2 * k + n) /f (2 * n)).
(** sign(360, t) added, then rounded to hours (471, 517-518). *)
Definition round_hour (t : Z) : Z := (t + (if 0 <=? t then 360 else -360)) /f 720 * 720.

(** moduledate.f90 274-377, 416-515: incdatr ([rounding] false) and incdati.
    nhours is [k] / 720: a whole number of 5 second steps; the products and
    quotients of real*8 numbers are taken as exact. *)
Definition incdat (rounding : bool) (idate2 k : Z) : option Z :=
  if idate2 <? -1 then
    t2 <- mode_6 idate2 ;;
    mode_m6 (t2 + nint k 720)
  else
    ' p <- mode_1 idate2 ;;
    let '(t2, run) := p in
    let rounding := rounding || (t2 <? 0) in
    let '(t2, addit) := if rounding then (round_hour t2, 720 * nint k 720) else (t2, k) in
    if (td1900 - t2 <=? addit) && (addit <=? td2235 - t2) then mode_m1 (t2 + addit) run
    else
      ' q <- mode_m3 idate2 ;;
      let '(p1, p2) := q in
      t2 <- mode_7 p1 p2 ;;
      mode_m6 (t2 + nint k 720).
(** 532-536: what the caller gets in idate1. *)
Definition incdat_out (r : option Z) : Z := match r with Some s => s | None => 101010101 end.

(** moduledate.f90 381-439, 455-460, 515-531: difdatr and difdati. The result
    is 720 times nhours. *)
Definition ext_hours (s : Z) : option Z :=
  if -1 <? s then ' q <- mode_m3 s ;; let '(p1, p2) := q in mode_7 p1 p2 else mode_6 s.
Definition difdat (rounding : bool) (idate1 idate2 : Z) : option Z :=
  if (idate2 <? -1) || (idate1 <? -1) then
    t1 <- ext_hours idate1 ;;
    t2 <- ext_hours idate2 ;;
    Some (720 * (t1 - t2))
  else
    ' p1 <- mode_1 idate1 ;;
    ' p2 <- mode_1 idate2 ;;
    let '(t1, _) := p1 in
    let '(t2, _) := p2 in
    if rounding then Some (720 * nint (round_hour t1 - round_hour t2) 720) else Some (t1 - t2).
