(** src/packers/float_packer.c: numbers of single precision packed as tokens of
    at most 16 bits. Numbers are the words that hold them; arithmetic and
    comparisons on them are those of Flo.v. *)
From Coq Require Import ZArith List Bool.
From Flocq Require Import BinarySingleNaN.
From Verif Require Import Bits BitIO Xdf Flo.
Import ListNotations.
Open Scope Z_scope.
Open Scope opt_scope.

(** The three fields of a word: sign, exponent, mantissa. *)
Definition w_sign (w : Z) : bool := 2 ^ 31 <=? w.
Definition w_exp (w : Z) : Z := (w / 2 ^ 23) mod 256.
Definition w_man (w : Z) : Z := w mod 2 ^ 23.

(** The number a word holds, and the word that holds a number (any one for what
    is not a number). *)
Definition word_f32 (w : Z) : f32 :=
  let sg (m : Z) := if w_sign w then - m else m in
  if w_exp w =? 255 then (if w_man w =? 0 then B754_infinity (w_sign w) else B754_nan)
  else if w_exp w =? 0 then binary_normalize 24 128 p24 e128 mode_NE (sg (w_man w)) (-149) (w_sign w)
  else binary_normalize 24 128 p24 e128 mode_NE (sg (2 ^ 23 + w_man w)) (w_exp w - 150) (w_sign w).
Definition f32_word (x : f32) : Z :=
  match x with
  | B754_zero s => if s then 2 ^ 31 else 0
  | B754_infinity s => (if s then 2 ^ 31 else 0) + 255 * 2 ^ 23
  | B754_nan => 255 * 2 ^ 23 + 2 ^ 22
  | B754_finite s m e _ =>
    (if s then 2 ^ 31 else 0) + (if Zpos m <? 2 ^ 23 then Zpos m else (e + 150) * 2 ^ 23 + (Zpos m - 2 ^ 23))
  end.

(** A 32-bit integer; the arithmetic of the code is undefined outside. *)
Definition i32 (n : Z) : option Z := if (- 2 ^ 31 <=? n) && (n <? 2 ^ 31) then Some n else None.

(** float_packer.c 136-143. *)
Definition min_max (ws : list Z) : option (Z * Z) :=
  match ws with
  | [] => None
  | z :: _ =>
    Some (fold_left (fun m z => if f32_ltb (word_f32 z) (word_f32 m) then z else m) ws z,
          fold_left (fun m z => if f32_ltb (word_f32 m) (word_f32 z) then z else m) ws z)
  end.

(** float_packer.c 149-154, 159-164, 186-191: mantissa brought to the largest
    exponent, with its sign. A negative count of shifts is undefined. *)
Definition scaled (maxexp w : Z) : option Z :=
  let shift := maxexp - w_exp w in
  if shift <? 0 then None
  else
    let m := Z.shiftr (2 ^ 23 + w_man w) (if 31 <? shift then 31 else shift) in
    Some (if w_sign w then - m else m).

(** float_packer.c 168-177: shift and rounding term. The counter bounds the
    loop. *)
Fixpoint fit (fuel : nat) (maximum mask round shift2 : Z) : option (Z * Z) :=
  if maximum <=? mask then Some (shift2, Z.shiftr round 1)
  else match fuel with
       | O => None
       | S f => fit f (Z.shiftr maximum 1) mask (Z.shiftl round 1) (shift2 + 1)
       end.

(** float_packer.c 185-195: the token of one number. *)
Definition token (maxexp minimum shift2 round mask w : Z) : option Z :=
  m <- scaled maxexp w ;;
  m <- i32 (m - minimum) ;;
  m <- i32 (m + round) ;;
  let m := Z.shiftr m shift2 in
  Some (if mask <? m then mask else m).
Fixpoint tokens (maxexp minimum shift2 round mask : Z) (ws : list Z) : option (list Z) :=
  match ws with
  | [] => Some []
  | w :: ws => t <- token maxexp minimum shift2 round mask w ;; ts <- tokens maxexp minimum shift2 round mask ws ;; Some (t :: ts)
  end.

(** float_packer.c 196-200: two tokens in a word, the last one alone in the
    upper half. [accu] is what the accumulator holds; its upper bits are lost by
    the shift. *)
Fixpoint store (accu : Z) (store_now : bool) (ts : list Z) : list Z :=
  match ts with
  | [] => if store_now then [w32 (Z.shiftl accu 16)] else []
  | t :: ts =>
    let accu' := w32 (Z.lor (Z.shiftl accu 16) t) in
    if store_now then accu' :: store accu' false ts else store accu' true ts
  end.

(** float_packer.c 128-202, 258-283: return code, header, stream. The first
    number is read even when there is none. [junk] is the uninitialised
    accumulator. *)
Definition c_float_packer (junk : Z) (ws : list Z) (nbits : Z) : option (Z * list Z * list Z) :=
  if (16 <? nbits) || (nbits <? 1) then Some (-1, [], [])
  else
    ' mm <- min_max ws ;;
    let '(fmin, fmax) := mm in
    let maxexp := Z.max (w_exp fmax) (w_exp fmin) in
    mx <- scaled maxexp fmax ;;
    let mx := if w_exp fmax <? 1 then 0 else mx in
    mn <- scaled maxexp fmin ;;
    let minimum := if w_exp fmin <? 1 then 0 else mn in
    maximum <- i32 (mx - minimum) ;;
    let mask := 2 ^ nbits - 1 in
    ' sr <- fit 32 maximum mask 1 0 ;;
    let '(shift2, round) := sr in
    ts <- tokens maxexp minimum shift2 round mask ws ;;
    let h0 := Z.lor (Z.lor (Z.lor (w32 (Z.shiftl 0xEFF 20)) (Z.shiftl (nbits - 1) 16)) (Z.shiftl (Z.land maxexp 0xFF) 8)) (Z.land shift2 0xFF) in
    Some (0, [h0; w32 minimum; w32 (Z.of_nat (length ws))], store junk false ts).

(** A word read as an integer. *)
Definition sgn32 (w : Z) : Z := if 2 ^ 31 <=? w then w - 2 ^ 32 else w.

(** float_packer.c 80-104: one token. [temp2] is zero when the hidden bit is
    there; that case does not subtract. *)
Definition untoken (maxexp minimum shift2 t : Z) : option Z :=
  if 31 <? shift2 then None
  else
    m <- i32 (Z.shiftl t shift2) ;;
    m <- i32 (m + minimum) ;;
    let sgn := m <? 0 in
    m <- i32 (if sgn then - m else m) ;;
    let m := if 0xFFFFFF <? m then 0xFFFFFF else m in
    let sbit := if sgn then 2 ^ 31 else 0 in
    let temp := Z.lor (Z.lor (Z.land m (2 ^ 23 - 1)) (Z.shiftl maxexp 23)) sbit in
    if Z.testbit m 23 then Some temp
    else
      let temp2 := Z.lor (Z.shiftl maxexp 23) sbit in
      Some (f32_word (f32_sub (word_f32 temp) (word_f32 temp2))).

(** float_packer.c 75-111: after every second token the next word is read,
    whether a token is left or not. *)
Fixpoint unpack_loop (maxexp minimum shift2 : Z) (n : nat) (accu : Z) (fetch : bool) (stream : list Z) : option (list Z) :=
  match n with
  | O => Some []
  | S n =>
    x <- untoken maxexp minimum shift2 (Z.land (Z.shiftr accu 16) 0xFFFF) ;;
    if fetch then
      match stream with
      | [] => None
      | a :: stream => xs <- unpack_loop maxexp minimum shift2 n a false stream ;; Some (x :: xs)
      end
    else xs <- unpack_loop maxexp minimum shift2 n (w32 (Z.shiftl accu 16)) true stream ;; Some (x :: xs)
  end.

(** float_packer.c 44-113, 219-240: return code, number of bits, numbers. *)
Definition c_float_unpacker (header stream : list Z) (npts : Z) : option (Z * Z * list Z) :=
  h0 <- nth_error header 0 ;;
  let nbits := Z.land (Z.shiftr h0 16) 0xF + 1 in
  if negb (Z.land (Z.shiftr h0 20) 0xFFF =? 0xEFF) then Some (-1, nbits, [])
  else
    h2 <- nth_error header 2 ;;
    if negb (npts =? sgn32 h2) then Some (-1, nbits, [])
    else
      h1 <- nth_error header 1 ;;
      let minimum := sgn32 h1 in
      let maxexp := Z.land (Z.shiftr h0 8) 0xFF in
      let shift2 := Z.land h0 0xFF in
      if maxexp =? 0 then Some (0, nbits, repeat 0 (Z.to_nat npts))
      else
        match stream with
        | [] => None
        | a :: stream => xs <- unpack_loop maxexp minimum shift2 (Z.to_nat npts) a false stream ;; Some (0, nbits, xs)
        end.
