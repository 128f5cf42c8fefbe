(** src/packers/compact.tmplc, instance compact_float (compact.c 33-37): fields
    of single precision numbers packed as tokens of 1 to 32 bits behind a header.
    The numbers are the words that hold them. Arithmetic in double precision is
    that of Flo.v. The header and the tokens lie in one memory [mem] of 32-bit
    words: the header at word [hp], the array of tokens at word [ap]. *)
From Coq Require Import ZArith List Bool.
From Flocq Require Import BinarySingleNaN.
From Verif Require Import Bits BitIO CompactInt Flo FloatPack.
Import ListNotations.
Open Scope Z_scope.
Open Scope opt_scope.

(** The conversions between float and double. *)
Definition widen (x : f32) : f64 :=
  match x with
  | B754_zero s => B754_zero s
  | B754_infinity s => B754_infinity s
  | B754_nan => B754_nan
  | B754_finite s m e _ => binary_normalize 53 1024 p53 e1024 mode_NE (if s then Zneg m else Zpos m) e s
  end.
Definition narrow (x : f64) : f32 :=
  match x with
  | B754_zero s => B754_zero s
  | B754_infinity s => B754_infinity s
  | B754_nan => B754_nan
  | B754_finite s m e _ => binary_normalize 24 128 p24 e128 mode_NE (if s then Zneg m else Zpos m) e s
  end.

(** include/bitPacking.h 10-12, 18-20: the fields [expo] of a double, and
    [mantis1], [mantis2] taken together. *)
Definition f64_expo (x : f64) : Z :=
  match x with
  | B754_zero _ => 0
  | B754_finite _ m e _ => if 2 ^ 52 <=? Zpos m then e + 1075 else 0
  | _ => 2047
  end.
Definition f64_man23 (x : f64) : Z :=
  match x with
  | B754_finite _ m _ _ => (Zpos m mod 2 ^ 52) / 2 ^ 29
  | _ => 0
  end.

(** powerOf2s (compact.tmplc 128-135) and f_pow (f_pow.f 20-25) with base 2:
    powers of 2 are exact. *)
Definition f64_pow2 (k : Z) : f64 := f64_lit 1 k.

(** The conversion of a double to int64_t, then to a 32-bit unsigned integer;
    undefined when it is not a 64-bit integer. *)
Definition f64_u32 (x : f64) : option Z :=
  if is_finite x then
    let n := Btrunc x in
    if (- 2 ^ 63 <=? n) && (n <? 2 ^ 63) then Some (n mod 2 ^ 32) else None
  else None.

(** compact.c 24 (MAX_RANGE), and the factor of compact.tmplc 420: the nearest
    doubles to 10^38 and 1 + 10^-13. *)
Definition MAX_RANGE : f64 := f64_lit (10 ^ 38) 0.
Definition MIN_RANGE : f64 := f64_lit (- 10 ^ 38) 0.
Definition one_and_a_bit : f64 := f64_div (f64_of (10 ^ 13 + 1)) (f64_of (10 ^ 13)).

(** compact.tmplc 171-202: minimum and maximum, without the missing values.
    Undefined when every value is missing: line 188 then runs past the array.
    Simplification: the code compares floats to doubles that hold floats. *)
Definition is_tag (tag : option Z) (w : Z) : bool :=
  match tag with None => false | Some t => f32_eqb (word_f32 w) (word_f32 t) end.
Definition extremes (tag : option Z) (ws : list Z) : option (Z * Z) :=
  match filter (fun w => negb (is_tag tag w)) ws with
  | [] => None
  | z :: r =>
    Some (fold_left (fun m w =>
      if f32_ltb (word_f32 w) (word_f32 (fst m)) then (w, snd m)
      else if f32_ltb (word_f32 (snd m)) (word_f32 w) then (fst m, w) else m) r (z, z))
  end.

Definition f64_eqz (x : f64) : bool := Beqb x (f64_of 0).
Definition all_ones (b : nat) : Z := 2 ^ Z.of_nat b - 1.

(** 208-234: the exponent of the range. *)
Definition range_expo (tag : option Z) (b : nat) (mn mx : f64) : option Z :=
  let diff := f64_sub mx mn in
  let er := f64_expo (f64_mul diff (f64_of 2)) in
  if er =? 0 then Some 0
  else
    tmp <- f64_u32 (f64_div (f64_mul diff (f64_pow2 (Z.of_nat b))) (f64_pow2 (er - 1023))) ;;
    Some ((if (tmp =? all_ones b) && (match tag with Some _ => true | None => false end) then er + 1 else er) - 1023).

(** 269-286: the four words of the header. *)
Definition marker (style1 : bool) (tag : option Z) : Z :=
  match tag with Some _ => if style1 then 0x7ef else 0xfef | None => if style1 then 0x7ff else 0xfff end.
Definition field_header (style1 : bool) (tag : option Z) (b n : nat) (te : Z) (mn : f64) : list Z :=
  let zero := f64_eqz mn in
  let scaledMin := (f64_expo mn - 1023 + 1024 - 48) mod 2 ^ 32 in
  let scaledMin := if zero then Z.land scaledMin 0x111 else scaledMin in
  let sign := if f64_ltb mn (f64_of 0) then 1 else 0 in
  let N := Z.of_nat n in
  [ Z.lor (Z.shiftl (marker style1 tag) 20) (N mod 2 ^ 20);
    Z.lor ((Z.shiftl (te - Z.of_nat b + 4096) 16) mod 2 ^ 32) (Z.lor ((Z.shiftl scaledMin 4) mod 2 ^ 32) sign);
    if zero then 0 else Z.lor (2 ^ 31) (Z.shiftl (f64_man23 mn) 8);
    Z.lor (Z.shiftl (Z.of_nat b) 8) ((N / 2 ^ 20) mod 2 ^ 8) ].

(** 305-332: the token of a value. Simplification: line 315 (whole words, b = 32)
    converts to unsigned int without int64_t, which differs only out of range. *)
Definition field_token (tag : option Z) (b : nat) (mn mul : f64) (w : Z) : option Z :=
  if is_tag tag w then Some (all_ones b)
  else f64_u32 (f64_mul (f64_sub (widen (word_f32 w)) mn) mul).
Fixpoint field_tokens (tag : option Z) (b : nat) (mn mul : f64) (ws : list Z) : option (list Z) :=
  match ws with
  | [] => Some []
  | w :: ws => t <- field_token tag b mn mul w ;; ts <- field_tokens tag b mn mul ws ;; Some (t :: ts)
  end.

(** What a call does: it ends the program, returns NULL, or returns with the
    memory changed. *)
Inductive fout := FExit | FNull | FDone (mem : list Z).

(** 109-338 (FLOAT_PACK). [tag] is the missing value when hasMissing is 1.
    Simplification: tokens wider than 32 bits are not modelled. *)
Definition style_one (hp ap off : nat) : bool :=
  ((ap =? hp + 3) && (off =? 24) || (ap =? hp) && (off =? 120))%nat.
Definition compact_float_pack (orc : oracle) (field mem : list Z) (hp ap off n size stride : nat) (tag : option Z) : option fout :=
  if (size =? 0)%nat then Some FNull
  else if (size =? 1)%nat && (match tag with Some _ => true | None => false end) then Some FNull
  else
    let e := if (64 <? size)%nat then (size / 64)%nat else size in
    let b := if (64 <? size)%nat then (size mod 64)%nat else size in
    if (32 <? b)%nat || (32 <? e)%nat then None
    else
      let style1 := style_one hp ap off in
      if negb style1 && (2 ^ 28 - 1 <? Z.of_nat n) then Some FNull
      else
        ws <- gather field stride n ;;
        ' (lo, hi) <- extremes tag ws ;;
        let mn := widen (word_f32 lo) in
        let mx := widen (word_f32 hi) in
        if f64_ltb MAX_RANGE mx || f64_ltb mn MIN_RANGE then Some FExit
        else
          te <- range_expo tag b mn mx ;;
          let mul := f64_div (f64_pow2 (Z.of_nat b)) (f64_pow2 te) in
          ts <- field_tokens tag b mn mul ws ;;
          m <- put_words mem hp (field_header style1 tag b n te mn) ;;
          m <- pack_tokens orc m (32 * ap + off) e (-1) ts ;;
          Some (FDone m).

(** 376-390: the minimum found in the header, a float. *)
Definition header_min (h1 h2 : Z) : Z :=
  let minExpo := Z.land (Z.shiftr h1 4) 0xfff in
  if (h2 =? 0) || (minExpo <? 849) then 0
  else
    (Z.land h1 1) * 2 ^ 31 + ((minExpo + 127 - 1024 + 48) mod 256) * 2 ^ 23 + Z.land (Z.shiftr h2 8) 0x7fffff.

(** 415-421: the value of a token. *)
Definition field_value (tag : option Z) (b : nat) (mn : Z) (mul : f64) (t : Z) : Z :=
  match tag with
  | Some w => if t =? all_ones b then w else
    if t =? 0 then mn else f32_word (narrow (f64_add (f64_mul (f64_mul (f64_of t) mul) one_and_a_bit) (widen (word_f32 mn))))
  | None =>
    if t =? 0 then mn else f32_word (narrow (f64_add (f64_mul (f64_mul (f64_of t) mul) one_and_a_bit) (widen (word_f32 mn))))
  end.

(** 340-426 (FLOAT_UNPACK). *)
Definition compact_float_unpack (orc : oracle) (dst mem : list Z) (hp ap off n size stride : nat) (tag : option Z) : option (option (list Z)) :=
  if (size =? 0)%nat then Some None
  else if (size =? 1)%nat && (match tag with Some _ => true | None => false end) then Some None
  else
    h0 <- rd mem hp ;; h1 <- rd mem (hp + 1) ;; h2 <- rd mem (hp + 2) ;; h3 <- rd mem (hp + 3) ;;
    let m := Z.shiftr h0 20 in
    let count := if (m =? 0x7ff) || (m =? 0x7ef) then n
                 else Z.to_nat (Z.lor (Z.shiftl (Z.land h3 0xff) 20) (Z.land h0 0xfffff)) in
    let tokenSize := Z.to_nat (Z.land (Z.shiftr h3 8) 0xff) in
    let mul := f64_pow2 (Z.shiftr h1 16 - 4096) in
    let mn := header_min h1 h2 in
    d <- unpack_tokens orc mem (32 * ap + off) tokenSize (field_value tag tokenSize mn mul) stride count dst ;;
    Some (Some d).
