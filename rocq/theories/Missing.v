(** Model of /repo/src/fstd98/fst_missing.c: encoding and decoding of missing
    values (with the default, built-in encoders and decoders, lines 1273-1290). *)
From Coq Require Import ZArith List Bool.
From Coq Require Import Floats.SpecFloat.
From Verif Require Import Bits CompactInt.
Import ListNotations.
Open Scope Z_scope.
Open Scope opt_scope.

(** The eight analysis, eight encoding and eight decoding functions are the
    same text for eight element types; the model has one function with the
    element type, its [==] and its [<] as parameters. *)
Section Kind.
Variable T : Type.
Variables (eqb ltb : T -> T -> bool).

(** fld_*_anal, lines 503-733: loop over field[1..]; returns the number of
    missing values, the maximum and the minimum. *)
Fixpoint anal_loop (miss : T) (l : list T) (mx mn : T) (missing : Z) : Z * T * T :=
  match l with
  | [] => (missing, mx, mn)
  | v :: r =>
    let mx1 := if eqb mx miss then v else mx in
    let mn1 := if eqb mn miss then v else mn in
    if eqb v miss then anal_loop miss r mx1 mn1 (missing + 1)
    else anal_loop miss r (if ltb mx1 v then v else mx1) (if ltb v mn1 then v else mn1) missing
  end.
(** field[0] is read even when nElems is 0: [None]. *)
Definition anal (miss : T) (field : list T) : option (Z * T * T) :=
  match field with
  | [] => None
  | v :: r => Some (anal_loop miss r v v (if eqb v miss then 1 else 0))
  end.

(** fst_*_decode_missing, lines 736-875: the loop starts at 1. *)
Definition decode_kind (miss : T) (field : list T) : option (list T) :=
  '(_, mx, _) <- anal miss field ;;
  match field with
  | [] => None
  | v :: r => Some (v :: map (fun x => if eqb x mx then miss else x) r)
  end.

(** fst_*_encode_missing, lines 879-1268. [plug] computes the replacement from
    the maximum, the minimum and the number of bits. [src] and [dst] hold
    exactly nElems elements. Returns the count and dst. *)
Definition encode_kind (miss : T) (plug : T -> T -> Z -> T) (dst src : list T) (nbits : Z) : option (Z * list T) :=
  '(missing, mx, mn) <- anal miss src ;;
  if missing =? 0 then Some (0, dst)
  else let p := plug mx mn nbits in
       Some (missing, map (fun x => if eqb x miss then p else x) src).
End Kind.
Arguments anal {T}. Arguments anal_loop {T}. Arguments decode_kind {T}. Arguments encode_kind {T}.

(** ** Integer types *)

(** Value of an unsigned number of [b] bits read as a two's complement one. *)
Definition sgn (b : Z) (v : Z) : Z := let w := v mod 2 ^ b in if w <? 2 ^ (b - 1) then w else w - 2 ^ b.

(** fst_int_encode_missing, lines 986-1008: plug2 is unsigned. The shift by
    32 - nbits is undefined for nbits <= 0, where the model value is
    irrelevant. *)
Definition plug_int (mx mn nbits : Z) : Z :=
  let plug2 := if nbits <? 32 then Z.shiftr 0xFFFFFFFF (32 - nbits) else 0xFFFFFFFF in
  let plug := sgn 32 (Z.shiftr plug2 1) in
  if mx <? plug then mx + 1 else plug.

(** fst_short_encode_missing, lines 1048-1065, and fst_byte_encode_missing,
    lines 1107-1124 (plain char is signed on the supported platforms): plug2 is
    signed, so that 0xFFFF is -1 and right shifts are arithmetic. *)
Definition plug_short (b : Z) (mx mn nbits : Z) : Z :=
  let p0 := sgn b (2 ^ b - 1) in
  let plug2 := if nbits <? b then sgn b (Z.shiftr p0 (b - nbits)) else p0 in
  let plug := sgn b (Z.shiftr plug2 1) in
  if mx <? plug then sgn b (mx + 1) else plug.

(** fst_uint_encode_missing, lines 1146-1158, fst_ushort_encode_missing, lines
    1201-1213, and fst_ubyte_encode_missing, lines 1248-1258. *)
Definition plug_uint (b : Z) (mx mn nbits : Z) : Z :=
  let plug := if nbits <? b then Z.shiftr (2 ^ b - 1) (b - nbits) else 2 ^ b - 1 in
  if mx <? plug then (mx + 1) mod 2 ^ b else plug.

(** ** Floating point types *)

(** float: prec 24, emax 128; double: prec 53, emax 1024. Conversion rounds to
    the nearest. *)
Definition sf_convert (prec emax : Z) (x : spec_float) : spec_float :=
  match x with
  | S754_finite s m e => binary_normalize prec emax (if s then Z.neg m else Z.pos m) e s
  | _ => x
  end.
Definition to_float := sf_convert 24 128.
Definition to_double := sf_convert 53 1024.
(** The literals: the double nearest to the decimal fraction, then converted to
    float in the table of factors. *)
Definition d001 : spec_float := SFdiv 53 1024 (binary_normalize 53 1024 1 0 false) (binary_normalize 53 1024 100 0 false).
Definition ffrac (n d : Z) : spec_float :=
  to_float (SFdiv 53 1024 (binary_normalize 53 1024 n 0 false) (binary_normalize 53 1024 d 0 false)).
(** lines 891 and 935: factor[0..8] (an array of float) *)
Definition factor (nbits : Z) : spec_float :=
  match nbits with
  | 0 => ffrac 2 1 | 1 => ffrac 11 10 | 2 => ffrac 55 100 | 3 => ffrac 28 100 | 4 => ffrac 14 100
  | 5 => ffrac 7 100 | 6 => ffrac 35 1000 | 7 => ffrac 17 1000 | _ => ffrac 1 100
  end.

(** fst_double_encode_missing, lines 897-909 *)
Definition plug_double (mx mn : spec_float) (nbits : Z) : spec_float :=
  let add := SFadd 53 1024 in let sub := SFsub 53 1024 in let mul := SFmul 53 1024 in
  let p := if 8 <? nbits then add mx (mul (sub mx mn) d001)
           else add mx (mul (sub mx mn) (to_double (factor nbits))) in
  if SFeqb p mx then
    if SFeqb mx (S754_zero false) then binary_normalize 53 1024 1 0 false
    else mul mx (binary_normalize 53 1024 2 0 false)
  else p.

(** fst_float_encode_missing, lines 941-953: the literals 0.01, 0.0, 1.0 and
    2.0 are doubles, max - min and the products with [factor] are floats. *)
Definition plug_float (mx mn : spec_float) (nbits : Z) : spec_float :=
  let d := SFsub 24 128 mx mn in
  let p := if 8 <? nbits then to_float (SFadd 53 1024 (to_double mx) (SFmul 53 1024 (to_double d) d001))
           else SFadd 24 128 mx (SFmul 24 128 d (factor nbits)) in
  if SFeqb p mx then
    if SFeqb mx (S754_zero false) then binary_normalize 24 128 1 0 false
    else to_float (SFmul 53 1024 (to_double mx) (binary_normalize 53 1024 2 0 false))
  else p.

(** ** Dispatch *)

(** The missing value of each type (lines 196-212). *)
Record flags := mkflags {
  m_float : spec_float; m_int : Z; m_uint : Z; m_double : spec_float;
  m_short : Z; m_ushort : Z; m_byte : Z; m_ubyte : Z }.
(** Integer defaults; the two floating point ones are -1.0E+38. *)
Definition m1e38 prec emax : spec_float := binary_normalize prec emax (- 10 ^ 38) 0 false.
Definition default_flags : flags :=
  mkflags (m1e38 24 128) (-2 ^ 31) (2 ^ 32 - 1) (m1e38 53 1024) (-2 ^ 15) (2 ^ 16 - 1) (-2 ^ 7) (2 ^ 8 - 1).

(** A field: integers or floating point numbers. *)
Inductive field := FInt (l : list Z) | FFloat (l : list spec_float).

Inductive kind := KFloat | KDouble | KInt | KShort | KByte | KUInt | KUShort | KUByte.
(** lines 1462-1498: which encoder; [None] when missing values do not apply. *)
Definition encode_select (datatype nbits : Z) (is_byte is_short is_double : bool) : option kind :=
  let t := Z.land datatype 0xF in
  if (t =? 1) || (t =? 5) || (t =? 6) then
    if is_double || ((t =? 5) && (nbits =? 64)) then Some KDouble else if 32 <? nbits then None else Some KFloat
  else if t =? 4 then Some (if is_short then KShort else if is_byte then KByte else KInt)
  else if t =? 2 then Some (if is_short then KUShort else if is_byte then KUByte else KUInt)
  else None.
(** lines 1577-1610: which decoder *)
Definition decode_select (datatype : Z) (is_byte is_short is_double : bool) : option kind :=
  let t := Z.land datatype 0xF in
  if (t =? 1) || (t =? 5) || (t =? 6) then Some (if is_double then KDouble else KFloat)
  else if t =? 4 then Some (if is_short then KShort else if is_byte then KByte else KInt)
  else if t =? 2 then Some (if is_short then KUShort else if is_byte then KUByte else KUInt)
  else None.

Definition enc_int (miss : Z) (plug : Z -> Z -> Z -> Z) (dst src : field) (nbits : Z) : option (Z * field) :=
  match dst, src with
  | FInt d, FInt s => '(n, r) <- encode_kind Z.eqb Z.ltb miss plug d s nbits ;; Some (n, FInt r)
  | _, _ => None
  end.
Definition enc_float (miss : spec_float) (plug : spec_float -> spec_float -> Z -> spec_float) (dst src : field) (nbits : Z)
  : option (Z * field) :=
  match dst, src with
  | FFloat d, FFloat s => '(n, r) <- encode_kind SFeqb SFltb miss plug d s nbits ;; Some (n, FFloat r)
  | _, _ => None
  end.
Definition dec_int (miss : Z) (f : field) : option field :=
  match f with FInt l => r <- decode_kind Z.eqb Z.ltb miss l ;; Some (FInt r) | _ => None end.
Definition dec_float (miss : spec_float) (f : field) : option field :=
  match f with FFloat l => r <- decode_kind SFeqb SFltb miss l ;; Some (FFloat r) | _ => None end.

(** EncodeMissingValue, lines 1433-1501. [used]: missing_value_used(). *)
Definition EncodeMissingValue (used : bool) (fl : flags) (dst src : field) (datatype nbits : Z)
  (is_byte is_short is_double : bool) : option (Z * field) :=
  if negb used then Some (0, dst) else
  match encode_select datatype nbits is_byte is_short is_double with
  | None => Some (0, dst)
  | Some KDouble => enc_float (m_double fl) plug_double dst src nbits
  | Some KFloat => enc_float (m_float fl) plug_float dst src nbits
  | Some KInt => enc_int (m_int fl) plug_int dst src nbits
  | Some KShort => enc_int (m_short fl) (plug_short 16) dst src nbits
  | Some KByte => enc_int (m_byte fl) (plug_short 8) dst src nbits
  | Some KUInt => enc_int (m_uint fl) (plug_uint 32) dst src nbits
  | Some KUShort => enc_int (m_ushort fl) (plug_uint 16) dst src nbits
  | Some KUByte => enc_int (m_ubyte fl) (plug_uint 8) dst src nbits
  end.

(** DecodeMissingValue, lines 1543-1611 *)
Definition DecodeMissingValue (used : bool) (fl : flags) (f : field) (datatype : Z)
  (is_byte is_short is_double : bool) : option field :=
  if negb used then Some f else
  match decode_select datatype is_byte is_short is_double with
  | None => Some f
  | Some KDouble => dec_float (m_double fl) f
  | Some KFloat => dec_float (m_float fl) f
  | Some KInt => dec_int (m_int fl) f
  | Some KShort => dec_int (m_short fl) f
  | Some KByte => dec_int (m_byte fl) f
  | Some KUInt => dec_int (m_uint fl) f
  | Some KUShort => dec_int (m_ushort fl) f
  | Some KUByte => dec_int (m_ubyte fl) f
  end.
