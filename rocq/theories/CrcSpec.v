(** Specification of cyclic redundancy checks, one bit at a time (C64). Nothing here uses the model. *)
From Coq Require Import ZArith List.
Import ListNotations.
Open Scope Z_scope.

(** Checks that shift to the right, as in the annex of RFC 1952: [poly] has its bits reversed. *)
Definition right1 (poly x : Z) : Z := Z.lxor (Z.shiftr x 1) (if Z.odd x then poly else 0).
Definition right_byte (poly x v : Z) : Z := Nat.iter 8 (right1 poly) (Z.lxor x v).
(** Checks of [w] bits that shift to the left, as in section 6.1 of RFC 4880. *)
Definition left1 (w poly x : Z) : Z := Z.lxor (Z.shiftl x 1 mod 2 ^ w) (if Z.testbit x (w - 1) then poly else 0).
Definition left_byte (w poly x v : Z) : Z := Nat.iter 8 (left1 w poly) (Z.lxor x (Z.shiftl v (w - 8))).

(** The three checks: width, effect of one byte, first value, last exclusive or. *)
Inductive check := CRC16 | CRC24 | CRC32.
Definition width (c : check) : Z := match c with CRC16 => 16 | CRC24 => 24 | CRC32 => 32 end.
Definition one_byte (c : check) : Z -> Z -> Z := match c with CRC16 => right_byte 0xA001 | CRC24 => left_byte 24 0x864CFB | CRC32 => right_byte 0xEDB88320 end.
Definition first_value (c : check) : Z := match c with CRC16 => 0 | CRC24 => 0xB704CE | CRC32 => 0xFFFFFFFF end.
Definition last_xor (c : check) : Z := match c with CRC16 => 0 | CRC24 => 0 | CRC32 => 0xFFFFFFFF end.
(** The check of a message. *)
Definition crc (c : check) (m : list Z) : Z := Z.lxor (fold_left (one_byte c) m (first_value c)) (last_xor c).
(** What a call with mode 0 (first), 1 (next) or 2 (last) has to give. *)
Definition call (c : check) (mode old : Z) (m : list Z) : Z :=
  let r := fold_left (one_byte c) m (if mode =? 0 then first_value c else old mod 2 ^ width c) in
  if mode =? 2 then Z.lxor r (last_xor c) else r.
(** Words are lists of bytes, the most significant one first; in memory they are reversed on some machines. *)
Definition memory (le : bool) (ws : list (list Z)) : list Z := concat (if le then map (@rev Z) ws else ws).
Definition bytes (l : list Z) : Prop := Forall (fun v => 0 <= v < 256) l.
Definition words (size : Z) (ws : list (list Z)) : Prop := In size [1; 2; 4; 8] /\ Forall (fun w => Z.of_nat (length w) = size /\ bytes w) ws /\ size * Z.of_nat (length ws) < 2 ^ 31.
(** Every [stride]th byte of the first [len]. *)
Definition strided (buffer : list Z) (len stride : Z) : list Z := map (fun k => nth (Z.to_nat (Z.of_nat k * stride)) buffer 0) (seq 0 (Z.to_nat ((len + stride - 1) / stride))).
