(** Model of the bit packing macros of /repo/include/bitPacking.h. *)
From Coq Require Import ZArith List Lia Bool.
From Verif Require Import Bits.
Import ListNotations.
Open Scope Z_scope.
Open Scope opt_scope.

(** What the machine returns for a 32-bit shift by 32 or more, which C leaves
    undefined (first argument: true for a left shift). Theorems quantify over it. Simplification: undefined behaviour
    is restricted to "some value". *)
Definition oracle := bool -> Z -> nat -> Z.

(** uint32_t left and right shifts (C semantics, count given as [nat]). *)
Definition shl32 (orc : oracle) (x : Z) (n : nat) : Z :=
  if (n <? 32)%nat then (Z.shiftl x (Z.of_nat n)) mod 2 ^ 32 else (orc true x n) mod 2 ^ 32.
Definition shr32 (orc : oracle) (x : Z) (n : nat) : Z :=
  if (n <? 32)%nat then Z.shiftr x (Z.of_nat n) else (orc false x n) mod 2 ^ 32.

(** x86: the shift count is taken modulo 32. *)
Definition x86 : oracle := fun left x n =>
  if left then Z.shiftl x (Z.of_nat (n mod 32)) else Z.shiftr x (Z.of_nat (n mod 32)).

(** State of a packing loop: destination array, availableWordPtr as an index,
    lastWordShifted, spaceInLastWord. (lastSlot is a counter nobody reads.) *)
Record wst := mkw { w_mem : list Z; w_ptr : nat; w_lws : Z; w_sp : nat }.

(** include/bitPacking.h lines 126-140 (macro [stuff], wordSize = 32).
    [-1 >> k] is the arithmetic shift of the int -1. *)
Definition stuff (orc : oracle) (tok : Z) (b : nat) (s : wst) : option wst :=
  if (b <=? w_sp s)%nat then
    Some (mkw (w_mem s) (w_ptr s) (Z.lor (shl32 orc (w_lws s) b) tok) (w_sp s - b))
  else
    m <- wr (w_mem s) (w_ptr s)
            (Z.lor (shl32 orc (w_lws s) (w_sp s)) (shr32 orc tok (b - w_sp s))) ;;
    Some (mkw m (S (w_ptr s))
              (Z.land tok (Z.shiftr (-1) (Z.of_nat (32 - (b - w_sp s)))))
              (32 - (b - w_sp s))).

(** "squeezes hole left in the integer array", e.g.
    src/packers/compact_integer.c lines 166-170. *)
Definition flush (orc : oracle) (s : wst) : option (list Z) :=
  if (w_sp s <? 32)%nat then
    old <- rd (w_mem s) (w_ptr s) ;;
    wr (w_mem s) (w_ptr s)
       (Z.lor (shl32 orc (w_lws s) (w_sp s))
              (Z.land old (Z.lnot (Z.shiftl (-1) (Z.of_nat (w_sp s))))))
  else Some (w_mem s).

(** Start of a packing loop at bit offset [off]:
    src/packers/compact_integer.c lines 140-154. *)
Definition winit (orc : oracle) (mem : list Z) (off : nat) : option wst :=
  let sp := (32 - off mod 32)%nat in
  let slot := (off / 32)%nat in
  if (sp =? 32)%nat then Some (mkw mem slot 0 sp)
  else w <- rd mem slot ;; Some (mkw mem slot (shr32 orc w sp) sp).

(** State of an unpacking loop: packedWordPtr, packedWord, bitPackInWord. *)
Record rst := mkr { r_ptr : nat; r_word : Z; r_bits : nat }.

(** The "special case" at the end of [extract] and [discard]
    (include/bitPacking.h lines 73-78 and 104-109). *)
Definition refill (mem : list Z) (s : rst) : option rst :=
  if (r_bits s =? 0)%nat then
    w <- rd mem (S (r_ptr s)) ;; Some (mkr (S (r_ptr s)) w 32)
  else Some s.

(** include/bitPacking.h lines 59-79 (macro [extract], wordSize = 32). *)
Definition extract (orc : oracle) (mem : list Z) (b : nat) (s : rst) : option (Z * rst) :=
  if (b <=? r_bits s)%nat then
    s' <- refill mem (mkr (r_ptr s) (shl32 orc (r_word s) b) (r_bits s - b)) ;;
    Some (shr32 orc (r_word s) (32 - b), s')
  else
    let k := (b - r_bits s)%nat in
    w <- rd mem (S (r_ptr s)) ;;
    let tok := Z.lor (shr32 orc (r_word s) (32 - b)) (shr32 orc w (32 - k)) in
    s' <- refill mem (mkr (S (r_ptr s)) (shl32 orc w k) (32 - k)) ;;
    Some (tok, s').

(** include/bitPacking.h lines 94-110 (macro [discard]). *)
Definition discard (orc : oracle) (mem : list Z) (d : nat) (s : rst) : option rst :=
  if (d <? r_bits s)%nat then
    refill mem (mkr (r_ptr s) (shl32 orc (r_word s) d) (r_bits s - d))
  else
    w <- rd mem (S (r_ptr s)) ;;
    refill mem (mkr (S (r_ptr s)) (shl32 orc w (d - r_bits s)) (32 - (d - r_bits s))).

(** Start of an unpacking loop at bit offset [off]:
    src/packers/compact_integer.c lines 249-252, 268. *)
Definition rinit (orc : oracle) (mem : list Z) (off : nat) : option rst :=
  let bits := (32 - off mod 32)%nat in
  let slot := (off / 32)%nat in
  w <- rd mem slot ;; Some (mkr slot (shl32 orc w (32 - bits)) bits).

(** Repetition of the macros over a list of (token, width) pairs / widths. *)
Fixpoint stuffs (orc : oracle) (l : list (Z * nat)) (s : wst) : option wst :=
  match l with
  | [] => Some s
  | (tok, b) :: r => s' <- stuff orc tok b s ;; stuffs orc r s'
  end.

Fixpoint extracts (orc : oracle) (mem : list Z) (l : list nat) (s : rst) : option (list Z * rst) :=
  match l with
  | [] => Some ([], s)
  | b :: r => '(t, s1) <- extract orc mem b s ;;
              '(ts, s2) <- extracts orc mem r s1 ;; Some (t :: ts, s2)
  end.
