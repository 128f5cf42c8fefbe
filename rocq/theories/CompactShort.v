(** Model of compact_short (/repo/src/packers/compact_integer.c lines 592-810,
    opcodes 5 and 6) and compact_char (lines 830-1048, opcodes 9 and 10).
    Both are the same text instantiated at the element types unsigned short
    ([w] = 16) and unsigned char ([w] = 8); the model has [w] as a parameter.
    Unlike compact_integer, [Pack] and [Unpack] get 0 as the minimum (lines
    785, 796 and 1023, 1034) while the header is built from the real minimum. *)
From Coq Require Import ZArith List Lia Bool.
From Verif Require Import Bits BitIO CompactInt.
Import ListNotations.
Open Scope Z_scope.
Open Scope opt_scope.

(** Elements are promoted to int before [>> shiftRequired]; the shift is at
    most 16, so no undefined shift occurs there. *)
Definition cs_pack (orc : oracle) (unp : list Z) (hdr : option (list Z)) (pk : list Z)
  (count : nat) (b : bsize) (off stride : nat) : option ci_res :=
  xs <- gather unp stride count ;;
  match hdr with
  | Some _ =>
      '(mn, mx) <- find_min_max xs ;;
      let '(shift, b') := header_shift (bitlen (range_of mn mx)) b in
      pk' <- pack_tokens orc pk off b' (cleanup_mask orc b)
                         (map (fun x => Z.shiftr x (Z.of_nat shift)) xs) ;;
      Some (mkci unp (Some (header_words count mn mx shift b')) pk' (Z.of_nat b'))
  | None =>
      b' <- match b with
            | Some b => Some b
            | None => match xs with [] => None | x :: r => Some (bitlen (fold_left Z.lor r x)) end
            end ;;
      pk' <- pack_tokens orc pk off b' (cleanup_mask orc (Some b')) xs ;;
      Some (mkci unp None pk' (Z.of_nat b'))
  end.

(** The store into an unsigned short / unsigned char truncates to [w] bits. *)
Definition cs_unpack (orc : oracle) (w : nat) (unp : list Z) (hdr : option (list Z)) (pk : list Z)
  (count : nat) (b : bsize) (off stride : nat) : option ci_res :=
  match hdr with
  | Some h =>
      tokenSize <- hdr_bits h ;; shift <- hdr_shift h ;; n <- rd h 1 ;;
      u <- unpack_tokens orc pk off tokenSize (fun t => shl32 orc t shift mod 2 ^ Z.of_nat w)
                         stride (Z.to_nat n) unp ;;
      Some (mkci u (Some h) pk (match b with Some b => Z.of_nat b | None => -1 end))
  | None =>
      b <- b ;;
      u <- unpack_tokens orc pk off b (fun t => t mod 2 ^ Z.of_nat w) stride count unp ;;
      Some (mkci u None pk (Z.of_nat b))
  end.

Definition compact_small (w : nat) (op_pack op_unpack : Z) (orc : oracle) (unp : list Z)
  (hdr : option (list Z)) (pk : list Z) (count : nat) (b : bsize) (off stride : nat) (opcode : Z)
  : option ci_res :=
  match b with
  | Some O => Some (mkci unp hdr pk 0)
  | _ =>
      if opcode =? op_pack then cs_pack orc unp hdr pk count b off stride
      else if opcode =? op_unpack then cs_unpack orc w unp hdr pk count b off stride
      else Some (mkci unp hdr pk 0)
  end.

Definition compact_short := compact_small 16 5 6.
Definition compact_char := compact_small 8 9 10.
