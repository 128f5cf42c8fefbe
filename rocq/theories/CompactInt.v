(** Model of /repo/src/packers/compact_integer.c: compact_integer (lines
    325-570) and the macros FindMinMax, pack32Bit, packBit, Pack,
    constructHeader and Unpack (lines 39-303). *)
From Coq Require Import ZArith List Lia Bool.
From Verif Require Import Bits BitIO.
Import ListNotations.
Open Scope Z_scope.
Open Scope opt_scope.

(** Conversions between int and uint32_t. *)
Definition u32 (x : Z) : Z := x mod 2 ^ 32.
Definition s32 (w : Z) : Z := if w <? 2 ^ 31 then w else w - 2 ^ 32.

(** The elements visited by [for (i = 0; i < intCount*stride; i += stride)].
    Simplification: stride >= 1 and intCount*stride does not overflow int. *)
Fixpoint gather_from (a : list Z) (stride k n : nat) : option (list Z) :=
  match n with
  | O => Some []
  | S n' => x <- rd a (k * stride) ;; r <- gather_from a stride (S k) n' ;; Some (x :: r)
  end.
Definition gather a stride n := gather_from a stride 0 n.

(** Number of iterations of [while (x != 0) { x = x >> 1; n++; }]. *)
Definition bitlen (x : Z) : nat := if x <=? 0 then 0%nat else S (Z.to_nat (Z.log2 x)).

(** lines 39-56 (FindMinMax) on the visited elements. *)
Definition minmax_step (mm : Z * Z) (x : Z) : Z * Z :=
  let '(mn, mx) := mm in
  if x <? mn then (x, mx) else if mx <? x then (mn, x) else (mn, mx).
Definition find_min_max (l : list Z) : option (Z * Z) :=
  match l with [] => None | x :: r => Some (fold_left minmax_step r (x, x)) end.

(** Token size argument: [Some b] with 1 <= b <= 32, or [None] for -1
    (automatic). 0 is handled by [compact_integer]. Other values are not
    modelled (the C code shifts by negative counts). *)
Definition bsize := option nat.

(** line 411: cleanupMask = (uint32_t)(~0) >> (wordSize - bitSizeOfPackedToken) *)
Definition cleanup_mask (orc : oracle) (b : bsize) : Z :=
  match b with
  | Some b => shr32 orc (2 ^ 32 - 1) (32 - b)
  | None => shr32 orc (2 ^ 32 - 1) 33
  end.

(** lines 69-90 (pack32Bit): whole words. *)
Fixpoint put_words (mem : list Z) (p : nat) (l : list Z) : option (list Z) :=
  match l with [] => Some mem | w :: r => m <- wr mem p w ;; put_words m (S p) r end.

(** lines 136-174 (Pack) with the tokens already computed. *)
Definition pack_tokens (orc : oracle) (pk : list Z) (off b : nat) (mask : Z) (toks : list Z)
  : option (list Z) :=
  s <- winit orc pk off ;;
  if ((w_sp s =? 32) && (b =? 32))%nat then put_words (w_mem s) (w_ptr s) toks
  else s' <- stuffs orc (map (fun t => (Z.land t mask, b)) toks) s ;; flush orc s'.

(** lines 245-303 (Unpack): [f] turns a token into the stored element. *)
Fixpoint unpack_loop (orc : oracle) (pk : list Z) (sig insig : nat) (f : Z -> Z)
  (stride k n : nat) (s : rst) (dst : list Z) : option (list Z) :=
  match n with
  | O => Some dst
  | S n' =>
      '(t, s1) <- extract orc pk sig s ;;
      s2 <- (if (0 <? insig)%nat then discard orc pk insig s1 else Some s1) ;;
      d <- wr dst (k * stride) (f t) ;;
      unpack_loop orc pk sig insig f stride (S k) n' s2 d
  end.
Definition unpack_tokens (orc : oracle) (pk : list Z) (off tokenSize : nat) (f : Z -> Z)
  (stride n : nat) (dst : list Z) : option (list Z) :=
  s <- rinit orc pk off ;;
  let sig := if (32 <? tokenSize)%nat then 32%nat else tokenSize in
  let insig := if (32 <? tokenSize)%nat then (tokenSize - 32)%nat else 0%nat in
  unpack_loop orc pk sig insig f stride 0 n s dst.

(** lines 186-231 (constructHeader). [signed] selects the int instance.
    The range is computed in uint32_t arithmetic in both branches (for int,
    [max - min] wraps like the two's complement subtraction does). *)
Definition range_of (mn mx : Z) : Z :=
  if (0 <? mx) && (mn <? 0) then u32 (mx + u32 (- mn)) else u32 (mx - mn).
Definition header_shift (br : nat) (b : bsize) : nat * nat :=
  match b with
  | None => (0%nat, br)
  | Some b => ((br - b)%nat, b)
  end.
Definition header_words (count : nat) (mn mx : Z) (shift b : nat) : list Z :=
  [Z.lor (Z.lor 0xFD000000 (Z.shiftl (Z.of_nat shift) 6)) (Z.of_nat b);
   u32 (Z.of_nat count); u32 mn; u32 mx].

Record ci_res := mkci { ci_unp : list Z; ci_hdr : option (list Z); ci_pk : list Z; ci_ret : Z }.

(** Packing, opcodes 1 (unsigned) and 3 (signed): lines 415-492 and 530-545.
    The elements of [unp] are raw 32-bit words. *)
Definition elem (signed : bool) (w : Z) : Z := if signed then s32 w else w.

(** [(x - min) >> shiftRequired] : logical for uint32_t, arithmetic for int
    (after the wrapping subtraction). *)
Definition hdr_token (orc : oracle) (signed : bool) (mn : Z) (shift : nat) (x : Z) : Z :=
  if signed then u32 (Z.shiftr (s32 (u32 (x - mn))) (Z.of_nat shift))
  else shr32 orc (u32 (x - mn)) shift.

(** positiveMask, line 530: 0 for opcodes below 3, 1 << (b-1) otherwise (as
    a 32-bit pattern). *)
Definition positive_mask (signed : bool) (b : nat) : Z :=
  if signed then Z.shiftl 1 (Z.of_nat (b - 1)) mod 2 ^ 32 else 0.

Definition ci_pack (orc : oracle) (signed : bool) (unp : list Z) (hdr : option (list Z)) (pk : list Z)
  (count : nat) (b : bsize) (off stride : nat) : option ci_res :=
  ws <- gather unp stride count ;;
  let xs := map (elem signed) ws in
  match hdr with
  | Some _ =>
      '(mn, mx) <- find_min_max xs ;;
      let '(shift, b') := header_shift (bitlen (range_of mn mx)) b in
      let toks := map (hdr_token orc signed mn shift) xs in
      (* cleanupMask is the one computed from the argument: line 411 *)
      pk' <- pack_tokens orc pk off b' (cleanup_mask orc b) toks ;;
      Some (mkci unp (Some (header_words count mn mx shift b')) pk' (Z.of_nat b'))
  | None =>
      b' <- match b with
            | Some b => Some b
            | None =>
                if signed then
                  '(mn, mx) <- find_min_max xs ;;
                  (* abs(INT_MIN) taken as 2^31 *)
                  Some (S (bitlen (if mx <? Z.abs mn then Z.abs mn else mx)))
                else match xs with [] => None | x :: r => Some (bitlen (fold_left Z.lor r x)) end
            end ;;
      let toks := map (fun x => u32 (x + positive_mask signed b')) xs in
      pk' <- pack_tokens orc pk off b' (cleanup_mask orc (Some b')) toks ;;
      Some (mkci unp None pk' (Z.of_nat b'))
  end.

(** Unpacking, opcodes 2 and 4: lines 495-521, 530, 551-560.
    Fields of integer_header (lines 330-341, little-endian layout). *)
Definition hdr_bits (h : list Z) : option nat := w <- rd h 0 ;; Some (Z.to_nat (Z.land w 63)).
Definition hdr_shift (h : list Z) : option nat :=
  w <- rd h 0 ;; Some (Z.to_nat (Z.land (Z.shiftr w 6) 63)).

Definition ci_unpack (orc : oracle) (signed : bool) (unp : list Z) (hdr : option (list Z)) (pk : list Z)
  (count : nat) (b : bsize) (off stride : nat) : option ci_res :=
  match hdr with
  | Some h =>
      (* positiveMask is not used in this mode *)
      tokenSize <- hdr_bits h ;; shift <- hdr_shift h ;;
      n <- rd h 1 ;; mn <- rd h 2 ;;
      u <- unpack_tokens orc pk off tokenSize (fun t => u32 (shl32 orc t shift + mn))
                         stride (Z.to_nat n) unp ;;
      Some (mkci u (Some h) pk (match b with Some b => Z.of_nat b | None => -1 end))
  | None =>
      b <- b ;; (* 1 << -2: not modelled *)
      u <- unpack_tokens orc pk off b (fun t => u32 (t - positive_mask signed b)) stride count unp ;;
      Some (mkci u None pk (Z.of_nat b))
  end.

(** lines 325-570. *)
Definition compact_integer (orc : oracle) (unp : list Z) (hdr : option (list Z)) (pk : list Z)
  (count : nat) (b : bsize) (off stride : nat) (opcode : Z) : option ci_res :=
  match b with
  | Some O => Some (mkci unp hdr pk 0)
  | _ =>
      if opcode =? 1 then ci_pack orc false unp hdr pk count b off stride
      else if opcode =? 3 then ci_pack orc true unp hdr pk count b off stride
      else if opcode =? 2 then ci_unpack orc false unp hdr pk count b off stride
      else if opcode =? 4 then ci_unpack orc true unp hdr pk count b off stride
      else Some (mkci unp hdr pk 0)
  end.
