(** Model of /repo/src/packers/compact_rle.c (compact_rle, lines 44-259). *)
From Coq Require Import ZArith List Lia Bool.
From Verif Require Import Bits BitIO CompactInt.
Import ListNotations.
Open Scope Z_scope.
Open Scope opt_scope.

(** previousToken = -1 in a uint32_t (lines 144, 184). *)
Definition no_token : Z := 2 ^ 32 - 1.

(** One iteration of the packing loop, lines 150-187. The state is
    (previousToken, previousTokenCount); the first component of the result
    lists the [stuff]ed values in order. *)
Definition rle_step (maxRange maxRepeat : Z) (st : Z * Z) (cur : Z) : list Z * (Z * Z) :=
  let '(prev, c) := st in
  if negb (cur =? prev) then
    (if c =? 1 then [cur] else if c =? 2 then [prev; cur] else [u32 (maxRange + c); cur], (cur, 1))
  else
    let c' := c + 1 in
    if c' =? maxRepeat then ([u32 (maxRange + maxRepeat)], (no_token, 1)) else ([], (prev, c')).

Fixpoint rle_loop (maxRange maxRepeat : Z) (st : Z * Z) (l : list Z) : list Z * (Z * Z) :=
  match l with
  | [] => ([], st)
  | x :: r => let '(o, st1) := rle_step maxRange maxRepeat st x in
              let '(o', st2) := rle_loop maxRange maxRepeat st1 r in (o ++ o', st2)
  end.

(** Lines 191-204: the last element. *)
Definition rle_last (maxRange : Z) (st : Z * Z) (cur : Z) : list Z :=
  let '(prev, c) := st in
  if negb (cur =? prev) then [cur]
  else let c' := c + 1 in if c' =? 2 then [cur] else [u32 (maxRange + c')].

(** All tokens: the loop visits every element but the last. *)
Definition rle_tokens (maxRange maxRepeat : Z) (cur : list Z) : option (list Z) :=
  match rev cur with
  | [] => None
  | x :: r => let '(o, st) := rle_loop maxRange maxRepeat (no_token, 1) (rev r) in
              Some (o ++ rle_last maxRange st x)
  end.

(** Lines 213-216. [bitSizeOfPackedToken << 26] is exact for b <= 31. *)
Definition rle_header (b : nat) (total : nat) (mn range : Z) : list Z :=
  [0xF0100000; Z.lor (Z.shiftl (Z.of_nat b) 26) (Z.of_nat total); mn; range].

Record rle_res := mkrle { rle_unp : list Z; rle_hdr : list Z; rle_pk : list Z; rle_ret : Z }.

(** Packing, lines 116-218. [mx] and [mn] are int arguments given as 32-bit
    patterns. maxRepeatPerToken is computed in double and converted to int:
    exact for b <= 31 (line 134); larger b is left to the general formula. *)
Definition rle_pack (orc : oracle) (unp pk : list Z) (mx mn : Z) (count b off stride : nat)
  : option rle_res :=
  ws <- gather unp stride count ;;
  '(mnI, mxI) <- (if mx =? mn then find_min_max ws else Some (mn, mx)) ;;
  let range := u32 (mxI - mnI) in
  let maxRepeat := 2 ^ Z.of_nat b - 1 - range in
  toks <- rle_tokens range maxRepeat (map (fun x => u32 (x - mnI)) ws) ;;
  s <- winit orc pk off ;;
  s' <- stuffs orc (map (fun t => (t, b)) toks) s ;;
  pk' <- flush orc s' ;;
  Some (mkrle unp (rle_header b (length toks) mnI range) pk' (Z.of_nat (length toks))).

(** [n] stores of [v] from position [pos], lines 247-251. *)
Fixpoint rle_fill (dst : list Z) (pos stride n : nat) (v : Z) : option (list Z * nat) :=
  match n with
  | O => Some (dst, pos)
  | S n' => d <- wr dst pos v ;; rle_fill d (pos + stride) stride n' v
  end.

(** Lines 238-254. [prev] is previousToken, uninitialised at the start. *)
Fixpoint rle_unloop (orc : oracle) (pk : list Z) (b : nat) (mn range : Z) (stride n : nat)
  (s : rst) (pos : nat) (prev : Z) (dst : list Z) : option (list Z) :=
  match n with
  | O => Some dst
  | S n' =>
      '(t, s1) <- extract orc pk b s ;;
      let cur := u32 (t + mn) in
      '(d, pos') <- (if t <=? range
                     then d <- wr dst pos cur ;; Some (d, (pos + stride)%nat)
                     else rle_fill dst pos stride (Z.to_nat (t - range - 1)) prev) ;;
      rle_unloop orc pk b mn range stride n' s1 pos' cur d
  end.

(** Unpacking, lines 219-256; header fields of lines 35-42 (little-endian). *)
Definition rle_unpack (orc : oracle) (junk : Z) (unp hdr pk : list Z) (off stride : nat)
  : option rle_res :=
  s <- rinit orc pk off ;;
  w1 <- rd hdr 1 ;; mn <- rd hdr 2 ;; range <- rd hdr 3 ;;
  let total := Z.to_nat (w1 mod 2 ^ 26) in
  let b := Z.to_nat (Z.shiftr w1 26) in
  u <- rle_unloop orc pk b mn range stride total s 0 junk unp ;;
  Some (mkrle u hdr pk (Z.of_nat total)).

(** compact_rle: opcode 1 packs, 2 unpacks; widths below 3 are refused. *)
Definition compact_rle (orc : oracle) (junk : Z) (unp hdr pk : list Z) (mx mn : Z)
  (count b off stride : nat) (opcode : Z) : option rle_res :=
  if (b <? 3)%nat then Some (mkrle unp hdr pk 0)
  else if opcode =? 1 then rle_pack orc unp pk mx mn count b off stride
  else if opcode =? 2 then rle_unpack orc junk unp hdr pk off stride
  else Some (mkrle unp hdr pk 0).
