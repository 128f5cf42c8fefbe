(** The MD5 digest: model of src/primitives/md5.c. An unsigned long has 64 bits;
    only the low 32 bits of each word matter, the others hold whatever the
    arithmetic leaves there. *)
From Coq Require Import ZArith List Bool.
Import ListNotations.
Open Scope Z_scope.

Definition w64 (x : Z) : Z := x mod 2 ^ 64.
Definition regs : Type := (Z * Z * Z * Z)%type.

(** md5.c 48-54 (GET_ULONG_LE) and 83-98: the 16 words of a block. *)
Definition get_word (b : list Z) (i : nat) : Z :=
  Z.lor (Z.lor (Z.lor (nth i b 0) (Z.shiftl (nth (i + 1) b 0) 8)) (Z.shiftl (nth (i + 2) b 0) 16)) (Z.shiftl (nth (i + 3) b 0) 24).
Definition get_words (b : list Z) : list Z := map (fun k => get_word b (4 * k)) (seq 0 16).

(** md5.c 100 (S) *)
Definition S64 (x n : Z) : Z := Z.lor (w64 (Z.shiftl x n)) (Z.shiftr (Z.land x 0xFFFFFFFF) (32 - n)).
(** md5.c 102-105 (P). The 64 uses of P name the registers in turn A B C D,
    D A B C, C D A B, B C D A; here the registers are passed on in that order. *)
Definition P (F : Z -> Z -> Z -> Z) (X : list Z) (r : regs) (p : nat * Z * Z) : regs :=
  let '(a, b, c, d) := r in
  let '(k, s, t) := p in
  let a := w64 (a + (F b c d + nth k X 0 + t)) in
  let a := w64 (S64 a s + b) in
  (d, a, b, c).
(** md5.c 112, 133, 154, 175 *)
Definition F1 (x y z : Z) : Z := Z.lxor z (Z.land x (Z.lxor y z)).
Definition F2 (x y z : Z) : Z := Z.lxor y (Z.land z (Z.lxor x y)).
Definition F3 (x y z : Z) : Z := Z.lxor (Z.lxor x y) z.
Definition F4 (x y z : Z) : Z := Z.lxor y (Z.lor x (Z.lxor z 0xFFFFFFFFFFFFFFFF)).
(** md5.c 114-129 *)
Definition steps1 : list (nat * Z * Z) := [
   (0%nat, 7, 0xD76AA478); (1%nat, 12, 0xE8C7B756); (2%nat, 17, 0x242070DB); (3%nat, 22, 0xC1BDCEEE);
   (4%nat, 7, 0xF57C0FAF); (5%nat, 12, 0x4787C62A); (6%nat, 17, 0xA8304613); (7%nat, 22, 0xFD469501);
   (8%nat, 7, 0x698098D8); (9%nat, 12, 0x8B44F7AF); (10%nat, 17, 0xFFFF5BB1); (11%nat, 22, 0x895CD7BE);
   (12%nat, 7, 0x6B901122); (13%nat, 12, 0xFD987193); (14%nat, 17, 0xA679438E); (15%nat, 22, 0x49B40821)].
(** md5.c 135-150 *)
Definition steps2 : list (nat * Z * Z) := [
   (1%nat, 5, 0xF61E2562); (6%nat, 9, 0xC040B340); (11%nat, 14, 0x265E5A51); (0%nat, 20, 0xE9B6C7AA);
   (5%nat, 5, 0xD62F105D); (10%nat, 9, 0x02441453); (15%nat, 14, 0xD8A1E681); (4%nat, 20, 0xE7D3FBC8);
   (9%nat, 5, 0x21E1CDE6); (14%nat, 9, 0xC33707D6); (3%nat, 14, 0xF4D50D87); (8%nat, 20, 0x455A14ED);
   (13%nat, 5, 0xA9E3E905); (2%nat, 9, 0xFCEFA3F8); (7%nat, 14, 0x676F02D9); (12%nat, 20, 0x8D2A4C8A)].
(** md5.c 156-171 *)
Definition steps3 : list (nat * Z * Z) := [
   (5%nat, 4, 0xFFFA3942); (8%nat, 11, 0x8771F681); (11%nat, 16, 0x6D9D6122); (14%nat, 23, 0xFDE5380C);
   (1%nat, 4, 0xA4BEEA44); (4%nat, 11, 0x4BDECFA9); (7%nat, 16, 0xF6BB4B60); (10%nat, 23, 0xBEBFBC70);
   (13%nat, 4, 0x289B7EC6); (0%nat, 11, 0xEAA127FA); (3%nat, 16, 0xD4EF3085); (6%nat, 23, 0x04881D05);
   (9%nat, 4, 0xD9D4D039); (12%nat, 11, 0xE6DB99E5); (15%nat, 16, 0x1FA27CF8); (2%nat, 23, 0xC4AC5665)].
(** md5.c 177-192 *)
Definition steps4 : list (nat * Z * Z) := [
   (0%nat, 6, 0xF4292244); (7%nat, 10, 0x432AFF97); (14%nat, 15, 0xAB9423A7); (5%nat, 21, 0xFC93A039);
   (12%nat, 6, 0x655B59C3); (3%nat, 10, 0x8F0CCC92); (10%nat, 15, 0xFFEFF47D); (1%nat, 21, 0x85845DD1);
   (8%nat, 6, 0x6FA87E4F); (15%nat, 10, 0xFE2CE6E0); (6%nat, 15, 0xA3014314); (13%nat, 21, 0x4E0811A1);
   (4%nat, 6, 0xF7537E82); (11%nat, 10, 0xBD3AF235); (2%nat, 15, 0x2AD7D2BB); (9%nat, 21, 0xEB86D391)].
(** md5.c 79-200 (md5_process) *)
Definition md5_process (st : regs) (data : list Z) : regs :=
  let X := get_words data in
  let '(a0, b0, c0, d0) := st in
  let '(a, b, c, d) := fold_left (P F4 X) steps4 (fold_left (P F3 X) steps3 (fold_left (P F2 X) steps2 (fold_left (P F1 X) steps1 st))) in
  (w64 (a0 + a), w64 (b0 + b), w64 (c0 + c), w64 (d0 + d)).

(** include/md5.h 10-19, without the pads of HMAC. The buffer is not initialised
    by md5_starts: [junk]. *)
Record md5_context := mkctx { total0 : Z; total1 : Z; state : regs; buffer : list Z }.
(** md5.c 68-77 *)
Definition md5_starts (junk : list Z) : md5_context := mkctx 0 0 (0x67452301, 0xEFCDAB89, 0x98BADCFE, 0x10325476) junk.
(** md5.c 230-235: the loop on whole blocks; [n] bounds the turns. *)
Fixpoint whole_blocks (n : nat) (st : regs) (input : list Z) : regs * list Z :=
  match n with
  | O => (st, input)
  | S n' => if (64 <=? length input)%nat then whole_blocks n' (md5_process st (firstn 64 input)) (skipn 64 input) else (st, input)
  end.
(** md5.c 203-241 (md5_update); [ilen] is the length of
    [input], [used] the variable left. *)
Definition md5_update (ctx : md5_context) (input : list Z) : md5_context :=
  let ilen := length input in
  if (ilen <=? 0)%nat then ctx else
  let used := Z.to_nat (Z.land (total0 ctx) 0x3F) in
  let fill := (64 - used)%nat in
  let t0 := Z.land (w64 (total0 ctx + Z.of_nat ilen)) 0xFFFFFFFF in
  let t1 := if t0 <? Z.of_nat ilen then w64 (total1 ctx + 1) else total1 ctx in
  let '(st, buf, input, used) :=
    if negb (used =? 0)%nat && (fill <=? ilen)%nat
    then let buf := firstn used (buffer ctx) ++ firstn fill input in (md5_process (state ctx) buf, buf, skipn fill input, O)
    else (state ctx, buffer ctx, input, used) in
  let '(st, input) := whole_blocks (length input) st input in
  let buf := if (0 <? length input)%nat then firstn used buf ++ input ++ skipn (used + length input) buf else buf in
  mkctx t0 t1 st buf.
(** md5.c 58-64 (PUT_ULONG_LE) *)
Definition put_word (n : Z) : list Z := map (fun k => Z.shiftr n (8 * k) mod 256) [0; 1; 2; 3].
(** md5.c 244-250 *)
Definition md5_padding : list Z := 0x80 :: repeat 0 63.
(** md5.c 253-276 (md5_finish) *)
Definition md5_finish (ctx : md5_context) : list Z :=
  let high := Z.lor (Z.shiftr (total0 ctx) 29) (w64 (Z.shiftl (total1 ctx) 3)) in
  let low := w64 (Z.shiftl (total0 ctx) 3) in
  let msglen := put_word low ++ put_word high in
  let last := Z.land (total0 ctx) 0x3F in
  let padn := if last <? 56 then 56 - last else 120 - last in
  let ctx := md5_update (md5_update ctx (firstn (Z.to_nat padn) md5_padding)) msglen in
  let '(a, b, c, d) := state ctx in
  put_word a ++ put_word b ++ put_word c ++ put_word d.
(** md5.c 279-288 (md5) *)
Definition md5 (junk input : list Z) : list Z := md5_finish (md5_update (md5_starts junk) input).
(** md5.c 291-318 (md5_file): the file is read in pieces, of 1 to 1024 bytes. *)
Definition md5_pieces (junk : list Z) (pieces : list (list Z)) : list Z := md5_finish (fold_left md5_update pieces (md5_starts junk)).

(** md5.c 331-356 (md5_hmac_starts): context and outer pad. The key's pads are
    bytes. *)
Definition hmac_pad (v : Z) (key : list Z) : list Z := map (fun b => Z.lxor v b mod 256) key ++ repeat v (64 - length key).
Definition md5_hmac_starts (junk key : list Z) : md5_context * list Z :=
  let key := if (64 <? length key)%nat then md5 junk key else key in
  (md5_update (md5_starts junk) (hmac_pad 0x36 key), hmac_pad 0x5C key).
(** md5.c 365-376 (md5_hmac_finish); [junk] is what the buffer then holds. *)
Definition md5_hmac_finish (junk : list Z) (c : md5_context * list Z) : list Z :=
  let tmpbuf := md5_finish (fst c) in
  md5_finish (md5_update (md5_update (md5_starts junk) (snd c)) tmpbuf).
(** md5.c 331-376: md5_hmac_starts, md5_hmac_update on each piece, md5_hmac_finish. *)
Definition md5_hmac (junk junk2 key : list Z) (pieces : list (list Z)) : list Z :=
  let '(ctx, opad) := md5_hmac_starts junk key in
  md5_hmac_finish junk2 (fold_left md5_update pieces ctx, opad).
