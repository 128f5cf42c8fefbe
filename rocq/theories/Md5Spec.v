(** RFC 1321, the specification of MD5, on 32 bit words and byte lists. *)
From Coq Require Import ZArith List.
Import ListNotations.
Open Scope Z_scope.

Definition not32 (x : Z) : Z := Z.lxor x 0xFFFFFFFF.
(** Section 3.4 *)
Definition rfc_F (x y z : Z) : Z := Z.lor (Z.land x y) (Z.land (not32 x) z).
Definition rfc_G (x y z : Z) : Z := Z.lor (Z.land x z) (Z.land y (not32 z)).
Definition rfc_H (x y z : Z) : Z := Z.lxor x (Z.lxor y z).
Definition rfc_I (x y z : Z) : Z := Z.lxor y (Z.lor x (not32 z)).
(** Rotation of a 32 bit word to the left. *)
Definition rotl (x s : Z) : Z := (x * 2 ^ s) mod 2 ^ 32 + x / 2 ^ (32 - s).
(** T[i] is the integer part of 2^32 times the absolute value of the sine of i. *)
Definition rfc_T : list Z := [
   3614090360; 3905402710; 606105819; 3250441966; 4118548399; 1200080426; 2821735955; 4249261313;
   1770035416; 2336552879; 4294925233; 2304563134; 1804603682; 4254626195; 2792965006; 1236535329;
   4129170786; 3225465664; 643717713; 3921069994; 3593408605; 38016083; 3634488961; 3889429448;
   568446438; 3275163606; 4107603335; 1163531501; 2850285829; 4243563512; 1735328473; 2368359562;
   4294588738; 2272392833; 1839030562; 4259657740; 2763975236; 1272893353; 4139469664; 3200236656;
   681279174; 3936430074; 3572445317; 76029189; 3654602809; 3873151461; 530742520; 3299628645;
   4096336452; 1126891415; 2878612391; 4237533241; 1700485571; 2399980690; 4293915773; 2240044497;
   1873313359; 4264355552; 2734768916; 1309151649; 4149444226; 3174756917; 718787259; 3951481745].
Definition rfc_op (f : Z -> Z -> Z -> Z) (X : list Z) (r : Z * Z * Z * Z) (p : nat * Z * Z) : Z * Z * Z * Z :=
  let '(a, b, c, d) := r in
  let '(k, s, t) := p in
  (d, (b + rotl ((a + f b c d + nth k X 0 + t) mod 2 ^ 32) s) mod 2 ^ 32, b, c).
(** Operation [i] of a round takes word [k i], rotates by [s] and adds T. *)
Definition rfc_ops (first : nat) (k : nat -> nat) (s : list Z) : list (nat * Z * Z) :=
  map (fun i => ((k i mod 16)%nat, nth (i mod 4) s 0, nth (first + i) rfc_T 0)) (seq 0 16).
Definition rfc_block (r : Z * Z * Z * Z) (X : list Z) : Z * Z * Z * Z :=
  let r1 := fold_left (rfc_op rfc_F X) (rfc_ops 0 (fun i => i) [7; 12; 17; 22]) r in
  let r2 := fold_left (rfc_op rfc_G X) (rfc_ops 16 (fun i => 5 * i + 1)%nat [5; 9; 14; 20]) r1 in
  let r3 := fold_left (rfc_op rfc_H X) (rfc_ops 32 (fun i => 3 * i + 5)%nat [4; 11; 16; 23]) r2 in
  let r4 := fold_left (rfc_op rfc_I X) (rfc_ops 48 (fun i => 7 * i)%nat [6; 10; 15; 21]) r3 in
  let '(a, b, c, d) := r in
  let '(a', b', c', d') := r4 in
  ((a + a') mod 2 ^ 32, (b + b') mod 2 ^ 32, (c + c') mod 2 ^ 32, (d + d') mod 2 ^ 32).

(** Bytes and words: the low-order byte comes first. *)
Fixpoint of_bytes (b : list Z) : Z := match b with [] => 0 | x :: b => x + 256 * of_bytes b end.
Fixpoint to_bytes (n : nat) (x : Z) : list Z := match n with O => [] | S n => x mod 256 :: to_bytes n (x / 256) end.
Fixpoint pieces {A} (size n : nat) (m : list A) : list (list A) :=
  match n with O => [] | S n => firstn size m :: pieces size n (skipn size m) end.
(** Sections 3.1 and 3.2: padding. *)
Definition padded (m : list Z) : list Z :=
  m ++ 0x80 :: repeat 0 ((119 - length m mod 64) mod 64) ++ to_bytes 8 (8 * Z.of_nat (length m)).
(** Sections 3.3 to 3.5 *)
Definition rfc_start : Z * Z * Z * Z := (0x67452301, 0xefcdab89, 0x98badcfe, 0x10325476).
Definition rfc_digest (m : list Z) : list Z :=
  let p := padded m in
  let '(a, b, c, d) := fold_left (fun r blk => rfc_block r (map of_bytes (pieces 4 16 blk))) (pieces 64 (length p / 64) p) rfc_start in
  to_bytes 4 a ++ to_bytes 4 b ++ to_bytes 4 c ++ to_bytes 4 d.

(** RFC 2104, HMAC with MD5. *)
Definition rfc_hmac (key text : list Z) : list Z :=
  let k := if (64 <? length key)%nat then rfc_digest key else key in
  let k := k ++ repeat 0 (64 - length k) in
  rfc_digest (map (Z.lxor 0x5c) k ++ rfc_digest (map (Z.lxor 0x36) k ++ text)).
