(** The ARC4 cipher: model of src/primitives/arc4.c. *)
From Coq Require Import ZArith List Bool.
Import ListNotations.
Open Scope Z_scope.

(** include/arc4.h: arc4_context *)
Record arc4_context := mkarc { ax : Z; ay : Z; am : list Z }.
Definition get (m : list Z) (i : Z) : Z := nth (Z.to_nat i) m 0.
Definition put (m : list Z) (i v : Z) : list Z := firstn (Z.to_nat i) m ++ v :: skipn (S (Z.to_nat i)) m.

(** arc4.c 89-96: one byte *)
Definition arc4_byte (c : arc4_context) (v : Z) : Z * arc4_context :=
  let x := Z.land (ax c + 1) 0xFF in
  let a := get (am c) x in
  let y := Z.land (ay c + a) 0xFF in
  let b := get (am c) y in
  let m := put (put (am c) x (b mod 256)) y (a mod 256) in
  (Z.lxor v (get m ((a + b) mod 256)) mod 256, mkarc x y m).
(** arc4.c 78-101 (arc4_crypt): the buffer after the call, the context *)
Fixpoint arc4_crypt (c : arc4_context) (buf : list Z) : list Z * arc4_context :=
  match buf with
  | [] => ([], c)
  | v :: buf => let '(v', c) := arc4_byte c v in let '(buf', c) := arc4_crypt c buf in (v' :: buf', c)
  end.
(** arc4.c 61-69: the key schedule; [j], [k] and the table after turn [i]. *)
Definition arc4_turn (key : list Z) (st : Z * nat * list Z) (i : nat) : Z * nat * list Z :=
  let '(j, k, m) := st in
  let k := if (length key <=? k)%nat then O else k in
  let a := get m (Z.of_nat i) in
  let j := Z.land (j + a + nth k key 0) 0xFF in
  let m := put m (Z.of_nat i) (get m j) in
  (j, S k, put m j (a mod 256)).
(** arc4.c 46-73 (arc4_setup); [scrap] is not initialised. *)
Definition arc4_setup (scrap key : list Z) : arc4_context :=
  let '(_, _, m) := fold_left (arc4_turn key) (seq 0 256) (0, O, map Z.of_nat (seq 0 256)) in
  snd (arc4_crypt (mkarc 0 0 m) scrap).
(** Calls of arc4_crypt on buffers in turn: what they hold at the end. *)
Fixpoint arc4_pieces (c : arc4_context) (ps : list (list Z)) : list (list Z) :=
  match ps with
  | [] => []
  | p :: ps => let '(p', c) := arc4_crypt c p in p' :: arc4_pieces c ps
  end.
