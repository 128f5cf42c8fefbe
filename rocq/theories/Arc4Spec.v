(** The ARC4 cipher as published (sci.crypt, September 1994), with the first 1024
    bytes of the stream dropped. *)
From Coq Require Import ZArith List.
Open Scope Z_scope.

Definition swap (t : Z -> Z) (i j : Z) : Z -> Z := fun k => if k =? i then t j else if k =? j then t i else t k.
(** Key schedule: index and table after [n] turns. *)
Fixpoint schedule (key : list Z) (n : nat) : Z * (Z -> Z) :=
  match n with
  | O => (0, fun k => k)
  | S n => let '(j, t) := schedule key n in
           let i := Z.of_nat n in
           let j' := (j + t i + nth (n mod length key) key 0) mod 256 in
           (j', swap t i j')
  end.
(** Generator: index and table after [n] bytes. *)
Fixpoint generator (t0 : Z -> Z) (n : nat) : Z * (Z -> Z) :=
  match n with
  | O => (0, t0)
  | S n' => let '(j, t) := generator t0 n' in
            let i := Z.of_nat n mod 256 in
            let j' := (j + t i) mod 256 in
            (j', swap t i j')
  end.
(** Byte [n] of the stream, from 0. *)
Definition stream (key : list Z) (n : nat) : Z :=
  let '(j, t) := generator (snd (schedule key 256)) (S n) in
  t ((t (Z.of_nat (S n) mod 256) + t j) mod 256).
