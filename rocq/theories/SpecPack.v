(** Vocabulary of the packing properties, independent of the packer models. *)
From Coq Require Import ZArith List.
From Verif Require Import Bits.
Import ListNotations.
Open Scope Z_scope.

(** All words are 32-bit unsigned values. *)
Definition words_ok (a : list Z) : Prop := Forall (fun v => 0 <= v < 2 ^ 32) a.

(** Element [j] of an array visited with a stride. *)
Definition elt (a : list Z) (stride j : nat) : Z := nth (j * stride) a 0.

(** [n] elements with this stride lie inside the array. *)
Definition fits (a : list Z) (stride n : nat) : Prop :=
  forall j, (j < n)%nat -> (j * stride < length a)%nat.

(** [dst'] is [dst] where, for every j < n, the cell j*stride holds [g j]. *)
Definition updated (dst dst' : list Z) (stride n : nat) (g : nat -> Z) : Prop :=
  length dst' = length dst /\
  (forall j, (j < n)%nat -> nth_error dst' (j * stride) = Some (g j)) /\
  (forall i, (forall j, (j < n)%nat -> i <> (j * stride)%nat) -> nth_error dst' i = nth_error dst i).

(** Bit [i] of a packed array: bit 0 is the most significant bit of the first
    32-bit word. *)
Definition bit_at (pk : list Z) (i : nat) : bool :=
  Z.testbit (nth (i / 32) pk 0) (31 - Z.of_nat i mod 32).

(** A C int seen in a 32-bit word. *)
Definition as_int (w : Z) : Z := if w <? 2 ^ 31 then w else w - 2 ^ 32.
