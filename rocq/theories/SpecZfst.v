(** Vocabulary of the field compression properties. *)
From Coq Require Import ZArith List Bool.
Open Scope Z_scope.

(** The 16-bit value number [k] of an array of 32-bit words. With [msf] the
    most significant half of each word comes first (the order in which the
    16-bit tokens of a record are packed), otherwise the least significant one
    (the order of an array of shorts in little-endian memory). *)
Definition tok16 (msf : bool) (ws : list Z) (k : nat) : Z :=
  let w := nth (k / 2) ws 0 in
  if Bool.eqb msf (Nat.even k) then w / 2 ^ 16 else w mod 2 ^ 16.

(** All cells are 32-bit (16-bit) unsigned values. *)
Definition words32 (a : list Z) : Prop := Forall (fun v => 0 <= v < 2 ^ 32) a.
Definition words16 (a : list Z) : Prop := Forall (fun v => 0 <= v < 2 ^ 16) a.
