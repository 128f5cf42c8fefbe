(** Vocabulary of the buffer editing properties. *)
From Coq Require Import ZArith List.
From Verif Require Import Bits SpecPack Xdf XdfKeys XdfBuf.
Import ListNotations.
Open Scope Z_scope.

(** Elements that can be stored from word [i] of [d]. *)
Definition storable (k : dkind) (stride : nat) (d : list Z) (i : nat) (src : list Z) (nelm nbits : nat) : Prop :=
  (i + nb_words nelm nbits <= length d)%nat /\
  match k with
  | Packed sg => (1 <= nbits <= 32)%nat /\ words_ok src /\ words_ok d /\ SpecPack.fits src stride nelm /\ (1 <= stride)%nat /\ (32 * i + nelm * nbits < 32 * length d)%nat /\
      (sg = true -> forall j, (j < nelm)%nat -> - 2 ^ Z.of_nat (nbits - 1) <= as_int (elt src stride j) < 2 ^ Z.of_nat (nbits - 1))
  | _ => (nb_words nelm nbits <= length src)%nat
  end.
(** What they read as afterwards, in an array that was [dst]. *)
Definition extracted (k : dkind) (stride : nat) (src : list Z) (nelm nbits : nat) (dst dst' : list Z) : Prop :=
  match k with
  | Plain | Swapped => dst' = firstn (nb_words nelm nbits) src ++ skipn (nb_words nelm nbits) dst
  | Upper => dst' = map upcase (firstn (nb_words nelm nbits) src) ++ skipn (nb_words nelm nbits) dst
  | Packed false => updated dst dst' stride nelm (fun j => elt src stride j mod 2 ^ Z.of_nat nbits)
  | Packed true => updated dst dst' stride nelm (elt src stride)
  end.
Definition holds_result (k : dkind) (stride : nat) (dst : list Z) (nelm nbits : nat) : Prop :=
  match k with Packed _ => SpecPack.fits dst stride nelm | _ => (nb_words nelm nbits <= length dst)%nat end.

(** Everything but the data and its size is the same. *)
Definition same_frame (b b' : buffer) : Prop :=
  b_nwords b' = b_nwords b /\ b_didx b' = b_didx b /\ b_ridx b' = b_ridx b /\ b_iun b' = b_iun b /\ b_aidx b' = b_aidx b /\ length (b_data b') = length (b_data b).
(** Word [j] of the buffer. *)
Definition word (b : buffer) (j : nat) : Z := nth j (b_data b) 0.
(** A buffer whose sizes are small non-negative numbers. *)
Definition sane (b : buffer) : Prop := 0 <= b_didx b /\ 0 <= b_ridx b /\ 0 <= b_nbits b.
