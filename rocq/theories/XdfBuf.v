(** Editing the data of a record in a buffer: model of c_xdfadd (src/fstd98/xdf98.c
    648-724), c_xdfcut (895-942), c_xdfins (1395-1496), c_xdfrep (2382-2475),
    c_xdfxtr (2834-2905).

    Bit positions, element counts and widths are non-negative; nelm * nbits
    does not exceed an int. [stride]: the global xdf_stride. The machine is
    little endian. *)
From Coq Require Import ZArith List Lia Bool.
From Verif Require Import Bits BitIO CompactInt Xdf XdfKeys.
Import ListNotations.
Open Scope Z_scope.
Open Scope opt_scope.

(** qstdir.h *)
Definition ERR_BAD_ADDR : Z := -18.
Definition ERR_BAD_DIM : Z := -19.

(** xdf98.c 665-666, 923-924, ...: words of the elements, a multiple of two. *)
Definition nb_words (nelm nbits : nat) : nat := 2 * ((nelm * nbits + 63) / 64).
(** xdf98.c 926, 1429, 2415, 2866 *)
Definition index_word (b : buffer) (bitpos : nat) : nat := Z.to_nat (b_didx b) + bitpos / 32.
(** xdf98.c 928, 1431 *)
Definition last_ind (b : buffer) : nat := Z.to_nat (b_ridx b + b_nbits b / 32).

(** Copy of [ws] at [d[i]]. *)
Fixpoint store (d : list Z) (i : nat) (ws : list Z) : option (list Z) :=
  match ws with
  | [] => Some d
  | w :: ws' => if (i <? length d)%nat then store (upd d i w) (S i) ws' else None
  end.
(** Words [i, i + n) of [d]. *)
Definition take_at (d : list Z) (i n : nat) : option (list Z) :=
  if (i + n <=? length d)%nat then Some (firstn n (skipn i d)) else None.

(** xdf98.c 689-693: the two words of each 64-bit element exchanged. *)
Fixpoint swap2 (l : list Z) : list Z :=
  match l with a :: b :: l' => b :: a :: swap2 l' | _ => l end.

(** The data types (the switch statements): transparent, exchanged, upper case,
    packed unsigned (false) or signed (true). [None]: not accepted. *)
Inductive dkind := Plain | Swapped | Upper | Packed (signed : bool).
Definition kind_of (datyp : Z) : option dkind :=
  if (datyp =? 0) || (datyp =? 3) || (datyp =? 6) || (datyp =? 8) then Some Plain
  else if (datyp =? 7) || (datyp =? 9) then Some Swapped
  else if datyp =? 5 then Some Upper
  else if datyp =? 2 then Some (Packed false)
  else if datyp =? 4 then Some (Packed true)
  else None.

(** The elements [src] stored from word [i] of [d] (676-720, 1447-1487,
    2428-2465). [None]: out of bounds. *)
Definition insert_data (orc : oracle) (stride : nat) (k : dkind) (d : list Z) (i : nat) (src : list Z) (nelm nbits : nat) : option (list Z) :=
  match k with
  | Plain => ws <- take_at src 0 (nb_words nelm nbits) ;; store d i ws
  | Swapped => ws <- take_at src 0 (nb_words nelm nbits) ;; store d i (swap2 ws)
  | Upper => ws <- take_at src 0 (nb_words nelm nbits) ;; store d i (map upcase ws)
  | Packed sg =>
    if (length d <? i)%nat then None else
    r <- compact_integer orc src None (skipn i d) nelm (Some nbits) 0 stride (if sg then 3 else 1) ;;
    Some (firstn i d ++ ci_pk r)
  end.

Definition bad_nbits (datyp : Z) (nbits : nat) : bool := ((datyp =? 3) || (datyp =? 5)) && negb (nbits =? 8)%nat.
(** xdf98.c 2407 and 916, where && binds tighter than ||. *)
Definition bad_nbits2 (datyp : Z) (nbits : nat) : bool := (datyp =? 3) || ((datyp =? 5) && negb (nbits =? 8)%nat).

Definition set_data (b : buffer) (nbits : Z) (d : list Z) : buffer := mkbuf (b_nwords b) nbits (b_didx b) (b_ridx b) (b_iun b) (b_aidx b) d.

(** xdf98.c 648-724 *)
Definition xdfadd (orc : oracle) (stride : nat) (b : buffer) (src : list Z) (nelm nbits : nat) (datyp : Z) : option (Z * buffer) :=
  if bad_nbits datyp nbits then Some (ERR_BAD_DATYP, b) else
  let n := nb_words nelm nbits in
  let i := Z.to_nat (b_nbits b / 32) in
  if b_nwords b <? Z.of_nat (i + n) - 1 then Some (ERR_BAD_DIM, b) else
  match kind_of datyp with
  | None => Some (ERR_BAD_DATYP, b)
  | Some k => d <- insert_data orc stride k (b_data b) i src nelm nbits ;; Some (0, set_data b (w32 (b_nbits b + 32 * Z.of_nat n)) d)
  end.

(** xdf98.c 1439-1443: i from [idx + k - 1] down to [idx]. *)
Fixpoint shift_up (k idx n : nat) (d : list Z) : option (list Z) :=
  match k with
  | O => Some d
  | S k' => v <- nth_error d (idx + k') ;; if (idx + k' + n <? length d)%nat then shift_up k' idx n (upd d (idx + k' + n) v) else None
  end.
(** xdf98.c 1395-1496 *)
Definition xdfins (orc : oracle) (stride : nat) (b : buffer) (src : list Z) (bitpos nelm nbits : nat) (datyp : Z) : option (Z * buffer) :=
  if negb (bitpos mod 64 =? 0)%nat then Some (ERR_BAD_ADDR, b) else
  if bad_nbits datyp nbits then Some (ERR_BAD_DATYP, b) else
  let n := nb_words nelm nbits in
  let i := index_word b bitpos in
  let la := last_ind b in
  if b_nwords b <? Z.of_nat (la + n) - 1 then Some (ERR_BAD_DIM, b) else
  d <- (if (la =? i)%nat then Some (b_data b) else shift_up (S la - i) i n (b_data b)) ;;
  match kind_of datyp with
  | None => Some (ERR_BAD_DATYP, set_data b (b_nbits b) d)
  | Some k => d' <- insert_data orc stride k d i src nelm nbits ;; Some (0, set_data b (w32 (b_nbits b + 32 * Z.of_nat n)) d')
  end.

(** xdf98.c 932-934: [k] words from [i] on. *)
Fixpoint shift_down (k i n : nat) (d : list Z) : option (list Z) :=
  match k with
  | O => Some d
  | S k' => v <- nth_error d (i + n) ;; if (i <? length d)%nat then shift_down k' (S i) n (upd d i v) else None
  end.
(** xdf98.c 895-942. The kind of data is not checked. When more words are cut
    than follow the position, the first loop does nothing and the second one
    starts at the position. *)
Definition xdfcut (b : buffer) (bitpos nelm nbits : nat) (datyp : Z) : option (Z * buffer) :=
  if negb (bitpos mod 64 =? 0)%nat then Some (ERR_BAD_ADDR, b) else
  if bad_nbits2 datyp nbits then Some (ERR_BAD_DATYP, b) else
  let n := nb_words nelm nbits in
  let i := index_word b bitpos in
  let la := last_ind b in
  d <- (if (la =? i)%nat then Some (b_data b) else
        let k := (S la - n - i)%nat in
        d1 <- shift_down k i n (b_data b) ;;
        store d1 (i + k) (repeat 0 (S la - (i + k)))) ;;
  Some (0, set_data b (w32 (b_nbits b - 32 * Z.of_nat n)) d).

(** xdf98.c 2382-2475 *)
Definition xdfrep (orc : oracle) (stride : nat) (b : buffer) (src : list Z) (bitpos nelm nbits : nat) (datyp : Z) : option (Z * buffer) :=
  if negb (bitpos mod 64 =? 0)%nat then Some (ERR_BAD_ADDR, b) else
  if bad_nbits2 datyp nbits then Some (ERR_BAD_DATYP, b) else
  let n := nb_words nelm nbits in
  let i := index_word b bitpos in
  if b_nwords b <? Z.of_nat (i + n) - 1 then Some (ERR_BAD_DIM, b) else
  d <- store (b_data b) i (repeat 0 n) ;;
  match kind_of datyp with
  | None => Some (ERR_BAD_DATYP, set_data b (b_nbits b) d)
  | Some k => d' <- insert_data orc stride k d i src nelm nbits ;; Some (0, set_data b (b_nbits b) d')
  end.

(** xdf98.c 2834-2905: result code and the array donnees. *)
Definition xdfxtr (orc : oracle) (stride : nat) (b : buffer) (dst : list Z) (bitpos nelm nbits : nat) (datyp : Z) : option (Z * list Z) :=
  if negb (bitpos mod 64 =? 0)%nat then Some (ERR_BAD_ADDR, dst) else
  if bad_nbits datyp nbits then Some (ERR_BAD_DATYP, dst) else
  let n := nb_words nelm nbits in
  let i := index_word b bitpos in
  match kind_of datyp with
  | None => Some (ERR_BAD_DATYP, dst)
  | Some (Packed sg) =>
    if (length (b_data b) <? i)%nat then None else
    r <- compact_integer orc dst None (skipn i (b_data b)) nelm (Some nbits) 0 stride (if sg then 4 else 2) ;;
    Some (0, ci_unp r)
  | Some Swapped => ws <- take_at (b_data b) i n ;; d <- store dst 0 (swap2 ws) ;; Some (0, d)
  | Some _ => ws <- take_at (b_data b) i n ;; d <- store dst 0 ws ;; Some (0, d)
  end.
