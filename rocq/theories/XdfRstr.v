(** Restoring an XDF file: model of c_qdfrstr (src/fstd98/xdf98.c 557-625).
    Both units are connected (fnom) and the output can be written. *)
From Coq Require Import ZArith List Lia Bool.
From Verif Require Import Bits Handles WaFile Xdf XdfOpen.
Import ListNotations.
Open Scope Z_scope.
Open Scope opt_scope.

Definition ERR_BAD_LEN := -23.

(** xdf98.c 569: Buflen. *)
Definition BUFLEN : Z := 8192.
(** qstdir.h 699-722: words of a file_header with its 1024 key descriptors. *)
Definition HDR_WORDS : Z := 2064.

(** xdf98.c 608-619: copying [len] words from address [pos]; [n] bounds the
    number of rounds. Each round clears the buffer before reading. *)
Fixpoint copy_chunks (n : nat) (junk : nat -> Z) (inp out : disk) (pos len : Z) : option disk :=
  if len <=? 0 then Some out else
  match n with
  | O => None
  | S n' =>
    let a := Z.min len BUFLEN in
    r <- waread inp pos a ;;
    o <- wawrit junk false out pos (snd r ++ repeat 0 (Z.to_nat a - length (snd r))) ;;
    copy_chunks n' junk inp o (pos + a) (len - a)
  end.

(** xdf98.c 563-625: c_qdfrstr. [junk]: header64 and fh are on the stack and
    not initialised. [outp]: what the output file holds at first (it is not
    truncated). [None]: a header longer than the structure that receives it
    (stack overflow), or exit in waread or wawrit. *)
Definition qdfrstr (junk : nat -> Z) (inp outp : disk) : option (res disk) :=
  r0 <- waread inp 1 4 ;;
  let h64 := snd r0 ++ map (fun k => w32 (junk k)) (seq (length (snd r0)) (4 - length (snd r0))) in
  if negb ((nth 2 h64 0 =? XDF0) || (nth 2 h64 0 =? XDF0_lc)) then Some (Err ERR_NOT_XDF) else
  let l64 := w_lng (nth 0 h64 0) in
  if dsize inp <? 2 * l64 then Some (Err ERR_BAD_LEN) else
  if HDR_WORDS <? 2 * l64 then None else
  r1 <- waread inp 1 (2 * l64) ;;
  let fh := snd r1 ++ map (fun k => w32 (junk k)) (seq (length (snd r1)) (16 - length (snd r1))) in
  let fh1 := hset fh H_RWFLG 0 in
  o <- wawrit junk false outp 1 (firstn (Z.to_nat (2 * l64)) fh1) ;;
  let len := s32 (w32 (2 * (hget fh1 H_FSIZ - l64))) in
  o' <- copy_chunks (S (Z.to_nat (len / BUFLEN))) junk inp o (1 + 2 * l64) len ;;
  Some (Go o').
