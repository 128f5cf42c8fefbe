(** Statistics of a file: model of c_xdfsta (src/fstd98/xdf98.c 2480-2535), the
    array stat[] with nstat = 12; key descriptions and signatures left out. *)
From Coq Require Import ZArith List.
From Verif Require Import Bits WaFile Xdf XdfOpen.
Import ListNotations.
Open Scope Z_scope.
Open Scope opt_scope.

Definition stat_words (h : list Z) : list Z :=
  [hget h H_FSIZ; hget h H_NRWR; hget h H_NXTN; hget h H_NBD; hget h H_PLST; hget h H_NBIG;
   h_nprm h; h_lprm h; h_naux h; h_laux h; hget h H_NEFF; hget h H_NREC].

(** 2502-2523: an open file: its header in memory; a file that is not open:
    its header is read from disk ([d]). *)
Definition xdfsta_disk (d : disk) : option (res (list Z)) :=
  r0 <- waread d 1 4 ;;
  let h64 := snd r0 ++ repeat 0 (4 - length (snd r0)) in
  if negb ((nth 2 h64 0 =? XDF0) || (nth 2 h64 0 =? XDF0_lc)) then Some (Err ERR_NOT_XDF) else
  r1 <- waread d 1 (2 * w_lng (nth 0 h64 0)) ;;
  Some (Go (stat_words (snd r1))).

Definition xdfsta (w : world) (iun : Z) (d : disk) : option (res (list Z)) :=
  match file_index w iun with
  | Some i => f <- w_file w i ;; Some (Go (stat_words (f_hdr f)))
  | None => xdfsta_disk d
  end.
