(** Opening and closing random XDF files: model of create_new_xdf
    (src/fstd98/xdf98.c 2912-3010), c_xdfopn (1713-1880, random files),
    c_xdfcls (802-887). *)
From Coq Require Import ZArith List Lia Bool.
From Verif Require Import Bits Handles WaFile Xdf.
Import ListNotations.
Open Scope Z_scope.
Open Scope opt_scope.

Definition XDF0 : Z := 0x58444630.  (* 'XDF0' *)
Definition XDF0_lc : Z := 0x78646630.  (* 'xdf0' *)
Definition STDR : Z := 0x53544452.
Definition STDS : Z := 0x53544453.

Definition empty_cursor : cursor := mkcur None None (-1) 0.

(** xdf98.c 3076-3127: init_file: the values a fresh file table entry starts
    with. *)
Definition fresh (iun : Z) (ro std : bool) (kp : keypack) (d : disk) : fte :=
  mkfte iun ro std kp 0 0 d [] [] [] None (-1) 1 false empty_cursor
        (repeat 0 MAX_PRIMARY_LNG) (repeat (2 ^ 32 - 1) MAX_PRIMARY_LNG) (repeat (2 ^ 32 - 1) MAX_PRIMARY_LNG) false.

(** Key descriptors (word_2): length field, bits 14-18. *)
Definition kd_lcle (wd2 : Z) : Z := (wd2 / 2 ^ 14) mod 32.
(** xdf98.c 2955-2966: descriptor as stored (reserved = 0). *)
Definition kd_store (k : Z * Z) : list Z := [w32 (fst k); snd k / 2 ^ 8 mod 2 ^ 24 * 2 ^ 8].

Definition sum_lcle (l : list (Z * Z)) : Z := fold_right (fun k a => kd_lcle (snd k) + a) 0 l.

(** xdf98.c 2912-3010: create_new_xdf. *)
Definition create_new_xdf (junk : nat -> Z) (f : fte) (pri aux : list (Z * Z)) (sign : Z) : option fte :=
  let npri := Z.of_nat (length pri) in let naux := Z.of_nat (length aux) in
  let lng := naux + npri + 8 in
  let lprm := (sum_lcle pri + 63) / 64 + 1 in
  let laux := (sum_lcle aux + 63) / 64 in
  let hd := [mk_hd 0 lng; 0; XDF0; w32 sign; w32 lng; 0; 0; 0; 0; 0;
             npri mod 2 ^ 16 * 2 ^ 16 + lprm mod 2 ^ 16; naux mod 2 ^ 16 * 2 ^ 16 + laux mod 2 ^ 16; 0; 0; 0; 0]
            ++ flat_map kd_store pri ++ flat_map kd_store aux in
  let f1 := f_sethdr (mkfte (f_iun f) (f_ro f) (f_std f) (f_kp f) (Z.to_nat lprm) (Z.to_nat laux) (f_disk f) (f_log f)
                            hd (f_pages f) (f_tail f) (f_link f) (f_nxtadr f) (f_modified f) (f_cur f)
                            (f_target f) (f_cmask f) (f_smask f) (f_vt f)) hd in
  if f_ro f then Some f1 else
  let nwords := 2 * lng in
  f2 <- f_write junk f1 1 (firstn (Z.to_nat nwords) hd) ;;
  Some (f_setnxt f2 (f_nxtadr f2 + nwords)).

(** xdf98.c 1798-1811: c_xdfopn, mode CREATE. *)
Definition xdfopn_create (junk : nat -> Z) (iun : Z) (ro std : bool) (kp : keypack) (d : disk) (pri aux : list (Z * Z)) (sign : Z)
  : option (Z * fte) :=
  f1 <- create_new_xdf junk (fresh iun ro std kp d) pri aux sign ;;
  r <- add_dir_page junk f1 true ;;
  match r with
  | Err _ => None
  | Go f2 => Some (0, f_setmod (f_sethdr f2 (hset (f_hdr f2) H_RWFLG CREATE)) true)
  end.

(** xdf98.c 1878-1902: reading the [n] directory pages, starting with the one
    at word address [wa]. The page read from disk replaces the fresh one as
    far as the file goes. [None] when a read leaves the file by more than the
    system tolerates (exit) or past the 1024 pages of dir_page[]. *)
Definition xor_words (l : list Z) : Z := fold_left Z.lxor l 0.

Fixpoint read_pages (n : nat) (junk : nat -> Z) (f : fte) (wa : Z) (nrec : Z) : option (res (fte * Z)) :=
  match n with
  | O => Some (Go (f, nrec))
  | S n' =>
    r <- add_dir_page junk f false ;;
    match r with
    | Err _ => None
    | Go f1 =>
      let k := (length (f_pages f1) - 1)%nat in
      pg <- nth_error (f_pages f1) k ;;
      rd <- waread (f_disk f1) (w32 wa) (page_wlen (f_plen f1)) ;;
      let ws := snd rd ++ skipn (length (snd rd)) (p_words pg) in
      let pg1 := page_of_words (f_plen f1) ws false in
      let f2 := f_setpages f1 (upd (f_pages f1) k pg1) in
      (* int wdaddress = ((nxt_addr - 1) << 1) + 1, unsigned arithmetic *)
      let wa' := s32 (w32 (2 * (p_nxt pg1 - 1) + 1)) in
      if ((wa' =? 0) && negb (Nat.eqb n' 0)) || (dsize (f_disk f2) <? wa') then Some (Err ERR_BAD_DIR)
      else read_pages n' junk f2 wa' (nrec + p_nent pg1)
    end
  end.

(** Checksum of a page as verified on opening (1886-1892): exclusive or of
    words 4 and up, must be 0 (a mismatch is only logged). *)
Definition checksum_ok (p : page) : bool := xor_words (skipn 4 (p_words p)) =? 0.

(** xdf98.c 1813-1880: c_xdfopn on an existing XDF file. [mode] is RDMODE,
    WMODE, RWMODE or APPEND. A file without directory pages is a sequential
    file unless it is a standard file (then ERR_BAD_DIR); sequential files are
    not modelled ([None]), nor are the 1989 formats. After an error the C code
    leaves the unit marked as open in the file table; the model returns only
    the code. *)
Definition xdfopn (junk : nat -> Z) (iun : Z) (ro std : bool) (kp : keypack) (d : disk) (mode : Z) : option (res (Z * fte)) :=
  r0 <- waread d 1 4 ;;
  let h64 := snd r0 ++ repeat 0 (4 - length (snd r0)) in
  if negb ((nth 2 h64 0 =? XDF0) || (nth 2 h64 0 =? XDF0_lc)) then Some (Err ERR_NOT_XDF) else
  let wl := 2 * w_lng (nth 0 h64 0) in
  r1 <- waread d 1 wl ;;
  let hd := snd r1 ++ repeat 0 (Z.to_nat wl - length (snd r1)) in
  if (length hd <? 16)%nat then None else
  if std && negb ((hget hd 3 =? STDR) || (hget hd 3 =? STDS)) then Some (Err ERR_WRONG_FTYPE) else
  if negb (mode =? RDMODE) && negb (hget hd H_RWFLG =? RDMODE) then Some (Err ERR_STILL_OPN) else
  let hd1 := hset hd H_RWFLG mode in
  if hget hd1 H_NBD =? 0 then (if std && (nth 3 h64 0 =? STDR) then Some (Err ERR_BAD_DIR) else None) else
  let f0 := fresh iun ro std kp d in
  let f1 := mkfte iun ro std kp (Z.to_nat (h_lprm hd1)) (Z.to_nat (h_laux hd1)) d [] hd1 [] None (-1) (2 * hget hd1 H_FSIZ + 1)
                  false empty_cursor (f_target f0) (f_cmask f0) (f_smask f0) false in
  if Z.of_nat MAX_DIR_PAGES <? hget hd1 H_NBD then None else
  r2 <- read_pages (Z.to_nat (hget hd1 H_NBD)) junk f1 (1 + wl) 0 ;;
  match r2 with
  | Err c => Some (Err c)
  | Go (f2, _) => Some (Go (hget hd1 H_NREC, f2))
  end.

(** xdf98.c 826-869 (c_xdfcls): one pass over the entries of a page: records
    deleted since the last close get idtyp 255 on disk and in the directory;
    the select bit (0x80) is cleared from the others. *)
Fixpoint close_entries (junk : nat -> Z) (f : fte) (l : list (list Z)) : option (fte * list (list Z)) :=
  match l with
  | [] => Some (f, [])
  | e :: l' =>
    let t := e_idtyp e in
    if Z.lor t 0x80 =? 254 then
      let e1 := upd e 0 (mk_hd 255 (e_lng e)) in
      f1 <- f_write junk f (2 * (e_addr e - 1) + 1) (firstn 2 e1) ;;
      r <- close_entries junk f1 l' ;; Some (fst r, e1 :: snd r)
    else
      let e1 := upd e 0 (mk_hd (if Z.lor t 0x80 =? 255 then 255 else Z.land t 0x7F) (e_lng e)) in
      r <- close_entries junk f l' ;; Some (fst r, e1 :: snd r)
  end.

(** xdf98.c 824-851: rewriting of page [k] if modified. The checksum word is
    part of the words added, so it cancels itself. *)
Definition close_page (junk : nat -> Z) (f : fte) (k : nat) : option fte :=
  p <- nth_error (f_pages f) k ;;
  if negb (p_mod p) then Some f else
  if Z.of_nat EPP <? p_nent p then None else
  let n := Z.to_nat (p_nent p) in
  r <- close_entries junk f (firstn n (p_ents p)) ;;
  let p1 := mkpage (p_hd p) (snd r ++ skipn n (p_ents p)) (p_mod p) in
  let ck := fold_left Z.lxor (skipn 4 (p_words p1)) (nth 6 (p_hd p1) 0) in
  let p2 := p_seth p1 6 ck in
  f1 <- f_write junk (fst r) (2 * (p_addr p2 - 1) + 1) (p_words p2) ;;
  Some (f_setpages f1 (upd (f_pages f1) k (p_setmod p2 false))).

Fixpoint close_pages (junk : nat -> Z) (f : fte) (ks : list nat) : option fte :=
  match ks with
  | [] => Some f
  | k :: ks' => f1 <- close_page junk f k ;; close_pages junk f1 ks'
  end.

(** xdf98.c 802-887: c_xdfcls. The result is the file as it is when c_waclos
    is called ([ckpt] = false), or after a checkpoint ([ckpt] = true). *)
Definition xdfcls (junk : nat -> Z) (ckpt : bool) (f : fte) : option fte :=
  let wr := negb (hget (f_hdr f) H_RWFLG =? RDMODE) && negb (f_ro f) in
  let hw (f : fte) := f_write junk f 1 (firstn (Z.to_nat (2 * h_lng (f_hdr f))) (f_hdr f)) in
  f1 <- (if wr then hw f else Some f) ;;
  f2 <- (if f_modified f1 then
           g <- close_pages junk f1 (seq 0 (Z.to_nat (hget (f_hdr f1) H_NBD))) ;; Some (f_setmod g false)
         else Some f1) ;;
  if ckpt then Some f2 else
  if wr then hw (f_sethdr f2 (hset (f_hdr f2) H_RWFLG 0)) else Some f2.
