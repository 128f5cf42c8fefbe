(** XDF random files: model of the directory engine of src/fstd98/xdf98.c with
    the structures of src/fstd98/qstdir.h. Sequential files (xdf_seq) and the
    1989 formats are not modelled. Each file table entry carries the content
    of the file it is connected to (one unit, one file; the fnom table is not
    modelled apart from its read_only attribute). Integer overflow of word
    addresses (files of 2^31 words and more) is not modelled: addresses are Z. *)
From Coq Require Import ZArith List Lia Bool.
From Verif Require Import Bits Handles WaFile.
Import ListNotations.
Open Scope Z_scope.
Open Scope opt_scope.

(** qstdir.h 67, 69, 20, xdf98.h: ENTRIES_PER_PAGE, MAX_DIR_PAGES,
    MAX_XDF_FILES, MAX_PRIMARY_LNG. *)
Definition EPP : nat := 256.
Definition MAX_DIR_PAGES : nat := 1024.
Definition MAX_XDF_FILES : nat := 1024.
Definition MAX_PRIMARY_LNG : nat := 32.

(** Error codes, qstdir.h 81-158. *)
Definition ERR_NO_FILE := -1.     Definition ERR_SHORT_READ := -4.
Definition ERR_BAD_UNIT := -5.    Definition ERR_NOT_COMP := -6.
Definition ERR_NO_WRITE := -7.    Definition ERR_BAD_PAGENO := -8.
Definition ERR_BAD_HNDL := -9.    Definition ERR_SPECIAL := -10.
Definition ERR_DELETED := -11.    Definition ERR_NOT_FOUND := -12.
Definition ERR_BAD_INIT := -13.   Definition ERR_BAD_ADDR := -18.
Definition ERR_BAD_DIM := -19.    Definition ERR_STILL_OPN := -21.
Definition ERR_RDONLY := -22.     Definition ERR_NO_POS := -25.
Definition ERR_DIR_FULL := -28.   Definition ERR_NO_TARGET := -31.
Definition ERR_BAD_DIR := -33.    Definition ERR_NOT_XDF := -34.
Definition ERR_WRONG_FTYPE := -41.

(** Open modes stored in header->rwflg, xdf98.h: RDMODE, WMODE, CREATE, RWMODE,
    APPEND. *)
Definition RDMODE := 0. Definition WMODE := 1. Definition CREATE := 2.
Definition RWMODE := 3. Definition APPEND := 4.

(** * Words and lists *)

Definition w32 (v : Z) : Z := v mod 2 ^ 32.

(** Assignment to element [i] of an array known to have it. *)
Fixpoint upd {A} (l : list A) (i : nat) (v : A) : list A :=
  match l, i with
  | [], _ => []
  | _ :: t, O => v :: t
  | h :: t, S i' => h :: upd t i' v
  end.

(** qstdir.h 386-394: xdf_record_header, first word (lng:24, idtyp:8). *)
Definition w_idtyp (w : Z) : Z := (w / 2 ^ 24) mod 256.
Definition w_lng (w : Z) : Z := w mod 2 ^ 24.
Definition mk_hd (idtyp lng : Z) : Z := (idtyp mod 256) * 2 ^ 24 + lng mod 2 ^ 24.

(** * Directory pages *)

(** qstdir.h 318-353: xdf_dir_page: 8 header words (0 lng/idtyp, 1 addr, 2-3
    reserved, 4 nxt_addr, 5 nent, 6 chksum, 7 reserved3) then 256 entries of
    2 * primary_len words; full_dir_page adds the modified flag. The chain
    pointers are derived from the position in dir_page[]. *)
Record page := mkpage { p_hd : list Z; p_ents : list (list Z); p_mod : bool }.

Definition p_addr (p : page) : Z := nth 1 (p_hd p) 0.
Definition p_nxt (p : page) : Z := nth 4 (p_hd p) 0.
Definition p_nent (p : page) : Z := nth 5 (p_hd p) 0.
Definition p_words (p : page) : list Z := p_hd p ++ concat (p_ents p).
Definition p_seth (p : page) (k : nat) (v : Z) : page := mkpage (upd (p_hd p) k (w32 v)) (p_ents p) (p_mod p).
Definition p_setent (p : page) (r : nat) (e : list Z) : page := mkpage (p_hd p) (upd (p_ents p) r e) (p_mod p).
Definition p_setmod (p : page) (b : bool) : page := mkpage (p_hd p) (p_ents p) b.

(** Splitting a word array into [n] arrays of [k] words. *)
Fixpoint chunks (n k : nat) (l : list Z) : list (list Z) :=
  match n with O => [] | S n' => firstn k l :: chunks n' k (skipn k l) end.

Definition page_of_words (plen : nat) (ws : list Z) (m : bool) : page :=
  mkpage (firstn 8 ws) (chunks EPP (2 * plen) (skipn 8 ws)) m.

(** * Files *)

(** Kind of key packing: build_fstd_prim_keys or another function (not
    modelled here, see XdfKeys.v); given by its two modes. *)
Record keypack := mkkp {
  kp_write : list Z -> list Z -> list Z -> list Z -> list Z -> option (list Z * list Z);
    (* header, destination, keys, mask destination, mask keys *)
  kp_read : list Z -> list Z -> option (list Z) (* header, source *) }.

(** Cursor of a file: cur_dir_page, cur_entry (page and entry number),
    cur_pageno, page_record. page_nrecords is always recomputed before use and
    is left out. *)
Record cursor := mkcur { c_pg : option (nat * nat); c_ent : option ((nat * nat) * nat); c_no : Z; c_rec : Z }.

(** qstdir.h 757-841: file_table_entry. [f_hdr] is the in-memory file_header
    as words. [f_tail]: next_page of the last page, that is the first page of
    file [k] when linked. [f_log]: ghost list of the disk writes (offset,
    words) done so far, most recent last. *)
Record fte := mkfte {
  f_iun : Z; f_ro : bool; f_std : bool; f_kp : keypack; f_plen : nat; f_ilen : nat;
  f_disk : disk; f_log : list (Z * list Z);
  f_hdr : list Z; f_pages : list page; f_tail : option nat; f_link : Z;
  f_nxtadr : Z; f_modified : bool; f_cur : cursor;
  f_target : list Z; f_cmask : list Z; f_smask : list Z; f_vt : bool }.

Definition f_setdisk f d l := mkfte (f_iun f) (f_ro f) (f_std f) (f_kp f) (f_plen f) (f_ilen f) d l (f_hdr f) (f_pages f) (f_tail f) (f_link f) (f_nxtadr f) (f_modified f) (f_cur f) (f_target f) (f_cmask f) (f_smask f) (f_vt f).
Definition f_sethdr f h := mkfte (f_iun f) (f_ro f) (f_std f) (f_kp f) (f_plen f) (f_ilen f) (f_disk f) (f_log f) h (f_pages f) (f_tail f) (f_link f) (f_nxtadr f) (f_modified f) (f_cur f) (f_target f) (f_cmask f) (f_smask f) (f_vt f).
Definition f_setpages f p := mkfte (f_iun f) (f_ro f) (f_std f) (f_kp f) (f_plen f) (f_ilen f) (f_disk f) (f_log f) (f_hdr f) p (f_tail f) (f_link f) (f_nxtadr f) (f_modified f) (f_cur f) (f_target f) (f_cmask f) (f_smask f) (f_vt f).
Definition f_setlink f t l := mkfte (f_iun f) (f_ro f) (f_std f) (f_kp f) (f_plen f) (f_ilen f) (f_disk f) (f_log f) (f_hdr f) (f_pages f) t l (f_nxtadr f) (f_modified f) (f_cur f) (f_target f) (f_cmask f) (f_smask f) (f_vt f).
Definition f_setnxt f n := mkfte (f_iun f) (f_ro f) (f_std f) (f_kp f) (f_plen f) (f_ilen f) (f_disk f) (f_log f) (f_hdr f) (f_pages f) (f_tail f) (f_link f) n (f_modified f) (f_cur f) (f_target f) (f_cmask f) (f_smask f) (f_vt f).
Definition f_setmod f b := mkfte (f_iun f) (f_ro f) (f_std f) (f_kp f) (f_plen f) (f_ilen f) (f_disk f) (f_log f) (f_hdr f) (f_pages f) (f_tail f) (f_link f) (f_nxtadr f) b (f_cur f) (f_target f) (f_cmask f) (f_smask f) (f_vt f).
Definition f_setcur f c := mkfte (f_iun f) (f_ro f) (f_std f) (f_kp f) (f_plen f) (f_ilen f) (f_disk f) (f_log f) (f_hdr f) (f_pages f) (f_tail f) (f_link f) (f_nxtadr f) (f_modified f) c (f_target f) (f_cmask f) (f_smask f) (f_vt f).
Definition f_settgt f t m v := mkfte (f_iun f) (f_ro f) (f_std f) (f_kp f) (f_plen f) (f_ilen f) (f_disk f) (f_log f) (f_hdr f) (f_pages f) (f_tail f) (f_link f) (f_nxtadr f) (f_modified f) (f_cur f) t m (f_smask f) v.

(** qstdir.h 533-600: file_header words: 0 lng/idtyp, 1 addr, 2 vrsn, 3 sign, 4
    fsiz, 5 nrwr, 6 nxtn, 7 nbd, 8 plst, 9 nbig, 10 nprm:16 lprm:16, 11
    naux:16 laux:16, 12 neff, 13 nrec, 14 rwflg, 15 reserved, then 2 words per
    key. *)
Definition hget (h : list Z) (k : nat) : Z := nth k h 0.
Definition hset (h : list Z) (k : nat) (v : Z) : list Z := upd h k (w32 v).
Definition H_FSIZ := 4%nat.  Definition H_NRWR := 5%nat.  Definition H_NXTN := 6%nat.
Definition H_NBD := 7%nat.   Definition H_PLST := 8%nat.  Definition H_NBIG := 9%nat.
Definition H_PRM := 10%nat.  Definition H_AUX := 11%nat.  Definition H_NEFF := 12%nat.
Definition H_NREC := 13%nat. Definition H_RWFLG := 14%nat.
Definition h_lng (h : list Z) : Z := w_lng (hget h 0).
Definition h_nprm (h : list Z) : Z := hget h H_PRM / 2 ^ 16.
Definition h_lprm (h : list Z) : Z := hget h H_PRM mod 2 ^ 16.
Definition h_naux (h : list Z) : Z := hget h H_AUX / 2 ^ 16.
Definition h_laux (h : list Z) : Z := hget h H_AUX mod 2 ^ 16.
Definition hadd (h : list Z) (k : nat) (v : Z) : list Z := hset h k (hget h k + v).

(** xdf98.c 223-262: build_fstd_prim_keys. WMODE copies 2 * (lprm - 1) words of
    keys and mask keys after the two header words of the destinations. *)
Definition std_nw (h : list Z) : nat := Z.to_nat (2 * (h_lprm h - 1)).
Definition std_write (h dst keys mask msk : list Z) : option (list Z * list Z) :=
  let n := std_nw h in
  if (n <=? length keys)%nat && (n <=? length msk)%nat && (2 + n <=? length dst)%nat && (2 + n <=? length mask)%nat
  then Some (firstn 2 dst ++ firstn n keys ++ skipn (2 + n) dst,
             [0; 0] ++ firstn n msk ++ skipn (2 + n) mask)
  else None.
Definition std_read (h src : list Z) : option (list Z) :=
  let n := std_nw h in
  if (2 + n <=? length src)%nat && (n <=? MAX_PRIMARY_LNG)%nat then Some (firstn n (skipn 2 src)) else None.
Definition std_kp : keypack := mkkp std_write std_read.

(** * The file table *)

(** xdf98.c: file_table[], and the global STDSEQ_opened. Slots that are NULL or
    have iun = -1 are [None]. *)
Record world := mkworld { w_seq : bool; w_file : nat -> option fte }.

Definition setf (w : world) (i : nat) (f : option fte) : world :=
  mkworld (w_seq w) (fun j => if Nat.eqb j i then f else w_file w j).

(** xdf98.c 3013-3025: file_index. *)
Definition file_index (w : world) (iun : Z) : option nat :=
  find (fun i => match w_file w i with Some f => f_iun f =? iun | None => false end) (seq 0 MAX_XDF_FILES).

(** Pages are designated by (file slot, position in dir_page[]). *)
Definition get_page (w : world) (pp : nat * nat) : option page :=
  f <- w_file w (fst pp) ;; nth_error (f_pages f) (snd pp).
Definition set_page (w : world) (pp : nat * nat) (p : page) : world :=
  match w_file w (fst pp) with
  | Some f => setf w (fst pp) (Some (f_setpages f (upd (f_pages f) (snd pp) p)))
  | None => w
  end.

(** page->next_page. Outer [None]: the page no longer exists (its file was
    closed and the page freed). *)
Definition next_page (w : world) (pp : nat * nat) : option (option (nat * nat)) :=
  match w_file w (fst pp) with
  | None => None
  | Some f =>
    if (S (snd pp) <? length (f_pages f))%nat then Some (Some (fst pp, S (snd pp)))
    else match f_tail f with
         | None => Some None
         | Some k => match w_file w k with Some _ => Some (Some (k, O)) | None => None end
         end
  end.

Fixpoint walk_pages (w : world) (n : nat) (pp : nat * nat) : option (option (nat * nat)) :=
  match n with
  | O => Some (Some pp)
  | S n' => match next_page w pp with
            | None => None
            | Some None => Some None
            | Some (Some q) => walk_pages w n' q
            end
  end.

(** Outcome of a stage of a C function: early return with an error code, or
    go on. *)
Inductive res (A : Type) := Err (code : Z) | Go (a : A).
Arguments Err {A}. Arguments Go {A}.

(** xdf98.c 983-1001 (c_xdfdel), 1068-1086 (c_xdfget2), 2087-2103 (c_xdfprm),
    2232-2249 (c_xdfput): the directory page a handle designates. *)
Definition locate (w : world) (i : nat) (f : fte) (pn : nat) : option (res (nat * nat)) :=
  if (pn <? length (f_pages f))%nat then Some (Go (i, pn))
  else if f_link f =? -1 then Some (Err ERR_BAD_PAGENO)
  else match walk_pages w (S (pn - length (f_pages f))) (i, (length (f_pages f) - 1)%nat) with
       | None => None
       | Some None => Some (Err ERR_BAD_PAGENO)
       | Some (Some q) => Some (Go q)
       end.

(** xdf98.c 1003-1010 and alike: the directory entry. Record number = number
    of entries is let through (the test is >, not >=). Linking files whose
    entries have different lengths is not modelled ([None]). *)
Definition entry_of (w : world) (f : fte) (pp : nat * nat) (rn : nat) : option (res (list Z)) :=
  p <- get_page w pp ;;
  g <- w_file w (fst pp) ;;
  if p_nent p <? Z.of_nat rn then Some (Err ERR_BAD_HNDL)
  else if negb (f_plen g =? f_plen f)%nat then None
  else e <- nth_error (p_ents p) rn ;; Some (Go e).

Definition e_idtyp (e : list Z) : Z := w_idtyp (nth 0 e 0).
Definition e_lng (e : list Z) : Z := w_lng (nth 0 e 0).
Definition e_addr (e : list Z) : Z := nth 1 e 0.

(** (idtyp & 0x7E) == 0x7E *)
Definition deleted (t : Z) : bool := Z.land t 0x7E =? 0x7E.

Definition set_entry (w : world) (pp : nat * nat) (r : nat) (e : list Z) : option world :=
  p <- get_page w pp ;; Some (set_page w pp (p_setent p r e)).

Definition hidx (w : world) (h : Z) : nat := Z.to_nat (index_from_handle (w_seq w) h).
Definition hpage (h : Z) : nat := Z.to_nat (pageno_from_handle h).
Definition hrec (h : Z) : nat := Z.to_nat (record_from_handle h).

(** * c_xdfdel: xdf98.c 943-1040, random files *)
Definition xdfdel (w : world) (h : Z) : option (Z * world) :=
  let i := hidx w h in
  match w_file w i with
  | None => Some (ERR_BAD_HNDL, w)
  | Some f =>
    if (hget (f_hdr f) H_RWFLG =? RDMODE) || (hget (f_hdr f) H_RWFLG =? APPEND) then Some (ERR_RDONLY, w) else
    if f_ro f then Some (ERR_RDONLY, w) else
    match locate w i f (hpage h) with
    | None => None
    | Some (Err c) => Some (c, w)
    | Some (Go pp) =>
      match entry_of w f pp (hrec h) with
      | None => None
      | Some (Err c) => Some (c, w)
      | Some (Go e) =>
        if e_idtyp e =? 0 then Some (ERR_SPECIAL, w) else
        if deleted (e_idtyp e) then Some (ERR_DELETED, w) else
        p <- get_page w pp ;;
        let p1 := p_setmod (p_setent p (hrec h) (upd e 0 (mk_hd 254 (e_lng e)))) true in
        let w1 := set_page w pp p1 in
        f1 <- w_file w1 i ;;
        let hd := hadd (hadd (f_hdr f1) H_NEFF 1) H_NREC (-1) in
        Some (0, setf w1 i (Some (f_setmod (f_sethdr f1 hd) true)))
      end
    end
  end.

(** * c_xdfget2: xdf98.c 1044-1175, random files, aux_ptr = NULL *)

(** qstdir.h 846-871: buffer_interface. [b_data]: the words available in
    data[]. *)
Record buffer := mkbuf { b_nwords : Z; b_nbits : Z; b_didx : Z; b_ridx : Z; b_iun : Z; b_aidx : Z; b_data : list Z }.

Definition s32 (v : Z) : Z := if v <? 2 ^ 31 then v else v - 2 ^ 32.

Definition xdfget (w : world) (h : Z) (buf : buffer) : option (Z * buffer) :=
  let i := hidx w h in
  match w_file w i with
  | None => Some (ERR_BAD_HNDL, buf)
  | Some f =>
    match locate w i f (hpage h) with
    | None => None
    | Some (Err c) => Some (c, buf)
    | Some (Go pp) =>
      g <- w_file w (fst pp) ;;
      match entry_of w g pp (hrec h) with
      | None => None
      | Some (Err c) => Some (c, buf)
      | Some (Go e) =>
        let lngw := 2 * e_lng e in
        if e_idtyp e =? 0 then Some (ERR_SPECIAL, buf) else
        if deleted (e_idtyp e) then Some (ERR_DELETED, buf) else
        let nw0 := s32 (b_nwords buf) in
        if (nw0 <? 0) && negb (b_nbits buf =? 2 ^ 32 - 1) then Some (ERR_BAD_DIM, buf) else
        let nw := Z.abs nw0 in
        let off := if nw0 <? 0 then 2 * Z.of_nat (f_plen g + f_ilen g) else 0 in
        if nw + 1 <? lngw then Some (ERR_BAD_DIM, buf) else
        if (length (b_data buf) <? Z.to_nat lngw)%nat then None else
        let d0 := repeat 0 (Z.to_nat lngw) ++ skipn (Z.to_nat lngw) (b_data buf) in
        r <- waread (f_disk g) (2 * (e_addr e - 1) + 1 + off) (lngw - off) ;;
        let d1 := snd r ++ skipn (length (snd r)) d0 in
        let b := mkbuf (b_nwords buf) (w32 (lngw * 32)) (2 * Z.of_nat (f_plen g + f_ilen g)) 0 (f_iun g)
                       (2 * Z.of_nat (f_plen g)) d1 in
        if fst r =? lngw - off then Some (0, b) else Some (ERR_SHORT_READ, b)
      end
    end
  end.

(** * c_xdfprm: xdf98.c 2058-2140, random files: address, length, type, keys *)
Definition xdfprm (w : world) (h : Z) : option (res (Z * Z * Z * list Z)) :=
  let i := hidx w h in
  match w_file w i with
  | None => Some (Err ERR_BAD_HNDL)
  | Some f =>
    match locate w i f (hpage h) with
    | None => None
    | Some (Err c) => Some (Err c)
    | Some (Go pp) =>
      match entry_of w f pp (hrec h) with
      | None => None
      | Some (Err c) => Some (Err c)
      | Some (Go e) =>
        ks <- kp_read (f_kp f) (f_hdr f) e ;;
        Some (Go (e_addr e, e_lng e, e_idtyp e, ks))
      end
    end
  end.

(** * Disk writes of a file *)
Definition f_write (junk : nat -> Z) (f : fte) (off : Z) (ws : list Z) : option fte :=
  d <- wawrit junk (f_ro f) (f_disk f) off ws ;;
  Some (f_setdisk f d (if f_ro f then f_log f else f_log f ++ [(off, ws)])).

(** xdf98.c 116-187: add_dir_page. [junk] is the content of the malloc'ed page:
    only primary_len * 256 + 1 words of the entries are cleared. *)
Definition new_page (junk : nat -> Z) (plen : nat) (addr : Z) : page :=
  mkpage [mk_hd 0 (Z.of_nat (EPP * plen + 4)); w32 addr; 0; 0; 0; 0; 0; w32 (junk 0%nat)]
         (map (fun r => map (fun k => if (r * (2 * plen) + k <=? plen * EPP)%nat then 0 else w32 (junk (S (r * (2 * plen) + k))))
                            (seq 0 (2 * plen))) (seq 0 EPP))
         false.

Definition page_wlen (plen : nat) : Z := 2 * (Z.of_nat (EPP * plen) + 4).

Definition add_dir_page (junk : nat -> Z) (f : fte) (wflag : bool) : option (res fte) :=
  if (MAX_DIR_PAGES <=? length (f_pages f))%nat then Some (Err ERR_DIR_FULL) else
  let addr := (f_nxtadr f - 1) / 2 + 1 in
  let pg := new_page junk (f_plen f) addr in
  if wflag then
    let np := length (f_pages f) in
    let pgs := match nth_error (f_pages f) (np - 1) with
               | Some q => upd (f_pages f) (np - 1) (p_seth q 4 (p_addr pg))
               | None => f_pages f
               end in
    f1 <- f_write junk f (f_nxtadr f) (p_words pg) ;;
    let nx := f_nxtadr f + page_wlen (f_plen f) in
    let hd := hset (hadd (hset (f_hdr f1) H_FSIZ ((nx - 1) / 2)) H_NBD 1) H_PLST (p_addr pg) in
    Some (Go (f_setlink (f_setnxt (f_sethdr (f_setpages f1 (pgs ++ [p_setmod pg true])) hd) nx) None (f_link f)))
  else Some (Go (f_setlink (f_setpages f (f_pages f ++ [pg])) None (f_link f))).

(** * c_xdfput: xdf98.c 2150-2395, random files *)

(** 2197-2284: what is decided before anything is written. The result is
    (cursor changes, rewrite address): [Some a] when the record is rewritten
    in place at word address [a]. On error the cursor may already have moved. *)
Definition put_target (w : world) (i ib : nat) (f : fte) (h nwords : Z) : option (Z * fte + fte * option Z) :=
  let i' := hidx w h in
  if negb (Nat.eqb i' i) then Some (inl (ERR_BAD_HNDL, f)) else
  fb <- w_file w ib ;;
  if negb (Nat.eqb i ib) &&
     negb ((hget (f_hdr f) H_PRM =? hget (f_hdr fb) H_PRM) && (hget (f_hdr f) H_AUX =? hget (f_hdr fb) H_AUX))
  then Some (inl (ERR_NOT_COMP, f)) else
  match locate w i f (hpage h) with
  | None => None
  | Some (Err c) =>
    Some (inl (c, if f_link f =? -1 then f else f_setcur f (mkcur None (c_ent (f_cur f)) (c_no (f_cur f)) (c_rec (f_cur f)))))
  | Some (Go pp) =>
    let f1 := f_setcur f (mkcur (Some pp) (c_ent (f_cur f)) (c_no (f_cur f)) (c_rec (f_cur f))) in
    match entry_of w f pp (hrec h) with
    | None => None
    | Some (Err c) => Some (inl (c, f1))
    | Some (Go e) =>
      let f2 := f_setcur f (mkcur (Some pp) (Some (pp, hrec h)) (c_no (f_cur f)) (c_rec (f_cur f))) in
      if e_idtyp e =? 0 then Some (inl (ERR_SPECIAL, f2)) else
      if deleted (e_idtyp e) then Some (inl (ERR_DELETED, f2)) else
      Some (inr (f2, if 2 * e_lng e =? nwords then Some (2 * (e_addr e - 1) + 1) else None))
    end
  end.

(** 2286-2302: a new directory entry at the end of the directory. *)
Definition put_slot (junk : nat -> Z) (i : nat) (f : fte) : option (Z * fte + fte) :=
  let np := length (f_pages f) in
  q <- nth_error (f_pages f) (np - 1) ;;
  let take (f : fte) (k : nat) (r : Z) : option fte :=
    p <- nth_error (f_pages f) k ;;
    Some (f_setpages (f_setcur f (mkcur (Some (i, k)) (Some ((i, k), Z.to_nat r)) (Z.of_nat np - 1) (c_rec (f_cur f))))
                     (upd (f_pages f) k (p_seth p 5 (p_nent p + 1)))) in
  if Z.of_nat EPP <=? p_nent q then
    let f1 := f_setpages f (upd (f_pages f) (np - 1) (p_setmod q true)) in
    match add_dir_page junk f1 true with
    | None => None
    | Some (Err c) => Some (inl (c, f_setcur f1 (mkcur (Some (i, (np - 1)%nat)) (c_ent (f_cur f)) (Z.of_nat np - 1) (c_rec (f_cur f)))))
    | Some (Go f2) => f3 <- take f2 np 0 ;; Some (inr f3)
    end
  else f3 <- take f (np - 1)%nat (p_nent q) ;; Some (inr f3).

(** 2312-2383: write the record, fill the directory entry, update the header. *)
Definition put_record (junk : nat -> Z) (w : world) (i : nat) (rewrite to_end : bool) (waddr nwords : Z) (buf : buffer)
  : option (Z * world * buffer) :=
  f <- w_file w i ;;
  b0 <- nth_error (b_data buf) 0 ;;
  let data1 := upd (upd (b_data buf) 1 (w32 ((waddr - 1) / 2 + 1))) 0 (mk_hd (w_idtyp b0) (nwords / 2)) in
  if (length (b_data buf) <? 2)%nat || (length (b_data buf) <? Z.to_nat nwords)%nat then None else
  f1 <- f_write junk f waddr (firstn (Z.to_nat nwords) data1) ;;
  ks <- kp_read (f_kp f) (f_hdr f) data1 ;;
  ce <- c_ent (f_cur f) ;;
  let '(pp, r) := ce in
  let w1 := setf w i (Some f1) in
  p <- get_page w1 pp ;;
  e <- nth_error (p_ents p) r ;;
  em <- kp_write (f_kp f) (f_hdr f) e (ks ++ repeat 0 (MAX_PRIMARY_LNG - length ks)) (repeat 0 MAX_PRIMARY_LNG) (repeat 0 MAX_PRIMARY_LNG) ;;
  let e1 := upd (upd (fst em) 1 (w32 ((waddr - 1) / 2 + 1))) 0 (mk_hd (w_idtyp b0) (nwords / 2)) in
  let w2 := set_page w1 pp (p_setmod (p_setent p r e1) true) in
  f2 <- w_file w2 i ;;
  let h1 := hadd (f_hdr f2) H_NREC 1 in
  let h2 := if to_end then
              let h := hadd (hadd h1 H_NXTN 1) H_FSIZ (nwords / 2) in
              hset h H_NBIG (if hget h H_NBIG <? nwords / 2 then nwords / 2 else hget h H_NBIG)
            else h1 in
  let h3 := if rewrite then hadd h2 H_NRWR 1 else h2 in
  let nx := if to_end then 2 * hget h2 H_FSIZ + 1 else f_nxtadr f2 in
  Some (0, setf w2 i (Some (f_setmod (f_setnxt (f_sethdr f2 h3) nx) true)),
        mkbuf (b_nwords buf) (b_nbits buf) (b_didx buf) (b_ridx buf) (b_iun buf) (b_aidx buf) data1).

Definition xdfput (junk : nat -> Z) (w : world) (iun handle : Z) (buf : buffer) : option (Z * world * buffer) :=
  match file_index w (b_iun buf) with
  | None => Some (ERR_BAD_INIT, w, buf)
  | Some ib =>
  match file_index w iun with
  | None => Some (ERR_BAD_UNIT, w, buf)
  | Some i =>
    if negb (b_nbits buf mod 64 =? 0) then Some (ERR_BAD_ADDR, w, buf) else
    let nwords := b_nbits buf / 32 in
    f <- w_file w i ;;
    if (hget (f_hdr f) H_RWFLG =? RDMODE) || f_ro f then Some (ERR_NO_WRITE, w, buf) else
    if negb (handle =? 0) && (hget (f_hdr f) H_RWFLG =? APPEND) then Some (ERR_NO_WRITE, w, buf) else
    let h := Z.abs handle in
    match (if handle =? 0 then Some (inr (f, None)) else put_target w i ib f h nwords) with
    | None => None
    | Some (inl (c, f1)) => Some (c, setf w i (Some f1), buf)
    | Some (inr (f1, inplace)) =>
      let in_place := match inplace with Some a => 0 <? handle | None => false end in
      match (if in_place then Some (inr f1) else put_slot junk i f1) with
      | None => None
      | Some (inl (c, f2)) => Some (c, setf w i (Some f2), buf)
      | Some (inr f2) =>
        let w2 := setf w i (Some f2) in
        (* write_addr = nxtadr, read after a page may have been added *)
        let waddr := match inplace with Some a => if in_place then a else f_nxtadr f2 | None => f_nxtadr f2 end in
        match (if handle =? 0 then Some (0, w2) else xdfdel w2 h) with
        | None => None
        | Some (c, w3) =>
          if c <? 0 then Some (c, w3, buf)
          else put_record junk w3 i (negb (handle =? 0)) (negb in_place) waddr nwords buf
        end
      end
    end
  end
  end.
