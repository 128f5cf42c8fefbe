(** Meteorological reports (BURP): model of src/fstd98/burp98.c and of the
    Fortran functions mrbini (src/burp98_f/mrbini.F90).

    Counts, block numbers and widths are non-negative, and the products of
    dimensions do not exceed an int. The arrays of the caller are lists of
    32-bit words: an access outside of one gives [None]. *)
From Coq Require Import ZArith List Lia Bool.
From Verif Require Import Bits BitIO CompactInt Handles WaFile Xdf XdfSearch XdfOpen XdfHist XdfKeys XdfBuf Fst.
Import ListNotations.
Open Scope Z_scope.
Open Scope opt_scope.

(** ** Keys *)

(** qstdir.h 621-646: the key words after the two words of the record header:
    word, shift, width of sti1, ..., sti9, flgs, lati, lon, date, dx, idtp, dy,
    heur, min, in the order of the keys array (burp98.c 113-130). The sti keys
    are made upper case (156-200). *)
Definition burp_fields : list field :=
  [mkfield 0 24 8 true; mkfield 0 16 8 true; mkfield 0 8 8 true; mkfield 0 0 8 true;
   mkfield 1 24 8 true; mkfield 1 16 8 true; mkfield 1 8 8 true; mkfield 1 0 8 true;
   mkfield 2 24 8 true; mkfield 2 0 24 false; mkfield 3 16 16 false; mkfield 3 0 16 false;
   mkfield 4 12 20 false; mkfield 4 0 12 false; mkfield 5 24 8 false; mkfield 5 12 12 false;
   mkfield 5 6 6 false; mkfield 5 0 6 false].
(** qstdir.h 649-657, burp98.c 60-64: nblks, oars, elev, drcv, runn. *)
Definition burp_info : list field :=
  [mkfield 0 16 16 false; mkfield 0 0 16 false; mkfield 1 19 13 false; mkfield 1 8 11 false; mkfield 1 0 8 false].

(** qstdir.h 58 *)
Definition upper_case (car : Z) : Z := Z.ldiff car (Z.shiftr (Z.land car 64) 1).
(** Assignment of a value to a bit field. *)
Definition setbits (w s n v : Z) : Z := w - putf (getf w s n) s n + putf v s n.

(** burp98.c 155-245: the keys, one by one. *)
Fixpoint burp_put (fs : list field) (keys buf mask : list Z) : option (list Z * list Z) :=
  match fs, keys with
  | [], _ => Some (buf, mask)
  | f :: fs', k :: keys' =>
    if k =? 2 ^ 32 - 1 then
      m <- nth_error mask (fd_w f) ;; burp_put fs' keys' buf (upd mask (fd_w f) (setbits m (fd_s f) (fd_n f) 0))
    else
      w <- nth_error buf (fd_w f) ;;
      burp_put fs' keys' (upd buf (fd_w f) (setbits w (fd_s f) (fd_n f) (if fd_up f then upper_case k else k))) mask
  | _, [] => None
  end.
(** burp98.c 135-246: write_burp_prim_keys. sizeof(burp_dir_keys) is 8 words:
    they are set to -1, then the two header words to 0. *)
Definition burp_write (h dst keys mask msk : list Z) : option (list Z * list Z) :=
  if (length dst <? 2)%nat || (length mask <? 8)%nat then None else
  r <- burp_put burp_fields keys (skipn 2 dst) (repeat (2 ^ 32 - 1) 6 ++ skipn 8 mask) ;;
  Some (firstn 2 dst ++ fst r, [0; 0] ++ snd r).
(** burp98.c 107-131: read_burp_prim_keys. *)
Definition read_bits (fs : list field) (src : list Z) : option (list Z) :=
  fold_right (fun f r => w <- nth_error src (fd_w f) ;; ks <- r ;; Some (getf w (fd_s f) (fd_n f) :: ks)) (Some []) fs.
Definition burp_read (h src : list Z) : option (list Z) := read_bits burp_fields (skipn 2 src).
Definition burp_kp : keypack := mkkp burp_write burp_read.

(** burp98.c 69-84: write_burp_info_keys; [dst]: from the info words on. *)
Fixpoint info_put (fs : list field) (keys buf : list Z) : option (list Z) :=
  match fs, keys with
  | [], _ => Some buf
  | f :: fs', k :: keys' =>
    if k =? 2 ^ 32 - 1 then info_put fs' keys' buf
    else w <- nth_error buf (fd_w f) ;; info_put fs' keys' (upd buf (fd_w f) (setbits w (fd_s f) (fd_n f) k))
  | _, [] => None
  end.

(** ** Reports *)

(** A buffer with the words buf8 and buf9 of its header (qstdir.h 843-870): the
    number of blocks and the number of bits of the block headers. *)
Record report := mkrep { r_b : buffer; r_nblk : nat; r_buf9 : nat }.

(** qstdir.h: sizes and return codes. *)
Definition BURP_ERR_BNUM : Z := -33.
Definition BURP_ERR_CMPR : Z := -41.
Definition BURP_ERR_BDESC : Z := -43.
Definition BURP_ERR_CODE : Z := -44.
Definition NBENTR : Z := 320.
Definition NBENTB : nat := 128.
Definition GROSNELE : nat := 127.
Definition GROSDIM : nat := 256.
(** Words of burp_dir_keys and burp_dir_info: the block headers follow. *)
Definition BLOCKS : nat := 10.

(** qstdir.h 667-677: the fields of a block header of four words. *)
Definition hb_nbit (h : list Z) : Z := getf (nth 0 h 0) 0 5.
Definition hb_btyp (h : list Z) : Z := getf (nth 0 h 0) 5 15.
Definition hb_bfd (h : list Z) : Z := getf (nth 0 h 0) 20 12.
Definition hb_bit0 (h : list Z) : Z := getf (nth 1 h 0) 0 20.
Definition hb_datyp (h : list Z) : Z := getf (nth 1 h 0) 20 4.
Definition hb_nt (h : list Z) : Z := getf (nth 1 h 0) 24 8.
Definition hb_elem1 (h : list Z) : Z := getf (nth 2 h 0) 0 16.
Definition hb_nval (h : list Z) : Z := getf (nth 2 h 0) 16 8.
Definition hb_nele (h : list Z) : Z := getf (nth 2 h 0) 24 7.
Definition hb_flag (h : list Z) : Z := getf (nth 2 h 0) 31 1.
Definition hb_elem3 (h : list Z) : Z := getf (nth 3 h 0) 0 16.
Definition hb_elem2 (h : list Z) : Z := getf (nth 3 h 0) 16 16.
Definition mk_hb (nbit btyp bfd bit0 datyp nt elem1 nval nele flag elem3 elem2 : Z) : list Z :=
  [putf bfd 20 12 + putf btyp 5 15 + putf nbit 0 5; putf nt 24 8 + putf datyp 20 4 + putf bit0 0 20;
   putf flag 31 1 + putf nele 24 7 + putf nval 16 8 + putf elem1 0 16; putf elem2 16 16 + putf elem3 0 16].
(** The dimensions, and the elements listed after the headers (burp98.c
    618-630, 866-874, 909-923, 989-1007). *)
Definition hb_dims (h : list Z) : nat * nat * nat :=
  if hb_flag h =? 0 then (Z.to_nat (hb_nele h), Z.to_nat (hb_nval h), Z.to_nat (hb_nt h))
  else (Z.to_nat (hb_elem1 h), Z.to_nat (hb_elem2 h), Z.to_nat (hb_elem3 h)).
Definition hb_listed (h : list Z) : nat :=
  if hb_flag h =? 0 then Z.to_nat (hb_nele h) - 3 else Z.to_nat (hb_elem1 h).

(** burp98.c 340-345: bits of a non-negative value. *)
Fixpoint bit_count (fuel : nat) (temp : Z) : nat :=
  match fuel with
  | O => O
  | S n => if temp =? 0 then O else S (bit_count n (Z.shiftr temp 1))
  end.
(** burp98.c 284-365: burp_nbit_datyp: return code, *nbits, *datyp. The test
    "datyp == 0" compares the pointer: it is false. [None]: the array is too
    short, or -tblmin overflows. ~(-1 << needed) is taken as 2^needed - 1. *)
Definition nbit_datyp (nbits : nat) (datyp : Z) (tval : list Z) (tbldim stride : nat) : option (Z * nat * Z) :=
  if (datyp =? 2) && (nbits =? 32)%nat then Some (0, nbits, datyp) else
  if 5 <? datyp then Some (0, 32%nat, datyp) else
  if (datyp =? 3) || (datyp =? 5) then Some (0, 8%nat, datyp) else
  v0 <- nth_error tval 0 ;;
  if ((tbldim - 1) * stride <? length tval)%nat then
    let l := map (fun i => s32 (nth (i * stride) tval 0)) (seq 0 tbldim) in
    let tblmax := fold_left Z.max l (s32 v0) in
    let tblmin := fold_left Z.min l (s32 v0) in
    if (tblmin =? tblmax) && (tblmin =? -1) then Some (0, nbits, datyp) else
    if tblmin =? - 2 ^ 31 then None else
    let tblmax' := if tblmin <? -1 then (if - tblmin <? tblmax then tblmax else - tblmin) else tblmax in
    let datyp' := if tblmin <? -1 then 4 else datyp in
    let needed := bit_count 32 tblmax' in
    let needed' := if tblmax' =? 2 ^ Z.of_nat needed - 1 then S needed else needed in
    if datyp' =? 4 then
      if (31 <? S needed')%nat then Some (BURP_ERR_CMPR, 32%nat, 2)
      else Some (0, Nat.max nbits (S needed'), datyp')
    else Some (0, Nat.max nbits (Nat.min 32 needed'), datyp')
  else None.

(** burp98.c 390-446: burp_valid789, for the nele elements of the list: return
    code and the list. MRBCOV(0,55,204) = 14284, ... *)
Fixpoint valid2 (code : Z) (l : list Z) : Z * list Z :=
  match l with
  | a :: b :: t =>
    if b =? code then let r := valid2 code t in (fst r, a :: b :: snd r)
    else if b =? 0 then let r := valid2 code t in (fst r, a :: code :: snd r)
    else (BURP_ERR_CODE, l)
  | _ => (0, l)
  end.
Definition valid1 (code v : Z) : option Z := if v =? code then Some v else if v =? 0 then Some code else None.
Fixpoint valid4 (l : list Z) : Z * list Z :=
  match l with
  | a :: b :: c :: d :: t =>
    match valid1 14284 b with
    | None => (BURP_ERR_CODE, l)
    | Some b' =>
      match valid1 14286 c with
      | None => (BURP_ERR_CODE, a :: b' :: c :: d :: t)
      | Some c' =>
        match valid1 14287 d with
        | None => (BURP_ERR_CODE, a :: b' :: c' :: d :: t)
        | Some d' => let r := valid4 t in (fst r, a :: b' :: c' :: d' :: snd r)
        end
      end
    end
  | _ => (0, l)
  end.
Definition valid789 (lst : list Z) (nele : nat) (datyp : Z) : option (Z * list Z) :=
  if (length lst <? nele)%nat then None else
  let keep r := Some (fst r, snd r ++ skipn nele lst) : option (Z * list Z) in
  if (datyp =? 7) || (datyp =? 8) then
    if Nat.odd nele then Some (ERR_BAD_DATYP, lst)
    else keep (valid2 (if datyp =? 7 then 14284 else 14285) (firstn nele lst))
  else if datyp =? 9 then
    if negb (nele mod 4 =? 0)%nat then Some (ERR_BAD_DATYP, lst)
    else keep (valid4 (firstn nele lst))
  else Some (0, lst).

(** burp98.c 541-559: the elements stored two by word, from word [i] on. The
    word after a full one is cleared. *)
Fixpoint put_list (d : list Z) (i : nat) (es : list Z) : option (list Z) :=
  match es with
  | [] => store d i [0]
  | [a] => store d i [putf a 16 16]
  | a :: b :: t => d' <- store d i [putf a 16 16 + putf b 0 16] ;; put_list d' (S i) t
  end.
(** burp98.c 554-561: bits added, in 64-bit units, in words. *)
Definition list_words (n : nat) : nat := 2 * ((32 * ((n + 1) / 2) + 63) / 64).

(** burp98.c 507-518, 773-790: family and description in one 12-bit field. *)
Definition bfd_of (bfam bdesc : Z) : option Z :=
  if bdesc =? 0 then Some (Z.lor (Z.shiftl (Z.land bfam 63) 6) (Z.land (Z.shiftr bfam 6) 63))
  else
    let ho := Z.land (Z.shiftr bfam 6) 63 in
    if negb (ho =? 0) && negb (ho =? bdesc) then None
    else Some (Z.lor (Z.shiftl (Z.land bfam 63) 6) (Z.land bdesc 63)).

Definition with_buf (r : report) (b : buffer) : report := mkrep b (r_nblk r) (r_buf9 r).

(** burp98.c 451-586: c_mrbadd: return code, report, element list; bkno is the
    number of blocks of the report and bit0 is in the block header. [junk]: the
    block header is not initialised, memset being called with a size of 0 (its
    fields nt and nval stay so for large blocks). *)
Definition mrbadd (orc : oracle) (stride : nat) (junk : nat -> Z) (r : report) (nele nval nt : nat) (bfam bdesc btyp : Z) (nbit : nat) (datyp : Z)
  (lstele tblval : list Z) : option (Z * report * list Z) :=
  let b := r_b r in
  if bad_nbits datyp nbit then Some (ERR_BAD_DATYP, r, lstele) else
  let nombre := (nele * nval * nt)%nat in
  ' nd <- nbit_datyp nbit datyp tblval nombre stride ;;
  let '(err, inbit, idatyp) := nd in
  if err <? 0 then Some (err, r, lstele) else
  ' vl <- (if 7 <=? datyp then valid789 lstele nele datyp else Some (0, lstele)) ;;
  let '(err, lst) := vl in
  if err <? 0 then Some (err, r, lst) else
  match bfd_of bfam bdesc with
  | None => Some (BURP_ERR_BDESC, r, lst)
  | Some bfd =>
    let bit0 := w32 (b_nbits b - NBENTR - Z.of_nat (r_buf9 r)) / 64 in
    let big := (GROSNELE <=? nele)%nat || (GROSDIM <=? nval)%nat || (GROSDIM <=? nt)%nat in
    entete <- (if big
               then Some (mk_hb (Z.of_nat inbit - 1) btyp bfd bit0 idatyp (junk 0%nat) (Z.of_nat nele) (junk 1%nat) (Z.of_nat GROSNELE) 1 (Z.of_nat nt) (Z.of_nat nval))
               else e1 <- nth_error lst 0 ;; e2 <- nth_error lst 1 ;; e3 <- nth_error lst 2 ;;
                    Some (mk_hb (Z.of_nat inbit - 1) btyp bfd bit0 idatyp (Z.of_nat nt) e1 (Z.of_nat nval) (Z.of_nat nele) 0 e3 e2)) ;;
    let es := if big then firstn nele lst else skipn 3 (firstn nele lst) in
    if (length lst <? nele)%nat then None else
    d <- put_list (b_data b) (Z.to_nat (b_nbits b / 32)) es ;;
    let b1 := set_data b (w32 (b_nbits b + 32 * Z.of_nat (list_words (length es)))) d in
    ' i <- xdfins orc stride b1 entete (r_buf9 r) 4 32 0 ;;
    let '(err, b2) := i in
    if err <? 0 then Some (err, with_buf r b2, lst) else
    ' a <- xdfadd orc stride b2 tblval nombre inbit idatyp ;;
    let '(err, b3) := a in
    if err <? 0 then Some (err, with_buf r b3, lst) else
    Some (0, mkrep b3 (S (r_nblk r)) (r_buf9 r + NBENTB), lst)
  end.

(** burp98.c 837-886: c_mrbprm: return code, then nele, nval, nt, bfam, btyp,
    nbit, bit0, datyp (bdesc is set to 0). The number of the block, at least 1,
    is not checked. c_xdfxtr cannot fail here. *)
Record prm := mkprm { pm_dims : nat * nat * nat; pm_bfam : Z; pm_btyp : Z; pm_nbit : Z; pm_bit0 : Z; pm_datyp : Z }.
Definition mrbprm (orc : oracle) (stride : nat) (r : report) (bkno : nat) : option (Z * prm) :=
  ' x <- xdfxtr orc stride (r_b r) [0; 0; 0; 0] ((bkno - 1) * NBENTB) 4 32 0 ;;
  let '(err, h) := x in
  Some (err, mkprm (hb_dims h) (Z.lor (Z.shiftl (Z.land (hb_bfd h) 63) 6) (Z.land (Z.shiftr (hb_bfd h) 6) 63))
                   (hb_btyp h) (hb_nbit h + 1) (hb_bit0 h) (hb_datyp h)).

(** burp98.c 1026-1036: the values equal to rmask set to all ones. *)
Definition fix_missing (rmask : Z) (nombre : nat) (tbl : list Z) : option (list Z) :=
  if (length tbl <? nombre)%nat then None
  else Some (map (fun v => if v =? rmask then 2 ^ 32 - 1 else v) (firstn nombre tbl) ++ skipn nombre tbl).
(** burp98.c 967-1040: c_mrbxtr: return code, element list, values. *)
Definition mrbxtr (orc : oracle) (stride : nat) (r : report) (bkno : nat) (lstele tblval : list Z) : option (Z * list Z * list Z) :=
  if (bkno <? 1)%nat || (r_nblk r <? bkno)%nat then Some (BURP_ERR_BNUM, lstele, tblval) else
  ' x <- xdfxtr orc stride (r_b r) [0; 0; 0; 0] (NBENTB * (bkno - 1)) 4 32 0 ;;
  let '(err, h) := x in
  if err <? 0 then Some (err, lstele, tblval) else
  let '(nele, nval, nt) := hb_dims h in
  let inh := if hb_flag h =? 0 then Nat.min nele 3 else O in
  lst <- store lstele 0 (firstn inh [hb_elem1 h; hb_elem2 h; hb_elem3 h]) ;;
  let bitpos := (Z.to_nat (hb_bit0 h) * 64 + r_buf9 r)%nat in
  let nels := hb_listed h in
  ' y <- (if (0 <? nels)%nat then xdfxtr orc stride (r_b r) (skipn inh lst) bitpos nels 16 2 else Some (0, skipn inh lst)) ;;
  let '(err, rest) := y in
  let lst' := firstn inh lst ++ rest in
  if err <? 0 then Some (err, lst', tblval) else
  let bitpos := (bitpos + (nels * 16 + 63) / 64 * 64)%nat in
  let nombre := (nele * nval * nt)%nat in
  let nbit := Z.to_nat (hb_nbit h + 1) in
  let datyp := hb_datyp h in
  ' z <- xdfxtr orc stride (r_b r) tblval bitpos nombre nbit datyp ;;
  let '(err, tbl) := z in
  if err <? 0 then Some (err, lst', tbl) else
  if (datyp =? 2) || (datyp =? 4) || (datyp =? 6) then
    t <- fix_missing (if (32 <=? nbit)%nat then 2 ^ 32 - 1 else 2 ^ Z.of_nat nbit - 1) nombre tbl ;; Some (err, lst', t)
  else Some (err, lst', tbl).

(** block[i].bit0 += diff for [k] blocks from [i] on (burp98.c 650-652,
    953-955). *)
Fixpoint move_bit0 (k i : nat) (diff : Z) (d : list Z) : option (list Z) :=
  match k with
  | O => Some d
  | S k' => w <- nth_error d (BLOCKS + 4 * i + 1) ;;
            move_bit0 k' (S i) diff (upd d (BLOCKS + 4 * i + 1) (setbits w 0 20 (getf w 0 20 + diff)))
  end.
Definition set_words (b : buffer) (d : list Z) : buffer := set_data b (b_nbits b) d.

(** burp98.c 591-655: c_mrbdel. The codes of c_xdfcut are not looked at. The
    header read to compute difbit is the one that follows the deleted one, or
    the word after the headers when there is none. *)
Definition mrbdel (orc : oracle) (stride : nat) (r : report) (number : nat) : option (Z * report) :=
  if (number <? 1)%nat || (r_nblk r <? number)%nat then Some (BURP_ERR_BNUM, r) else
  let bitpos := (NBENTB * (number - 1))%nat in
  ' x <- xdfxtr orc stride (r_b r) [0; 0; 0; 0] bitpos 4 32 0 ;;
  let '(err, h) := x in
  if err <? 0 then Some (err, r) else
  let '(nele, nval, nt) := hb_dims h in
  let nels := hb_listed h in
  let bit0 := (Z.to_nat (hb_bit0 h) * 64 + r_buf9 r)%nat in
  b1 <- (if (0 <? nels)%nat then option_map snd (xdfcut (r_b r) bit0 nels 16 2) else Some (r_b r)) ;;
  b2 <- option_map snd (xdfcut b1 bit0 (nele * nval * nt) (Z.to_nat (hb_nbit h + 1)) (hb_datyp h)) ;;
  b3 <- option_map snd (xdfcut b2 bitpos 4 32 0) ;;
  w <- nth_error (b_data b3) (BLOCKS + 4 * (number - 1) + 1) ;;
  d <- move_bit0 (r_nblk r - number) (number - 1) (hb_bit0 h - getf w 0 20) (b_data b3) ;;
  Some (0, mkrep (set_words b3 d) (r_nblk r - 1) (r_buf9 r - NBENTB)).

(** burp98.c 890-962: c_mrbrep. The headers are those of the data array. *)
Definition mrbrep (orc : oracle) (stride : nat) (r : report) (blkno : nat) (tblval : list Z) : option (Z * report) :=
  if (blkno <? 1)%nat || (r_nblk r <? blkno)%nat then Some (BURP_ERR_BNUM, r) else
  let p := (BLOCKS + 4 * (blkno - 1))%nat in
  let b := r_b r in
  h <- take_at (b_data b) p 4 ;;
  let '(nele, nval, nt) := hb_dims h in
  let nbit := Z.to_nat (hb_nbit h + 1) in
  let datyp := hb_datyp h in
  let bitpos := (Z.to_nat (hb_bit0 h) * 64 + r_buf9 r + (hb_listed h * 16 + 63) / 64 * 64)%nat in
  let nombre := (nele * nval * nt)%nat in
  ' nd <- nbit_datyp nbit datyp tblval nombre stride ;;
  let '(err, nnbit, ndatyp) := nd in
  if err <? 0 then Some (err, r) else
  let d1 := if ndatyp =? datyp then b_data b else upd (b_data b) (p + 1) (setbits (nth 1 h 0) 20 4 ndatyp) in
  let b1 := set_words b d1 in
  ' s <- (if (nnbit =? nbit)%nat then Some (0, b1) else
          let b2 := set_words b1 (upd d1 p (setbits (nth 0 h 0) 0 5 (Z.of_nat nnbit - 1))) in
          let diff := ((nnbit * nombre + 63) / 64 - (nbit * nombre + 63) / 64)%nat in
          if (0 <? diff)%nat then
            ' i <- xdfins orc stride b2 tblval bitpos (2 * diff) 32 0 ;;
            let '(err, b3) := i in
            if err <? 0 then Some (err, b3) else
            d <- move_bit0 (r_nblk r - blkno) blkno (Z.of_nat diff) (b_data b3) ;; Some (0, set_words b3 d)
          else Some (0, b2)) ;;
  let '(err, b4) := s in
  if err <? 0 then Some (err, with_buf r b4) else
  ' e <- xdfrep orc stride b4 tblval bitpos nombre nnbit ndatyp ;;
  let '(err, b5) := e in
  Some (err, with_buf r b5).

(** burp98.c 757-833: c_mrbloc: the block, BURP_ERR_BDESC, or -1. [blkno] is
    not negative. *)
Fixpoint loc_from (k i : nat) (test : list Z -> bool) (d : list Z) : option Z :=
  match k with
  | O => Some (-1)
  | S k' => h <- take_at d (BLOCKS + 4 * i) 4 ;; if test h then Some (Z.of_nat i + 1) else loc_from k' (S i) test d
  end.
Definition mrbloc (r : report) (bfam bdesc btyp : Z) (blkno : nat) : option Z :=
  let bfd := if bfam =? -1 then (if (bdesc =? 0) || (bdesc =? -1) then Some (-1) else None)
             else if (bdesc =? 0) || (bdesc =? -1) then bfd_of bfam 0 else bfd_of bfam bdesc in
  match bfd with
  | None => Some BURP_ERR_BDESC
  | Some bfd =>
    let mskfd := if bfd =? -1 then 0 else -1 in
    let msktyp := if btyp =? -1 then 0 else
      Z.lor (Z.lor (if Z.land 0x10000000 btyp =? 0 then 0x000f else 0) (if Z.land 0x20000000 btyp =? 0 then 0x07f0 else 0))
            (if Z.land 0x40000000 btyp =? 0 then 0x7800 else 0) in
    loc_from (r_nblk r - blkno) blkno
      (fun h => (Z.land (Z.lxor bfd (hb_bfd h)) mskfd =? 0) && (Z.land (Z.lxor btyp (hb_btyp h)) msktyp =? 0)) (b_data (r_b r))
  end.

(** burp98.c 738-750: c_mrblen: bits used, bits left. *)
Definition mrblen (r : report) : Z * Z :=
  (s32 (b_nbits (r_b r)), s32 (w32 ((b_nwords (r_b r) - 9) * 32 - b_nbits (r_b r)))).

(** ** Creation, header *)

(** mrbini.F90: the date and time keys. Fortran / and mod truncate; the values
    are not negative, -1 excepted for temps. *)
Definition date_key (date : Z) : Z :=
  if 999999 <? date then
    let annee := date / 10000 in
    (date / 10000) mod 100 * 10000 + ((annee - 1900) ÷ 100 * 12 + (date / 100) mod 100) * 100 + date mod 100
  else date.
Record rhead := mkrhead { rh_stnid : list Z; rh_temps : Z; rh_flgs : Z; rh_idtyp : Z; rh_lati : Z; rh_long : Z; rh_dx : Z; rh_dy : Z;
  rh_elev : Z; rh_drcv : Z; rh_date : Z; rh_oars : Z; rh_run : Z }.
(** The nine characters of stnid, blanks added; char2rah gives their codes. *)
Definition head_keys (h : rhead) : list Z :=
  firstn 9 (rh_stnid h ++ repeat 32 9) ++
  map w32 [rh_flgs h; rh_lati h; rh_long h; date_key (rh_date h); rh_dx h; rh_idtyp h; rh_dy h;
           (if rh_temps h =? -1 then -1 else rh_temps h / 100); (if rh_temps h =? -1 then -1 else rh_temps h mod 100)].
Definition head_info (h : rhead) : list Z := map w32 [0; rh_oars h; rh_elev h; rh_drcv h; rh_run h].

(** mrbini.F90 158-162: c_xdfini, then buf8 and buf9 set to 0 (burp98.c
    35-41). *)
Definition mrbini (w : world) (mask : nat -> Z) (iun : Z) (buf : buffer) (h : rhead) : option (Z * report) :=
  ' x <- xdfini w mask iun buf 1 (head_keys h) 18 (head_info h) 5 ;;
  Some (fst x, mkrep (snd x) 0 0).

(** burp98.c 661-735: c_mrbhdr, with the number of blocks. *)
Definition key_date (enforc8 : bool) (date : Z) : Z :=
  if (12 <? (date / 100) mod 100) || enforc8 then
    let AA := (date / 10000) mod 100 in
    let MM := (date / 100) mod 100 in
    let JJ := date mod 100 in
    let annee := 1900 + AA + ((MM - 1) ÷ 12) * 100 in
    let mois := 1 + Z.rem (MM - 1) 12 in
    annee * 10000 + mois * 100 + JJ
  else date.
Definition mrbhdr (enforc8 : bool) (r : report) : option (rhead * nat) :=
  ks <- read_bits burp_fields (skipn 2 (b_data (r_b r))) ;;
  is <- read_bits burp_info (skipn 8 (b_data (r_b r))) ;;
  let k i := nth i ks 0 in
  let x i := nth i is 0 in
  Some (mkrhead (firstn 9 ks) (k 16%nat * 100 + k 17%nat) (k 9%nat) (k 14%nat) (k 10%nat) (k 11%nat) (k 13%nat) (k 15%nat)
          (x 2%nat) (x 3%nat) (key_date enforc8 (k 12%nat)) (x 1%nat) (x 4%nat), r_nblk r).

(** ** Files *)

(** xdf98.c 756-799: c_xdfcle. [name]: the characters of the name of the key, at
    most 4. *)
Definition xdfcle (name : list Z) (bit1 lkey tkey : Z) : Z * Z :=
  (fold_left (fun d c => w32 (Z.lor (Z.shiftl d 8) (Z.land c 255))) (firstn 4 (name ++ repeat 32 4)) 0,
   Z.lor (Z.lor (Z.shiftl (Z.land bit1 (2 ^ 13 - 1)) 19) (Z.shiftl (Z.land (lkey - 1) 31) 14)) (Z.shiftl (Z.land tkey 63) 8)).
(** mrfopn.F90 91-117, bpl.cdk 36-47: the descriptors of the keys. *)
Definition burp_pri : list (Z * Z) :=
  [xdfcle [83; 84; 73; 49] 7 8 33; xdfcle [83; 84; 73; 50] 15 8 33; xdfcle [83; 84; 73; 51] 23 8 33; xdfcle [83; 84; 73; 52] 31 8 33;
   xdfcle [83; 84; 73; 53] 39 8 33; xdfcle [83; 84; 73; 54] 47 8 33; xdfcle [83; 84; 73; 55] 55 8 33; xdfcle [83; 84; 73; 56] 63 8 33;
   xdfcle [83; 84; 73; 57] 71 8 33; xdfcle [70; 76; 71; 83] 95 24 0; xdfcle [76; 65; 84; 73] 111 16 0; xdfcle [76; 79; 78; 71] 127 16 0;
   xdfcle [68; 65; 84; 69] 147 20 0; xdfcle [68; 88] 159 12 0; xdfcle [73; 68; 84; 80] 167 8 0; xdfcle [68; 89] 179 12 0;
   xdfcle [72; 69; 85; 82] 185 6 0; xdfcle [77; 73; 78] 191 6 0].
Definition burp_aux : list (Z * Z) :=
  [xdfcle [78; 66; 76; 75] 15 16 0; xdfcle [79; 65; 82; 83] 31 16 0; xdfcle [69; 76; 69; 86] 44 13 0; xdfcle [68; 82; 67; 86] 55 11 0;
   xdfcle [82; 85; 78; 78] 63 8 0].
Definition BRP0 : Z := 0x42525030.
(** mrfopn.F90: a new file, or an old one, read-only or not (mode APPEND is
    R-W). *)
Definition burp_create (junk : nat -> Z) (p : nat) (iun : Z) : op := OpCreate junk p iun false burp_kp burp_pri burp_aux BRP0.
Definition burp_open (junk : nat -> Z) (p : nat) (iun : Z) (ro : bool) : op := OpOpen junk p iun ro false burp_kp (if ro then RDMODE else RWMODE).

(** mrfloc.F90 75-130: the keys searched for; -1 (all ones) when a character is
    an asterisk or an argument is -1. Of temps, the hours only. [stnid] has its
    trailing blanks removed, which blanks replace. *)
Definition search_keys (stnid : list Z) (idtyp lat lon date temps : Z) : list Z :=
  map (fun c => if c =? 42 then 2 ^ 32 - 1 else c) (firstn 9 (stnid ++ repeat 32 9)) ++
  map w32 [-1; lat; lon; date_key date; -1; idtyp; -1; (if temps =? -1 then -1 else temps / 100); -1].
(** xdf98.c 1550-1563: c_xdfloc, c_xdfloc2 with a null mask, and
    mrfloc.F90 134. *)
Definition mrfloc (junk : nat -> Z) (w : world) (iun handle : Z) (stnid : list Z) (idtyp lat lon date temps : Z) : option (Z * world) :=
  xdfloc2 (S MAX_DIR_PAGES) junk (fun _ => true) w iun handle (search_keys stnid idtyp lat lon date temps) 18 None.

(** burp98.c 1133-1168: c_mrfput. *)
Definition mrfput (junk : nat -> Z) (w : world) (iun handle : Z) (r : report) : option (Z * world * report) :=
  let b := r_b r in
  w8 <- nth_error (b_data b) 8 ;;
  let b1 := set_words b (upd (b_data b) 8 (setbits w8 16 16 (Z.of_nat (r_nblk r)))) in
  ' x <- xdfput junk w iun (if 0 <? handle then - handle else handle) b1 ;;
  let '(c, w', b2) := x in
  Some (c, w', with_buf r b2).
(** burp98.c 1104-1127: c_mrfget. *)
Definition mrfget (w : world) (handle : Z) (r : report) : option (Z * report) :=
  ' x <- xdfget w handle (r_b r) ;;
  let '(err, b) := x in
  if err <? 0 then Some (err, with_buf r b) else
  w8 <- nth_error (b_data b) 8 ;;
  let n := Z.to_nat (getf w8 16 16) in
  Some (0, mkrep b n (n * NBENTB)).
