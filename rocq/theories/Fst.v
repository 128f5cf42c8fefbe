(** RPN standard files: model of src/fstd98/fstd98.c: the directory entry built
    by c_fstecr (758-1383) and cracked by crack_std_parms (228-276), c_fstprm
    (2857-2960), c_fstinf and c_fstinfx (1634-1865), c_fstsui (3114-3144),
    c_fstinl (1868-1940) and c_fstluk (2135-2470), on random XDF files.

    The process-wide switches (image_mode_copy, xdf_double, xdf_short, xdf_byte,
    the remapping table, the ipN flags) have their default values. Characters
    are bytes 0 .. 255; strings have no null byte. *)
From Coq Require Import ZArith List Lia Bool.
From Verif Require Import Bits BitIO CompactInt Handles WaFile Xdf XdfSearch XdfOpen XdfHist Dates TileCodec ZfstLib FloatPack FloatField.
Import ListNotations.
Open Scope Z_scope.
Open Scope opt_scope.

(** ** stdf_dir_keys *)

(** Bits [s], ..., [s + n - 1] of a word, and a bit field of [n] bits at [s]. *)
Definition getf (w s n : Z) : Z := (w / 2 ^ s) mod 2 ^ n.
Definition putf (v s n : Z) : Z := (v mod 2 ^ n) * 2 ^ s.

(** qstdir.h 458-486: stdf_dir_keys without its first two words (deleted,
    select, lng, addr). *)
Record keys := mkkeys {
  k_deet : Z; k_nbits : Z; k_ni : Z; k_gtyp : Z;
  k_nj : Z; k_datyp : Z; k_nk : Z; k_ubc : Z;
  k_npas : Z; k_pad7 : Z; k_ig4 : Z; k_ig2a : Z;
  k_ig1 : Z; k_ig2b : Z; k_ig3 : Z; k_ig2c : Z;
  k_etik15 : Z; k_pad1 : Z; k_etik6a : Z; k_pad2 : Z;
  k_etikbc : Z; k_typvar : Z; k_pad3 : Z; k_nomvar : Z; k_pad4 : Z;
  k_ip1 : Z; k_levtyp : Z; k_ip2 : Z; k_pad5 : Z;
  k_ip3 : Z; k_pad6 : Z; k_date : Z }.

(** The 16 words, little endian declarations (qstdir.h 472-481). *)
Definition key_words (k : keys) : list Z :=
  [putf (k_deet k) 8 24 + putf (k_nbits k) 0 8; putf (k_ni k) 8 24 + putf (k_gtyp k) 0 8;
   putf (k_nj k) 8 24 + putf (k_datyp k) 0 8; putf (k_nk k) 12 20 + putf (k_ubc k) 0 12;
   putf (k_npas k) 6 26 + putf (k_pad7 k) 0 6; putf (k_ig4 k) 8 24 + putf (k_ig2a k) 0 8;
   putf (k_ig1 k) 8 24 + putf (k_ig2b k) 0 8; putf (k_ig3 k) 8 24 + putf (k_ig2c k) 0 8;
   putf (k_etik15 k) 2 30 + putf (k_pad1 k) 0 2; putf (k_etik6a k) 2 30 + putf (k_pad2 k) 0 2;
   putf (k_etikbc k) 20 12 + putf (k_typvar k) 8 12 + putf (k_pad3 k) 0 8; putf (k_nomvar k) 8 24 + putf (k_pad4 k) 0 8;
   putf (k_ip1 k) 4 28 + putf (k_levtyp k) 0 4; putf (k_ip2 k) 4 28 + putf (k_pad5 k) 0 4;
   putf (k_ip3 k) 4 28 + putf (k_pad6 k) 0 4; putf (k_date k) 0 32].

Definition keys_of (ws : list Z) : keys :=
  let w i := nth i ws 0 in
  mkkeys (getf (w 0%nat) 8 24) (getf (w 0%nat) 0 8) (getf (w 1%nat) 8 24) (getf (w 1%nat) 0 8)
         (getf (w 2%nat) 8 24) (getf (w 2%nat) 0 8) (getf (w 3%nat) 12 20) (getf (w 3%nat) 0 12)
         (getf (w 4%nat) 6 26) (getf (w 4%nat) 0 6) (getf (w 5%nat) 8 24) (getf (w 5%nat) 0 8)
         (getf (w 6%nat) 8 24) (getf (w 6%nat) 0 8) (getf (w 7%nat) 8 24) (getf (w 7%nat) 0 8)
         (getf (w 8%nat) 2 30) (getf (w 8%nat) 0 2) (getf (w 9%nat) 2 30) (getf (w 9%nat) 0 2)
         (getf (w 10%nat) 20 12) (getf (w 10%nat) 8 12) (getf (w 10%nat) 0 8) (getf (w 11%nat) 8 24) (getf (w 11%nat) 0 8)
         (getf (w 12%nat) 4 28) (getf (w 12%nat) 0 4) (getf (w 13%nat) 4 28) (getf (w 13%nat) 0 4)
         (getf (w 14%nat) 4 28) (getf (w 14%nat) 0 4) (getf (w 15%nat) 0 32).

(** ** Text *)

(** qstdir.h 58, 61: upper_case, ascii6. *)
Definition ascii6 (c : Z) : Z := Z.land (Z.ldiff c (Z.shiftr (Z.land c 64) 1) - 32) 0x3f.
(** fstd98.c 1004-1011, 1684-1690: strncpy into [n] blanks. *)
Definition padded (n : nat) (s : list Z) : list Z := firstn n (s ++ repeat 32 n).
(** fstd98.c 1041-1067: characters [i], ..., [i + n - 1], six bits each. *)
Definition six (s : list Z) (i n : nat) : Z := fold_left (fun a c => Z.lor (Z.shiftl a 6) (ascii6 c)) (firstn n (skipn i s)) 0.
(** fstd98.c 233-251: back to [n] characters. *)
Definition unsix (v : Z) (n : nat) : list Z := map (fun i => Z.land (Z.shiftr v (Z.of_nat (n - 1 - i) * 6)) 0x3f + 32) (seq 0 n).

(** ** Dates *)

(** moduledate.f90: incdatr as in Dates.v, by [s] / 3600 hours: 720 * nhours and
    nhours are rounded to the nearest integer. *)
Definition incdat_sec (idate2 s : Z) : option Z :=
  if idate2 <? -1 then
    t2 <- mode_6 idate2 ;;
    mode_m6 (t2 + nint s 3600)
  else
    ' p <- mode_1 idate2 ;;
    let '(t2, run) := p in
    let '(t2, addit) := if t2 <? 0 then (round_hour t2, 720 * nint s 3600) else (t2, nint s 5) in
    if (td1900 - t2 <=? addit) && (addit <=? td2235 - t2) then mode_m1 (t2 + addit) run
    else
      ' q <- mode_m3 idate2 ;;
      let '(p1, p2) := q in
      t2 <- mode_7 p1 p2 ;;
      mode_m6 (t2 + nint s 3600).

(** 8 * (date / 10) + date % 10 on an unsigned int, and back (fstd98.c 1077,
    263-264). *)
Definition octal_date (d : Z) : Z := let u := w32 d in 8 * (u / 10) + u mod 10.
Definition decimal_date (ds : Z) : Z := w32 (ds / 8 * 10 + ds mod 8).

(** fstd98.c 906-915: the date of validity. *)
Definition valid_date (date deet npas : Z) : Z :=
  if 0 <? deet * npas then incdat_out (incdat_sec date (deet * npas)) else date.

(** ** Arguments of c_fstecr *)
Record fargs := mkargs {
  a_npak : Z; a_date : Z; a_deet : Z; a_npas : Z; a_ni : Z; a_nj : Z; a_nk : Z;
  a_ip1 : Z; a_ip2 : Z; a_ip3 : Z; a_typvar : list Z; a_nomvar : list Z; a_etiket : list Z; a_grtyp : list Z;
  a_ig1 : Z; a_ig2 : Z; a_ig3 : Z; a_ig4 : Z; a_datyp : Z }.

(** fstd98.c 860-866 *)
Definition ask_nbits (npak : Z) : Z := if npak =? 0 then 32 else if npak <? 0 then - npak else Z.max 1 (32 / Z.max 1 npak).
(** fstd98.c 801-820, 869-882, 917-920, 932-953: missing value flag, data type
    and number of bits. *)
Definition choose (npak ori : Z) : Z * Z * Z :=
  let in_datyp := Z.land ori 0xFFBF in
  let complex := Z.land in_datyp 0xF =? 8 in
  let missing := if complex then 0 else Z.land ori 64 in
  let in_datyp := if complex then 8 else in_datyp in
  let datyp := if in_datyp =? 801 then 1 else in_datyp in
  let nbits := ask_nbits npak in
  let to5 := (ori =? 133) && (32 <? nbits) in
  let in_datyp := if to5 then 5 else in_datyp in
  let datyp := if to5 then 5 else datyp in
  let e32 := (in_datyp =? 1) && ((nbits =? 31) || (nbits =? 32)) in
  let datyp := if e32 then 5 else datyp in
  let nbits := if e32 then 32 else nbits in
  let datyp := if (npak =? 0) || (npak =? 1) then 0 else datyp in
  let datyp := if (16 <? nbits) && negb (datyp =? 133) then Z.land datyp 0x7F else datyp in
  let '(datyp, nbits) := if (datyp =? 6) && (24 <? nbits) then (5, 32) else (datyp, nbits) in
  let datyp := if (datyp =? 6) && (16 <? nbits) then 1 else datyp in
  (missing, datyp, nbits).

(** The number of bits when the arguments are validated (904): that of [choose]
    before 936-945. *)
Definition valid_bits (npak ori : Z) : Z :=
  let nbits := ask_nbits npak in
  if (Z.land ori 0xFFBF =? 1) && ((nbits =? 31) || (nbits =? 32)) then 32 else nbits.

Definition ERR_OUT_RANGE := -36.
Definition MAX_RECORD_LENGTH := 33554400.
(** fstd98.c 890-904: VALID, but for the last one. *)
Definition in_range (a : fargs) : bool :=
  let b v lo hi := (lo <=? v) && (v <=? hi) in
  b (a_ni a) 1 0xFFFFFF && b (a_nj a) 1 0xFFFFFF && b (Z.max 1 (a_nk a)) 1 0xFFFFF && b (a_deet a) 0 0xFFFFFF && b (a_npas a) 0 0xFFFFFF &&
  b (ask_nbits (a_npak a)) 1 64 && b (a_ig1 a) 0 0xFFFFFF && b (a_ig2 a) 0 0xFFFFFF && b (a_ig3 a) 0 0xFFFFFF && b (a_ig4 a) 0 0xFFFFFF &&
  b (a_ip1 a) 0 0xFFFFFFF && b (a_ip2 a) 0 0xFFFFFFF && b (a_ip3 a) 0 0xFFFFFFF.

(** fstd98.c 1013-1077: the keys. [datyp]: data type stored. *)
Definition entry_keys (a : fargs) (datyp nbits : Z) : keys :=
  let et := padded 12 (a_etiket a) in
  mkkeys (a_deet a) nbits (a_ni a) (nth 0 (padded 1 (a_grtyp a)) 0)
         (a_nj a) datyp (Z.max 1 (a_nk a)) 0
         (a_npas a) 0 (a_ig4 a) (Z.shiftr (a_ig2 a) 16)
         (a_ig1 a) (Z.shiftr (a_ig2 a) 8) (a_ig3 a) (Z.land (a_ig2 a) 0xff)
         (six et 0 5) 0 (six et 5 5) 0
         (six et 10 2) (six (padded 2 (a_typvar a)) 0 2) 0 (six (padded 4 (a_nomvar a)) 0 4) 0
         (a_ip1 a) 0 (a_ip2 a) 0 (a_ip3 a) 0 (octal_date (valid_date (a_date a) (a_deet a) (a_npas a))).

(** ** Searching *)

(** fstd98.c 1707-1794: target and mask. *)
Record query := mkquery { q_datev : Z; q_etiket : list Z; q_ip1 : Z; q_ip2 : Z; q_ip3 : Z; q_typvar : list Z; q_nomvar : list Z }.
Definition query_keys (q : query) : keys :=
  let et := padded 12 (q_etiket q) in
  mkkeys 0 0 0 0 0 0 0 0 0 0 0 0 0 0 0 0 (six et 0 5) 0 (six et 5 5) 0
         (six et 10 2) (six (padded 2 (q_typvar q)) 0 2) 0 (six (padded 4 (q_nomvar q)) 0 4) 0
         (q_ip1 q) 0 (q_ip2 q) 0 (q_ip3 q) 0 (octal_date (q_datev q)).
Definition query_mask (q : query) : keys :=
  let k := query_keys q in
  let noet := (k_etik15 k =? 0) && (k_etik6a k =? 0) in
  let all b := if b : bool then 0 else -1 in
  mkkeys 0 0 0 0 0 0 0 0 0 0 0 0 0 0 0 0 (all noet) 0 (all noet) 0
         (all noet) (all (k_typvar k =? 0)) 0 (all (k_nomvar k =? 0)) 0
         (all (q_ip1 q =? -1)) 0 (all (q_ip2 q =? -1)) 0 (all (q_ip3 q =? -1)) 0
         (if q_datev q =? -1 then 0 else 2 ^ 32 - 8).

(** The call of c_xdfloc2 made by c_fstinfx (1801-1819); handle -2: from the
    beginning. *)
Definition fst_loc (junk : nat -> Z) (filt : Z -> bool) (iun handle : Z) (q : query) : op :=
  OpLoc junk filt iun (if handle =? -2 then 0 else handle) (key_words (query_keys q)) 16 (Some (key_words (query_mask q))).

(** The dimensions of a record found (1830, 1858-1860). *)
Definition dims (w : world) (h : Z) : option (Z * Z * Z) :=
  r <- xdfprm w h ;;
  match r with
  | Err _ => Some (0, 0, 0)
  | Go (_, _, _, ks) => let k := keys_of ks in Some (k_ni k, k_nj k, k_nk k)
  end.

(** c_fstinfx: handle or error code, dimensions when found. *)
Definition fstinfx (junk : nat -> Z) (filt : Z -> bool) (handle iun : Z) (q : query) (s : sys) : option (Z * option (Z * Z * Z) * sys) :=
  match file_index (s_w s) iun with
  | None => Some (ERR_NO_FILE, None, s)
  | Some i =>
    if (0 <? handle) && negb (Nat.eqb (hidx (s_w s) handle) i) then Some (ERR_BAD_HNDL, None, s) else
    ' (h, s1) <- step (fst_loc junk filt iun handle q) s ;;
    if h <? 0 then Some (h, None, s1) else d <- dims (s_w s1) h ;; Some (h, Some d, s1)
  end.
Definition fstinf junk filt iun q s := fstinfx junk filt (-2) iun q s.
(** c_fstsui; c_xdfloc with no keys and handle -1 *)
Definition fst_next (junk : nat -> Z) (filt : Z -> bool) (iun : Z) : op := OpLoc junk filt iun (-1) [] 0 None.
Definition fstsui (junk : nat -> Z) (filt : Z -> bool) (iun : Z) (s : sys) : option (Z * option (Z * Z * Z) * sys) :=
  ' (h, s1) <- step (fst_next junk filt iun) s ;;
  if h <? 0 then Some (h, None, s1) else d <- dims (s_w s1) h ;; Some (h, Some d, s1).

(** c_fstinl, nmax >= 1: the handles listed (infon is their number), the code
    returned. [n] bounds the number of records found. The dimensions are left
    out. *)
Fixpoint inl_loop (n : nat) (junk : nat -> Z) (filt : Z -> bool) (iun : Z) (h : Z) (room : nat) (s : sys) : option (list Z * sys) :=
  match n with
  | O => None
  | S n' =>
    if h <? 0 then Some ([], s) else
    match room with
    | O => None
    | S room' =>
      if Nat.eqb room' 0 then Some ([h], s) else
      ' (h', _, s1) <- fstsui junk filt iun s ;;
      ' (l, s2) <- inl_loop n' junk filt iun h' room' s1 ;;
      Some (h :: l, s2)
    end
  end.
Fixpoint inl_rest (n : nat) (junk : nat -> Z) (filt : Z -> bool) (iun : Z) (s : sys) : option (nat * sys) :=
  match n with
  | O => None
  | S n' =>
    ' (h, _, s1) <- fstsui junk filt iun s ;;
    if h <? 0 then Some (0%nat, s1) else ' (m, s2) <- inl_rest n' junk filt iun s1 ;; Some (S m, s2)
  end.
Definition fstinl (n : nat) (junk : nat -> Z) (filt : Z -> bool) (iun : Z) (q : query) (nmax : nat) (s : sys) : option (Z * list Z * sys) :=
  ' (h, _, s1) <- fstinf junk filt iun q s ;;
  ' (l, s2) <- inl_loop n junk filt iun h nmax s1 ;;
  ' (m, s3) <- inl_rest n junk filt iun s2 ;;
  let nfound := (length l + m)%nat in
  Some (if (nmax <? nfound)%nat then - Z.of_nat nfound else 0, l, s3).

(** ** c_fstecr *)

(** memcpy_32_16 and memcpy_16_32 (130-142), at most 16 bits: shorts are the
    halves of words, the low one first. The mask of the second one is a short:
    with 16 bits it is -1 and the sign of the short is extended. *)
Definition to_short (nbits v : Z) : Z := Z.land v (2 ^ nbits - 1).
Definition of_short (nbits h : Z) : Z :=
  if nbits <? 16 then Z.land h (2 ^ nbits - 1) else if h <? 2 ^ 15 then h else h + (2 ^ 32 - 2 ^ 16).
Definition put_shorts (dst hs : list Z) : option (list Z) :=
  let d := halves dst in
  if (length d <? length hs)%nat then None else Some (words_of (hs ++ skipn (length hs) d)).

(** What malloc gives to armn_compress. *)
Definition fresh (junk : nat -> Z) (n : nat) : list Z := map (fun i => w32 (junk i)) (seq 0 n).
Definition fresh16 (junk : nat -> Z) (n : nat) : list Z := map (fun i => junk i mod 2 ^ 16) (seq 0 n).
(** The words that hold [nbytes] bytes rounded up to 8 (1180-1181, 1222-1223). *)
Definition bytes_words (nbytes : Z) : Z := 2 * ((nbytes * 8 + 63) / 64).

(** A call of compact_float. [None]: also when it ends the program; a NULL
    result, which c_fstecr would ignore, does not happen for the sizes and
    counts used here. *)
Definition float_packed (r : option fout) : option (list Z) :=
  match r with Some (FDone m) => Some m | _ => None end.

(** fstd98.c 1149-1358: packing of the field to [dst], the words of the buffer
    after the keys, of which [nw] are to be written. [None] also for the data
    types that are not modelled (3, 7, 8, 133, 134 and 5 with other than 32
    bits). The result has the data type stored, the words to be written and the
    buffer. Type 5 with 32 bits: ieeepak (ieeepak.F90 90-95) copies the words. *)
Definition pack_field (orc : oracle) (junk : nat -> Z) (datyp nbits : Z) (ni nj nk : nat) (nw : Z) (fld dst : list Z) : option (Z * Z * list Z) :=
  let n := (ni * nj * nk)%nat in
  let b := Z.to_nat nbits in
  if (datyp =? 0) || (datyp =? 128) then
    let lngw := Z.to_nat ((Z.of_nat n * nbits + 31) / 32) in
    if (length fld <? lngw)%nat || (length dst <? lngw)%nat then None else Some (0, nw, firstn lngw fld ++ skipn lngw dst)
  else if 32 <? nbits then None
  else if datyp =? 1 then
    m <- float_packed (compact_float_pack orc fld dst 0 3 24 n b 1 None) ;; Some (1, nw, m)
  else if datyp =? 129 then
    m <- float_packed (compact_float_pack orc fld dst 1 5 0 n (b + 64 * Nat.max 16 b) 1 None) ;;
    ' (len, z) <- armn_compress orc false true (fresh junk n) (skipn 5 m) ni nj nk b ;;
    if len <? 0 then
      m <- float_packed (compact_float_pack orc fld (firstn 5 m ++ z) 0 3 24 n b 1 None) ;; Some (1, nw, m)
    else
      let nw := bytes_words (16 + len) in
      d <- wr (firstn 5 m ++ z) 0 nw ;; Some (129, nw, d)
  else if datyp =? 2 then
    r <- compact_integer orc fld None dst n (Some b) 0 1 1 ;; Some (2, nw, ci_pk r)
  else if datyp =? 130 then
    if (length fld <? n)%nat then None else
    s <- put_shorts (skipn 1 dst) (map (to_short nbits) (firstn n fld)) ;;
    ' (len, z) <- armn_compress orc false false (fresh junk n) s ni nj nk b ;;
    if len <? 0 then
      r <- compact_integer orc fld None z n (Some b) 0 1 1 ;; Some (2, nw, firstn 1 dst ++ ci_pk r)
    else
      let nw := bytes_words (4 + len) in Some (130, nw, nw :: z)
  else if (datyp =? 4) || (datyp =? 132) then
    r <- compact_integer orc fld None dst n (Some b) 0 1 3 ;; Some (4, nw, ci_pk r)
  else if (datyp =? 5) && (nbits =? 32) then
    if (length fld <? n)%nat || (length dst <? n)%nat then None else Some (5, nw, firstn n fld ++ skipn n dst)
  else if datyp =? 6 then
    if (length fld <? n)%nat then None else
    ' (_, h, str) <- c_float_packer (junk 0%nat) (firstn n fld) nbits ;;
    if (length dst <? length (h ++ str))%nat then None else Some (6, nw, h ++ str ++ skipn (length (h ++ str)) dst)
  else None.

(** fstd98.c 957-993: the size of the data before any compression, in 32-bit
    words, for the types modelled. [None]: the int arithmetic overflows. *)
Definition data_words (datyp n nbits : Z) : option Z :=
  let bits :=
    if datyp =? 6 then (12 + 4 * ((n + 1) / 2)) * 8
    else if datyp =? 129 then n * Z.max nbits 16 + 128 + 32
    else if datyp =? 130 then n * Z.max nbits 16 + 32
    else n * nbits + 120 in
  if 2 ^ 31 <=? bits + 63 then None else Some (2 * ((bits + 63) / 64)).

(** fstd98.c 995-1077, 1149-1358: the buffer given to c_xdfput, for keys of
    [plen] and [ilen] 64-bit words. buffer->data has 128 words of slack. *)
Definition fst_buffer (orc : oracle) (junk : nat -> Z) (iun : Z) (plen ilen : nat) (a : fargs) (fld : list Z) : option buffer :=
  let '(missing, datyp, nbits) := choose (a_npak a) (a_datyp a) in
  if negb (missing =? 0) then None else
  let nk := Z.max 1 (a_nk a) in
  let klen := (2 * (plen + ilen))%nat in
  nw <- data_words datyp (a_ni a * a_nj a * nk) nbits ;;
  ' (dt, nw, dat) <- pack_field orc junk datyp nbits (Z.to_nat (a_ni a)) (Z.to_nat (a_nj a)) (Z.to_nat nk) nw fld (repeat 0 (Z.to_nat nw + 128)) ;;
  if negb ((18 <=? klen)%nat && (klen <=? 20)%nat) then None else
  Some (mkbuf (10 + Z.of_nat klen + nw) ((Z.of_nat klen + nw) * 32) (Z.of_nat klen) 0 iun (2 * Z.of_nat plen)
              ([mk_hd 1 (2 ^ 24 - 1); 2 ^ 32 - 1] ++ key_words (entry_keys a dt nbits) ++ repeat 0 (klen - 18) ++ dat)).

(** c_fstecr, without image mode and remapping, unit known to fnom, not an old
    file. [None]: undefined (the product of the dimensions overflows), or not
    modelled. 1079-1095: the record to rewrite is searched without date. *)
Definition fstecr (orc : oracle) (junk : nat -> Z) (iun : Z) (a : fargs) (fld : list Z) (rewrit : bool) (s : sys) : option (Z * sys) :=
  match file_index (s_w s) iun with
  | None => Some (ERR_NO_FILE, s)
  | Some i =>
    f <- w_file (s_w s) i ;;
    if negb (f_std f) then Some (ERR_NO_FILE, s) else
    if f_ro f then Some (ERR_NO_WRITE, s) else
    if negb (in_range a) then Some (ERR_OUT_RANGE, s) else
    let bits := a_ni a * a_nj a * Z.max 1 (a_nk a) * valid_bits (a_npak a) (a_datyp a) in
    if 2 ^ 31 <=? bits then None else
    if MAX_RECORD_LENGTH <? bits / 32 then Some (ERR_OUT_RANGE, s) else
    buf <- fst_buffer orc junk iun (f_plen f) (f_ilen f) a fld ;;
    ' (handle, s1) <- (if rewrit then
         ' (h, _, s1) <- fstinf junk (fun _ => true) iun (mkquery (-1) (a_etiket a) (a_ip1 a) (a_ip2 a) (a_ip3 a) (a_typvar a) (a_nomvar a)) s ;;
         Some (if h <? 0 then 0 else h, s1)
       else Some (0, s)) ;;
    step (OpPut junk iun handle buf) s1
  end.

(** ** c_fstprm *)
Record desc := mkdesc {
  d_dateo : Z; d_deet : Z; d_npas : Z; d_ni : Z; d_nj : Z; d_nk : Z; d_nbits : Z; d_datyp : Z;
  d_ip1 : Z; d_ip2 : Z; d_ip3 : Z; d_typvar : list Z; d_nomvar : list Z; d_etiket : list Z; d_grtyp : list Z;
  d_ig1 : Z; d_ig2 : Z; d_ig3 : Z; d_ig4 : Z; d_datev : Z }.

(** crack_std_parms (228-276) and the assignments of c_fstprm (2927-2957), for
    strings of 2, 4, 12 and 1 characters. [None]: the int product of deet and
    npas overflows (267). *)
Definition crack (k : keys) : option desc :=
  if 2 ^ 31 <=? k_deet k * k_npas k then None else
  let datexx := decimal_date (k_date k) in
  let dateo := if k_deet k * k_npas k =? 0 then int32 datexx else incdat_out (incdat_sec (int32 datexx) (- (k_deet k * k_npas k))) in
  Some (mkdesc dateo (k_deet k) (k_npas k) (k_ni k) (k_nj k) (k_nk k) (k_nbits k) (k_datyp k)
               (k_ip1 k) (k_ip2 k) (k_ip3 k) (unsix (k_typvar k) 2) (unsix (k_nomvar k) 4)
               (unsix (k_etik15 k) 5 ++ unsix (k_etik6a k) 5 ++ unsix (k_etikbc k) 2) [k_gtyp k]
               (k_ig1 k) (Z.lor (Z.lor (Z.shiftl (k_ig2a k) 16) (Z.shiftl (k_ig2b k) 8)) (k_ig2c k)) (k_ig3 k) (k_ig4 k) (int32 datexx)).

(** c_fstprm; on failure the arguments are set from a cleared entry, which is
    left out. *)
Definition fstprm (w : world) (h : Z) : option (res desc) :=
  r <- xdfprm w h ;;
  match r with
  | Err c => Some (Err c)
  | Go (_, _, _, ks) => d <- crack (keys_of ks) ;; Some (Go d)
  end.

(** ** c_fstluk *)

(** xdf98.c 1146-1152: the auxiliary keys read by c_xdfget2. *)
Definition aux_words (w : world) (h : Z) : option (list Z) :=
  let i := hidx w h in
  f <- w_file w i ;;
  match locate w i f (hpage h) with
  | Some (Go pp) =>
    g <- w_file w (fst pp) ;;
    r <- entry_of w g pp (hrec h) ;;
    match r with
    | Go e => ' (_, ws) <- waread (f_disk g) (2 * (e_addr e - 1) + 1 + 2 * Z.of_nat (f_plen g)) (2 * Z.of_nat (f_ilen g)) ;; Some ws
    | Err _ => Some []
    end
  | _ => Some []
  end.

(** fstd98.c 2270-2450: unpacking of [src] to [fld]; the types modelled are
    those of [pack_field]. c_float_unpacker gives the numbers it could unpack. *)
Definition unpack_field (orc : oracle) (junk : nat -> Z) (datyp nbits : Z) (ni nj nk : nat) (fld src : list Z) : option (list Z) :=
  let n := (ni * nj * nk)%nat in
  let b := Z.to_nat nbits in
  if datyp =? 0 then
    let lngw := Z.to_nat ((Z.of_nat n * nbits + 31) / 32) in
    if (length fld <? lngw)%nat || (length src <? lngw)%nat then None else Some (firstn lngw src ++ skipn lngw fld)
  else if 32 <? nbits then None
  else if datyp =? 1 then
    r <- compact_float_unpack orc fld src 0 3 24 n b 1 None ;; r
  else if datyp =? 129 then
    ' (_, z) <- armn_uncompress orc true (fresh16 junk (2 * (ni * nj))) (fresh junk (ni * nj)) (skipn 5 src) ni nj nk b ;;
    r <- compact_float_unpack orc fld (firstn 5 src ++ z) 1 5 0 n (b + 64 * Nat.max 16 b) 1 None ;; r
  else if datyp =? 2 then
    r <- compact_integer orc fld None src n (Some b) 0 1 2 ;; Some (ci_unp r)
  else if datyp =? 130 then
    ' (_, z) <- armn_uncompress orc false (fresh16 junk (2 * (ni * nj))) (fresh junk (ni * nj)) (skipn 1 src) ni nj nk b ;;
    if (length (halves z) <? n)%nat || (length fld <? n)%nat then None else
    Some (map (of_short nbits) (firstn n (halves z)) ++ skipn n fld)
  else if datyp =? 4 then
    r <- compact_integer orc fld None src n (Some b) 0 1 4 ;; Some (ci_unp r)
  else if (datyp =? 5) && (nbits =? 32) then
    if (length fld <? n)%nat || (length src <? n)%nat then None else Some (firstn n src ++ skipn n fld)
  else if datyp =? 6 then
    if (length fld <? n)%nat then None else
    ' (_, _, xs) <- c_float_unpacker src (skipn 3 src) (Z.of_nat n) ;; Some (xs ++ skipn (length xs) fld)
  else None.

Definition ERR_STDF_VERSION := -40.

(** fstd98.c 2185-2206: the words of the array of c_fstluk, but for those of the
    buffer structure and 8 bytes more. *)
Definition luk_words (datyp n lng : Z) : Z :=
  if datyp =? 6 then 1 + (n * 16 + 32 + 31) / 32 + 3 + 20
  else if 128 <? datyp then 4 + (n * 16 + 32 + 31) / 32 + 20
  else lng.

(** c_fstluk: code, dimensions, the field read over [fld]. The record is read
    in an array of 10 words of the buffer structure, then data[]; the auxiliary
    keys are read in an array of two words ([None] when they are more). [None]
    also for the data types that are not modelled. *)
Definition fstluk (orc : oracle) (junk : nat -> Z) (w : world) (h : Z) (fld : list Z) : option (Z * option (Z * Z * Z) * list Z) :=
  r <- xdfprm w h ;;
  match r with
  | Err c => Some (c, None, fld)
  | Go (_, lng, _, ks) =>
    let k := keys_of ks in
    let datyp := Z.land (k_datyp k) 0xBF in
    let n := k_ni k * k_nj k * k_nk k in
    let d := Some (k_ni k, k_nj k, k_nk k) in
    let lng := 2 * lng in
    if negb (Z.land (k_datyp k) 64 =? 0) || (2 ^ 31 <=? (if (datyp =? 6) || (128 <? datyp) then n * 16 + 63 else n * k_nbits k)) || (datyp =? 133) || (datyp =? 134) then None else
    ' (c, b) <- xdfget w h (mkbuf (w32 (- (lng + 10))) (2 ^ 32 - 1) 0 0 0 0 (repeat 0 (Z.to_nat (luk_words datyp n lng) + 2))) ;;
    if c <? 0 then Some (c, d, fld) else
    ax <- aux_words w h ;;
    if negb (length ax <=? 2)%nat then None else
    if negb (nth 0 ax 0 =? 0) && negb (nth 1 ax 0 =? 0) then Some (ERR_STDF_VERSION, d, fld) else
    fld' <- unpack_field orc junk datyp (k_nbits k) (Z.to_nat (k_ni k)) (Z.to_nat (k_nj k)) (Z.to_nat (k_nk k)) fld (b_data b) ;;
    Some (h, d, fld')
  end.

(** ** c_fstouv *)
(** qstdir.h 900-945: stdfkeys and stdf_info_keys; name, then bit1, lcle, tcle
    and reserved. *)
Definition stdfkeys : list (Z * Z) :=
  map (fun j => (0x53463030 + (if j <? 10 then j else 0xF6 + j), (32 * j - 1) * 2 ^ 19 + 31 * 2 ^ 14)) (map Z.of_nat (seq 1 16)).
Definition stdf_info_keys : list (Z * Z) := [(0x41584931, 31 * 2 ^ 19 + 31 * 2 ^ 14); (0x41584932, 63 * 2 ^ 19 + 31 * 2 ^ 14)].
(** fstd98.c 2816-2846, option RND: a new file, or an old one, read-only or
    not. *)
Definition fst_create (junk : nat -> Z) (p : nat) (iun : Z) : op := OpCreate junk p iun true std_kp stdfkeys stdf_info_keys STDR.
Definition fst_open (junk : nat -> Z) (p : nat) (iun : Z) (ro : bool) : op := OpOpen junk p iun ro true std_kp (if ro then RDMODE else RWMODE).
