(** Generic keys of XDF files: model of build_gen_prim_keys and
    build_gen_info_keys (src/fstd98/xdf98.c 266-376), and of the calls that set
    and read the keys of a record in a buffer: c_xdfini (1331-1390), c_xdfupd
    (2615-2664), c_xdfhdr (1208-1251). *)
From Coq Require Import ZArith List Lia Bool.
From Verif Require Import Bits Handles WaFile Xdf.
Import ListNotations.
Open Scope Z_scope.
Open Scope opt_scope.

(** qstdir.h 425-447: word2 of a key descriptor: bit1:13, lcle:5, tcle:6,
    reserved:8. The derived quantities used by the builders (xdf98.c 289-296):
    word wi, shift sc, length lcle + 1, and whether letters are made upper
    case. *)
Record field := mkfield { fd_w : nat; fd_s : Z; fd_n : Z; fd_up : bool }.
Definition field_of (w2 : Z) : field :=
  let bit1 := w2 / 2 ^ 19 in
  mkfield (Z.to_nat (bit1 / 32)) (31 - bit1 mod 32) ((w2 / 2 ^ 14) mod 32 + 1) (0 <? (w2 / 2 ^ 8) mod 64 / 32).
(** Descriptors [off], ..., [off + n - 1] of header [h]: words 17, 19, ... *)
Definition fields (h : list Z) (off n : nat) : list field :=
  map (fun i => field_of (nth (17 + 2 * i) h 0)) (seq off n).
Definition prim_fields (h : list Z) : list field := fields h 0 (Z.to_nat (h_nprm h)).
Definition info_fields (h : list Z) : list field := fields h (Z.to_nat (h_nprm h)) (Z.to_nat (h_naux h)).

(** rmask, as a 32-bit word. *)
Definition fd_mask (f : field) : Z := 2 ^ fd_n f - 1.
(** xdf98.c 294-295: letters to upper case: bit 5 of each byte cleared when bit
    6 is set. *)
Definition upcase (key : Z) : Z := Z.ldiff key (Z.shiftr (Z.land key 0x40404040) 1).
Definition key_of (f : field) (key : Z) : Z := if fd_up f then upcase key else key.
(** xdf98.c 297-298 *)
Definition set_field (f : field) (w key : Z) : Z :=
  Z.lor (Z.ldiff w (w32 (Z.shiftl (fd_mask f) (fd_s f)))) (w32 (Z.shiftl (Z.land (key_of f key) (fd_mask f)) (fd_s f))).
(** xdf98.c 307 *)
Definition get_field (f : field) (w : Z) : Z := Z.land (Z.shiftr w (fd_s f)) (fd_mask f).
(** xdf98.c 361-362 *)
Definition set_mask (f : field) (w : Z) : Z :=
  Z.lor (Z.ldiff w (w32 (Z.shiftl (fd_mask f) (fd_s f)))) (w32 (Z.shiftl (fd_mask f) (fd_s f))).

(** The loop over the keys, WMODE; [None]: out of the key list or of the
    buffer. [put]: what is done to the word. *)
Fixpoint each_key (put : field -> Z -> Z -> Z) (fs : list field) (keys buf : list Z) : option (list Z) :=
  match fs, keys with
  | [], _ => Some buf
  | f :: fs', k :: keys' =>
    if k =? 2 ^ 32 - 1 then each_key put fs' keys' buf
    else if (fd_w f <? length buf)%nat then each_key put fs' keys' (upd buf (fd_w f) (put f (nth (fd_w f) buf 0) k))
    else None
  | _, [] => None
  end.
(** The loop over the keys, RDMODE. *)
Fixpoint read_keys (fs : list field) (buf : list Z) : option (list Z) :=
  match fs with
  | [] => Some []
  | f :: fs' => w <- nth_error buf (fd_w f) ;; ks <- read_keys fs' buf ;; Some (get_field f w :: ks)
  end.

(** xdf98.c 338-343: mask words from the word of the first key to the word of
    the last one are cleared. [None]: no key (keys[-1] is read), or out of the
    mask. *)
Definition clear_mask (fs : list field) (m : list Z) : option (list Z) :=
  match fs with
  | [] => None
  | f :: _ =>
    let a := fd_w f in let b := fd_w (last fs f) in
    if (b <? length m)%nat || (b <? a)%nat then Some (map (fun j => if (a <=? j)%nat && (j <=? b)%nat then 0 else nth j m 0) (seq 0 (length m)))
    else None
  end.

(** xdf98.c 312-376: build_gen_prim_keys. mskkeys is not used. *)
Definition gen_write (h dst keys mask msk : list Z) : option (list Z * list Z) :=
  if (length dst <? 2)%nat || (length mask <? 2)%nat then None else
  let fs := prim_fields h in
  m0 <- clear_mask fs (skipn 2 mask) ;;
  b <- each_key set_field fs keys (skipn 2 dst) ;;
  m <- each_key (fun f w _ => set_mask f w) fs keys m0 ;;
  Some (firstn 2 dst ++ b, [0; 0] ++ m).
(** The keys are read into an array of the caller; in c_xdfput it is a local
    array of MAX_PRIMARY_LNG words (xdf98.c 2176), overflowed ([None]) when
    there are more keys. *)
Definition gen_read (h src : list Z) : option (list Z) :=
  if (length (prim_fields h) <=? MAX_PRIMARY_LNG)%nat then read_keys (prim_fields h) (skipn 2 src) else None.
Definition gen_kp : keypack := mkkp gen_write gen_read.
(** Key functions that do the same as the generic ones in files whose keys are
    [fs]. *)
Definition as_generic (kp : keypack) (fs : list field) : Prop := forall h, prim_fields h = fs ->
  (forall dst keys mask msk, kp_write kp h dst keys mask msk = gen_write h dst keys mask msk) /\ (forall src, kp_read kp h src = gen_read h src).

(** xdf98.c 267-305: build_gen_info_keys. *)
Definition info_write (h dst keys : list Z) : option (list Z) := each_key set_field (info_fields h) keys dst.
Definition info_read (h src : list Z) : option (list Z) := read_keys (info_fields h) src.

(** qstdir.h *)
Definition ERR_BAD_DATYP : Z := -16.

(** Words of the buffer structure before data[] (qstdir.h 846-871). *)
Definition BUF_HDR : nat := 9.

(** The keys part common to c_xdfini (1387-1388) and c_xdfupd (2657-2658).
    [mask]: the local mask array, not initialised. *)
Definition write_keys (f : fte) (mask : nat -> Z) (data keys : list Z) (nkeys : Z) (info : list Z) (ninfo : Z) : option (list Z) :=
  d1 <- (if 0 <? nkeys then
           r <- kp_write (f_kp f) (f_hdr f) data keys (map mask (seq 0 MAX_PRIMARY_LNG)) [] ;; Some (fst r)
         else Some data) ;;
  if 0 <? ninfo then
    if (length d1 <? 2 * f_plen f)%nat then None else
    i <- info_write (f_hdr f) (skipn (2 * f_plen f) d1) info ;;
    Some (firstn (2 * f_plen f) d1 ++ i)
  else Some d1.

(** xdf98.c 1331-1390: c_xdfini, for a unit known to fnom. The buffer is
    cleared before the record type is checked. nwords is taken as positive;
    [None] when the buffer is shorter than it says. *)
Definition xdfini (w : world) (mask : nat -> Z) (iun : Z) (buf : buffer) (idtyp : Z) (keys : list Z) (nkeys : Z) (info : list Z) (ninfo : Z)
  : option (Z * buffer) :=
  match file_index w iun with
  | None => Some (ERR_NO_FILE, buf)
  | Some i =>
    f <- w_file w i ;;
    let n := (Z.to_nat (s32 (b_nwords buf)) - BUF_HDR)%nat in
    if (length (b_data buf) <? n)%nat || (Z.to_nat (s32 (b_nwords buf)) <? BUF_HDR)%nat then None else
    let d0 := repeat 0 n ++ skipn n (b_data buf) in
    if (idtyp <? 1) || (126 <? idtyp) then Some (ERR_BAD_DATYP, mkbuf (b_nwords buf) 0 0 0 0 0 d0) else
    if (length d0 <? 1)%nat then None else
    let d1 := upd d0 0 (mk_hd idtyp (w_lng (nth 0 d0 0))) in
    d2 <- write_keys f mask d1 keys nkeys info ninfo ;;
    Some (0, mkbuf (b_nwords buf) (Z.of_nat (f_plen f + f_ilen f) * 64) (2 * Z.of_nat (f_plen f + f_ilen f)) 0 iun
                   (2 * Z.of_nat (f_plen f)) d2)
  end.

(** xdf98.c 2615-2664: c_xdfupd. *)
Definition xdfupd (w : world) (mask : nat -> Z) (iun : Z) (buf : buffer) (idtyp : Z) (keys : list Z) (nkeys : Z) (info : list Z) (ninfo : Z)
  : option (Z * buffer) :=
  match file_index w iun with
  | None => Some (ERR_NO_FILE, buf)
  | Some i =>
    f <- w_file w i ;;
    if (idtyp <? 1) && negb (idtyp =? -1) || (126 <? idtyp) then Some (ERR_BAD_DATYP, buf) else
    if (length (b_data buf) <? 1)%nat then None else
    let d1 := if -1 <? idtyp then upd (b_data buf) 0 (mk_hd idtyp (w_lng (nth 0 (b_data buf) 0))) else b_data buf in
    d2 <- write_keys f mask d1 keys nkeys info ninfo ;;
    Some (0, mkbuf (b_nwords buf) (b_nbits buf) (b_didx buf) (b_ridx buf) iun (b_aidx buf) d2)
  end.

(** xdf98.c 1208-1251: c_xdfhdr: address, length, type, primary keys, info keys
    (none when ninfo = 0). The type, address and length are set before the file
    is looked up; on failure they are left out here. *)
Definition xdfhdr (w : world) (buf : buffer) (ninfo : Z) : option (res (Z * Z * Z * list Z * list Z)) :=
  match file_index w (b_iun buf) with
  | None => Some (Err ERR_NO_FILE)
  | Some i =>
    f <- w_file w i ;;
    if (length (b_data buf) <? 2)%nat then None else
    ks <- kp_read (f_kp f) (f_hdr f) (b_data buf) ;;
    is <- (if 0 <? ninfo then info_read (f_hdr f) (skipn (2 * f_plen f) (b_data buf)) else Some []) ;;
    Some (Go (nth 1 (b_data buf) 0, w_lng (nth 0 (b_data buf) 0), w_idtyp (nth 0 (b_data buf) 0), ks, is))
  end.
