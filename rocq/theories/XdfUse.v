(** Copying the valid records of a file to another: model of c_xdfuse
    (src/fstd98/xdf98.c 2667-2830), random files. The calls it makes
    (c_xdfopn, c_xdfput, c_xdfcls) are those of XdfHist.v. Printing of the
    statistics (c_xdfimp) is left out. *)
From Coq Require Import ZArith List Lia Bool.
From Verif Require Import Bits Handles WaFile Xdf XdfOpen XdfHist XdfSta.
Import ListNotations.
Open Scope Z_scope.
Open Scope opt_scope.

Definition ERR_NOT_COMP := -6.
Definition ERR_NO_FNOM := -29.

(** What fnom associates to a unit: the file and its attributes, and the key
    functions that go with them. *)
Record funit := mkfunit { u_path : nat; u_ro : bool; u_std : bool; u_kp : keypack }.

(** xdf98.c 2554-2573: descriptions of [n] keys starting with number [i], as
    c_xdfsta gives them: the bit fields bit1 (13), lcle (5), tcle (6),
    reserved (8) of the second word are put back where they were. *)
Definition key_words (h : list Z) (i n : nat) : list (Z * Z) :=
  map (fun j => (hget h (16 + 2 * j), hget h (17 + 2 * j))) (seq i n).
Definition pri_keys (h : list Z) : list (Z * Z) := key_words h 0 (Z.to_nat (h_nprm h)).
Definition aux_keys (h : list Z) : list (Z * Z) := key_words h (Z.to_nat (h_nprm h)) (Z.to_nat (h_naux h)).

(** xdf98.c 2507-2527: the header c_xdfsta works on: the one in memory when
    the unit is open, else read from the file. *)
Definition sta_hdr (s : sys) (iun : Z) (p : nat) : option (res (list Z)) :=
  match file_index (s_w s) iun with
  | Some i => f <- w_file (s_w s) i ;; Some (Go (f_hdr f))
  | None =>
    match s_fs s p with
    | Shut d =>
      r0 <- waread d 1 4 ;;
      let h64 := snd r0 ++ repeat 0 (4 - length (snd r0)) in
      if negb ((nth 2 h64 0 =? XDF0) || (nth 2 h64 0 =? XDF0_lc)) then Some (Err ERR_NOT_XDF) else
      r1 <- waread d 1 (2 * w_lng (nth 0 h64 0)) ;;
      Some (Go (snd r1))
    | _ => None
    end
  end.

(** 2731-2745: same numbers and lengths of keys, same key descriptions. *)
Definition pair_eqb (a b : Z * Z) : bool := (fst a =? fst b) && (snd a =? snd b).
Fixpoint all_eqb (l m : list (Z * Z)) : bool :=
  match l, m with
  | [], [] => true
  | a :: l', b :: m' => pair_eqb a b && all_eqb l' m'
  | _, _ => false
  end.
Definition compatible (h hs : list Z) : bool :=
  (h_nprm h =? h_nprm hs) && (h_lprm h =? h_lprm hs) && (h_naux h =? h_naux hs) && (h_laux h =? h_laux hs) &&
  all_eqb (pri_keys h) (pri_keys hs) && all_eqb (aux_keys h) (aux_keys hs).

(** 2757-2777, 2790-2806: the buffer given to c_xdfput: the [n] words [ws] read
    after zeroing (words past the end of the file stay 0), then what the
    buffer holds; capacity in 64-bit words [maxmem], header included. The
    record index is not set. *)
Definition use_buf (junk : nat -> Z) (src maxmem : Z) (n : nat) (ws : list Z) : buffer :=
  mkbuf (2 * maxmem + 10) (32 * Z.of_nat n) 10 (w32 (junk 0%nat)) src 0
        (ws ++ repeat 0 (n - length ws) ++ map (fun k => w32 (junk k)) (seq 0 (Z.to_nat (2 * maxmem - 10) - n))).

(** 2779-2823: the copying loop. [readpos]: word address where the next part
    of the source starts; [fsz]: size of the source in words, as the table of
    units has it; [nsplit]: option NSPLIT. Errors of c_xdfput are ignored. A part of
    length 0 is read again for ever; [None] when [fuel] runs out. *)
Fixpoint use_loop (fuel : nat) (junk : nat -> Z) (nsplit fsz src dst maxmem readpos nbrec : Z) (s : sys) : option sys :=
  match fuel with
  | O => None
  | S fuel' =>
    i <- file_index (s_w s) src ;;
    f <- w_file (s_w s) i ;;
    r <- waread (f_disk f) readpos 2 ;;
    let h0 := nth 0 (snd r) (w32 (junk 0%nat)) in
    let h1 := nth 1 (snd r) (w32 (junk 1%nat)) in
    let addr := if h1 =? 0 then 1 else h1 in
    let idtyp := w_idtyp h0 in
    let lng := w_lng h0 in
    if s32 (w32 (2 * (addr - 1) + 1)) =? readpos then
      r2 <- (if (0 <? idtyp) && (idtyp <? 127) then
               let mm := if maxmem <? lng + 100 + 10 then lng + 100 + 10 else maxmem in
               if readpos + 2 * lng - 1 <=? fsz then
                 r1 <- waread (f_disk f) readpos (2 * lng) ;;
                 ' (_, s1) <- step (OpPut junk (if 1 <? nsplit then dst + nbrec mod nsplit else dst) 0
                                          (use_buf junk src mm (Z.to_nat (2 * lng)) (snd r1))) s ;;
                 Some (mm, nbrec + 1, s1)
               else Some (mm, nbrec, s)
             else Some (maxmem, nbrec, s)) ;;
      let '(mm, nb, s1) := r2 in
      if fsz <=? readpos + 2 * lng then Some s1
      else use_loop fuel' junk nsplit fsz src dst mm (readpos + 2 * lng) nb s1
    else Some s
  end.

(** 2712-2716: creation of the destination files. *)
Fixpoint use_create (n : nat) (junk : nat -> Z) (fn : Z -> option funit) (dst : Z) (h : list Z) (s : sys) : option (Z * sys) :=
  match n with
  | O => Some (0, s)
  | S n' =>
    match fn dst with
    | None => Some (ERR_NO_FNOM, s)
    | Some u =>
      ' (c, s1) <- step (OpCreate junk (u_path u) dst (u_std u) (u_kp u) (pri_keys h) (aux_keys h) (hget h 3)) s ;;
      if c <? 0 then Some (c, s1) else use_create n' junk fn (dst + 1) h s1
    end
  end.

(** 2699-2722: the destination is opened: for appending when it exists (its
    size, set by fnom, is not 0), else created with the keys of the source.
    Result: the header whose keys are compared, and the state. *)
Definition use_dest (junk : nat -> Z) (fn : Z -> option funit) (nsplit src dst : Z) (us ud : funit) (s : sys) : option (res (list Z) * sys) :=
  match file_index (s_w s) dst with
  | Some _ => h <- sta_hdr s dst (u_path ud) ;; Some (h, s)
  | None =>
    match s_fs s (u_path ud) with
    | Opened _ => None
    | Shut d =>
      h <- sta_hdr s dst (u_path ud) ;;
      match h with
      | Err c => Some (Err c, s)
      | Go h =>
        ' (c, s1) <- step (OpOpen junk (u_path ud) dst (u_ro ud) (u_std ud) (u_kp ud) APPEND) s ;;
        Some (if c <? 0 then Err c else Go h, s1)
      end
    | Absent =>
      h <- sta_hdr s src (u_path us) ;;
      match h with
      | Err c => Some (Err c, s)
      | Go h =>
        ' (c, s1) <- use_create (Z.to_nat nsplit) junk fn dst h s ;;
        Some (if c <? 0 then Err c else Go h, s1)
      end
    end
  end.

(** 2724-2729: the source is opened for reading when it is not open. *)
Definition use_src (junk : nat -> Z) (src : Z) (us : funit) (s : sys) : option (bool * Z * sys) :=
  match file_index (s_w s) src with
  | Some _ => Some (false, 0, s)
  | None => ' (c, s1) <- step (OpOpen junk (u_path us) src (u_ro us) (u_std us) (u_kp us) RDMODE) s ;; Some (true, c, s1)
  end.

Definition use_end (junk : nat -> Z) (src : Z) (close : bool) (c : Z) (s : sys) : option (Z * sys) :=
  if close then ' (_, s1) <- step (OpClose junk src) s ;; Some (c, s1) else Some (c, s).

(** 2667-2830: c_xdfuse. The size of the source in the table of units is that of
    its file. *)
Definition xdfuse (fuel : nat) (junk : nat -> Z) (fn : Z -> option funit) (nsplit src dst : Z) (s : sys) : option (Z * sys) :=
  match fn src, fn dst with
  | None, _ | _, None => Some (ERR_NO_FNOM, s)
  | Some us, Some ud =>
    ' (r, s1) <- use_dest junk fn nsplit src dst us ud s ;;
    match r with
    | Err c => Some (c, s1)
    | Go h =>
      ' (close, c, s2) <- use_src junk src us s1 ;;
      if c <? 0 then Some (c, s2) else
      rh <- sta_hdr s2 src (u_path us) ;;
      match rh with
      | Err c => Some (c, s2)
      | Go hs =>
        if negb (compatible h hs) then use_end junk src close ERR_NOT_COMP s2 else
        i <- file_index (s_w s2) src ;;
        f <- w_file (s_w s2) i ;;
        s3 <- (if 0 <? dsize (f_disk f) then use_loop fuel junk nsplit (dsize (f_disk f)) src dst 2505 1 0 s2 else Some s2) ;;
        use_end junk src close 0 s3
      end
    end
  end.
