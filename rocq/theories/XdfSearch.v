(** Searching a random XDF file: model of c_xdfloc2 (src/fstd98/xdf98.c
    1577-1708) and next_match (3190-3256, 3370-3385), and of linking
    (c_xdflnk 1496-1540, c_xdfunl 2572-2600). *)
From Coq Require Import ZArith List Lia Bool.
From Verif Require Import Bits Handles WaFile Xdf.
Import ListNotations.
Open Scope Z_scope.
Open Scope opt_scope.

(** xdf98.c 3236-3243: masked comparison of an entry with the search target,
    over [width] = 2 * primary_len words. *)
Definition masked_eq (width : nat) (e tgt msk : list Z) : bool :=
  forallb (fun k => Z.land (Z.lxor (nth k e 0) (nth k tgt 0)) (nth k msk 0) =? 0) (seq 0 width).

(** xdf98.c 3228-3249: live (idtyp < 127), equal under the mask and accepted by
    the file filter, called with the handle of the entry. *)
Definition entry_matches (filt : Z -> bool) (i : nat) (f : fte) (no : Z) (r : Z) (e : list Z) : bool :=
  (e_idtyp e <? 127) && masked_eq (2 * f_plen f) e (f_target f) (f_cmask f) &&
  filt (make_rnd_handle no r (Z.of_nat i)).

(** xdf98.c 3225-3253: the for loop over the rest of a page; result: the first
    matching record number. *)
Fixpoint scan (mt : Z -> list Z -> bool) (l : list (list Z)) (r : Z) : option Z :=
  match l with
  | [] => None
  | e :: l' => if mt r e then Some r else scan mt l' (r + 1)
  end.

(** xdf98.c 3208-3256: the while loop over pages. [n] bounds the number of
    pages visited; [None] when it is exhausted (links that form a cycle make
    the C loop endless), when a page was freed, or when a page claims more
    entries than it holds. The result is (handle or ERR_NOT_FOUND, cursor). *)
Fixpoint match_loop (n : nat) (filt : Z -> bool) (w : world) (i : nat) (f : fte) (pg : nat * nat) (no rec : Z)
  : option (Z * cursor) :=
  match n with
  | O => None
  | S n' =>
    p <- get_page w pg ;;
    g <- w_file w (fst pg) ;;
    if negb (f_plen g =? f_plen f)%nat || (Z.of_nat EPP <? p_nent p) then None else
    match scan (entry_matches filt i f no) (skipn (Z.to_nat rec) (firstn (Z.to_nat (p_nent p)) (p_ents p))) rec with
    | Some r => Some (make_rnd_handle no r (Z.of_nat i), mkcur (Some pg) (Some (pg, Z.to_nat (r + 1))) no (r + 1))
    | None =>
      match next_page w pg with
      | None => None
      | Some None => Some (ERR_NOT_FOUND, mkcur None (Some (pg, Z.to_nat (p_nent p))) no 0)
      | Some (Some q) => match_loop n' filt w i f q (no + 1) 0
      end
    end
  end.

(** xdf98.c 3190-3222: next_match. *)
Definition next_match (n : nat) (filt : Z -> bool) (w : world) (i : nat) : option (Z * world) :=
  f <- w_file w i ;;
  match c_pg (f_cur f), c_ent (f_cur f) with
  | Some pg, Some (pg', k) =>
    if negb ((Nat.eqb (fst pg) (fst pg')) && (Nat.eqb (snd pg) (snd pg'))) then None
    else if negb (Z.of_nat k =? c_rec (f_cur f)) then Some (ERR_NO_POS, w)
    else
      r <- match_loop n filt w i f pg (c_no (f_cur f)) (c_rec (f_cur f)) ;;
      Some (fst r, setf w i (Some (f_setcur f (snd r))))
  | _, _ => Some (ERR_NO_POS, w)
  end.

(** xdf98.c 1676-1681: positioning on a page of a linked file. [k] counts the
    iterations; cur_pageno changes inside the loop it bounds. *)
Fixpoint link_walk (n : nat) (w : world) (k pageno no : Z) (pg : option (nat * nat)) : option (option (nat * nat) * Z) :=
  match n with
  | O => None
  | S n' =>
    match pg with
    | Some q => if k <=? pageno - no then
                  match next_page w q with
                  | None => None
                  | Some q' => link_walk n' w (k + 1) pageno (no + 1) q'
                  end
                else Some (pg, no)
    | None => Some (pg, no)
    end
  end.

(** xdf98.c 1577-1708: c_xdfloc2. [nprim] = 0 keeps the previous target. [msk]:
    the caller's mask, or [None] for a null pointer; then nprim words are
    malloc'ed ([junk]) and only the first is ever set, nprim times (1612-1623).
    [n] bounds the number of pages visited. *)
Definition xdfloc2 (n : nat) (junk : nat -> Z) (filt : Z -> bool) (w : world) (iun handle : Z) (primk : list Z) (nprim : Z) (msk : option (list Z))
  : option (Z * world) :=
  match file_index w iun with
  | None => Some (ERR_NO_FILE, w)
  | Some i =>
    f <- w_file w i ;;
    let mk := match msk with
              | Some m => m
              | None => match primk with
                        | k :: _ => (if k =? 2 ^ 32 - 1 then 0 else 2 ^ 32 - 1) :: map (fun j => w32 (junk j)) (seq 1 (Z.to_nat nprim - 1))
                        | [] => []
                        end
              end in
    let cu := f_cur f in
    if (0 <? handle) && negb (Nat.eqb (hidx w handle) i) then Some (ERR_BAD_HNDL, w) else
    if handle <? -1 then Some (ERR_BAD_HNDL, w) else
    if (handle =? -1) && (match c_ent cu with None => true | Some _ => c_no cu =? -1 end) then Some (ERR_NO_POS, w) else
    let record := if handle =? 0 then 0 else Z.of_nat (hrec handle) + 1 in
    let pageno := if handle =? 0 then 0 else Z.of_nat (hpage handle) in
    let no0 := if handle =? 0 then -1 else c_no cu in
    f1 <- (if nprim =? 0 then Some f else
             tm <- kp_write (f_kp f) (f_hdr f) (f_target f) primk (f_cmask f) mk ;;
             let cm := map (fun k => if (k <? 2 * f_plen f)%nat then Z.land (nth k (snd tm) 0) (nth k (f_smask f) 0) else nth k (snd tm) 0)
                           (seq 0 (length (snd tm))) in
             Some (f_settgt f (fst tm) cm true)) ;;
    let np := Z.of_nat (length (f_pages f)) in
    posd <- (if handle =? -1 then Some (Go (mkcur (c_pg cu) (c_ent cu) no0 (c_rec cu))) else
             if negb (pageno =? no0) then
               if pageno <? np then
                 let pg := (i, Z.to_nat pageno) in
                 Some (Go (mkcur (Some pg) (Some (pg, Z.to_nat record)) pageno record))
               else if f_link f =? -1 then Some (Err ERR_BAD_PAGENO)
               else
                 q <- link_walk (Z.to_nat pageno + 3) w 0 pageno (np - 1) (Some (i, Z.to_nat (np - 1))) ;;
                 match fst q with
                 | None => Some (Err ERR_BAD_PAGENO)
                 | Some pg => Some (Go (mkcur (Some pg) (Some (pg, Z.to_nat record)) (snd q) record))
                 end
             else
               (* dir_page[cur_pageno]: NULL past the last page of this file, the entry address is then
                  computed from a null pointer and next_match reports ERR_NO_POS *)
               let pg := (i, Z.to_nat pageno) in
               Some (Go (mkcur (if pageno <? np then Some pg else None) (Some (pg, Z.to_nat record)) no0 record))) ;;
    match posd with
    | Err c => Some (c, setf w i (Some (f_setcur f1 (mkcur (c_pg cu) None no0 (c_rec cu)))))
    | Go cu1 =>
      let w1 := setf w i (Some (f_setcur f1 cu1)) in
      if negb (f_vt f1) then Some (ERR_NO_TARGET, w1) else next_match n filt w1 i
    end
  end.

(** xdf98.c 1496-1540: c_xdflnk, all units open. Each file's last page is
    chained to the first page of the next file of the list. *)
Fixpoint xdflnk_loop (w : world) (i : nat) (l : list Z) : Z * world :=
  match l with
  | [] => (0, w)
  | u :: l' =>
    match file_index w u, w_file w i with
    | Some k, Some f => xdflnk_loop (setf w i (Some (f_setlink f (Some k) (Z.of_nat k)))) k l'
    | _, _ => (ERR_NO_FILE, w)
    end
  end.
Definition xdflnk (w : world) (l : list Z) : Z * world :=
  match l with
  | [] => (ERR_NO_FILE, w)
  | u :: l' => match file_index w u with Some i => xdflnk_loop w i l' | None => (ERR_NO_FILE, w) end
  end.

(** xdf98.c 2572-2600: c_xdfunl. *)
Fixpoint xdfunl (w : world) (l : list Z) : Z * world :=
  match l with
  | [] => (0, w)
  | u :: l' =>
    match file_index w u with
    | Some i => match w_file w i with
                | Some f => xdfunl (setf w i (Some (f_setlink f None (-1)))) l'
                | None => (ERR_NO_FILE, w)
                end
    | None => (ERR_NO_FILE, w)
    end
  end.
