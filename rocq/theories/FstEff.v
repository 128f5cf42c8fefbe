(** Erasing the records of standard files, counting them and editing their
    parameters: c_fsteff, c_fstnbrv and c_fst_edit_dir_plus (fstd98.c). *)
From Coq Require Import ZArith List Lia Bool.
From Verif Require Import Bits Handles WaFile Xdf XdfSearch XdfOpen XdfHist XdfInv XdfAbs XdfPut4 XdfSys XdfSpec Dates DatesSpec Fst FstSpec.
Import ListNotations.
Open Scope Z_scope.
Open Scope opt_scope.

(** ** Model *)

(** c_fsteff: fstd98.c 1549-1581. Ten bits of the handle give the index, which
    is never out of range. Files of the 1989 format are left out. *)
Definition fsteff (h : Z) (s : sys) : option (Z * sys) :=
  match w_file (s_w s) (hidx (s_w s) h) with
  | None => Some (ERR_BAD_HNDL, s)
  | Some f => if f_std f then step (OpDel h) s else Some (ERR_NO_FILE, s)
  end.

(** c_fstnbrv: fstd98.c 2583-2609, of a unit that is open ([None]: not open,
    where the file would be opened and closed). *)
Definition fstnbrv (iun : Z) (s : sys) : option Z :=
  i <- file_index (s_w s) iun ;; f <- w_file (s_w s) i ;; Some (int32 (hget (f_hdr f) H_NREC)).

(** Arguments of c_fst_edit_dir_plus: fstd98.c 1387-1408; ni, nj, nk and datyp
    are left out, as they are not used. *)
Record edit := mkedit {
  x_date : Z; x_deet : Z; x_npas : Z; x_ip1 : Z; x_ip2 : Z; x_ip3 : Z;
  x_typvar : list Z; x_nomvar : list Z; x_etiket : list Z; x_grtyp : list Z;
  x_ig1 : Z; x_ig2 : Z; x_ig3 : Z; x_ig4 : Z }.

(** fstd98.c 1442-1450, 1464-1507: strcmp with a string of blanks after the copy
    in one, and the assignments to the bit fields of the entry. *)
Definition edit_keys (x : edit) (k : keys) : keys :=
  let num v old := if v =? -1 then old else v in
  let blanks n t := if list_eq_dec Z.eq_dec (padded n t) (repeat 32 n) then true else false in
  let txt n t i m old := if blanks n t : bool then old else six (padded n t) i m in
  let et i m old := txt 12%nat (x_etiket x) i m old in
  let g := nth 0 (padded 1 (x_grtyp x)) 0 in
  mkkeys (num (x_deet x) (k_deet k)) (k_nbits k) (k_ni k) (if g =? 32 then k_gtyp k else g)
         (k_nj k) (k_datyp k) (k_nk k) (k_ubc k)
         (num (x_npas x) (k_npas k)) (k_pad7 k) (num (x_ig4 x) (k_ig4 k)) (if x_ig2 x =? -1 then k_ig2a k else Z.shiftr (x_ig2 x) 16)
         (num (x_ig1 x) (k_ig1 k)) (if x_ig2 x =? -1 then k_ig2b k else Z.shiftr (x_ig2 x) 8)
         (num (x_ig3 x) (k_ig3 k)) (if x_ig2 x =? -1 then k_ig2c k else Z.land (x_ig2 x) 0xff)
         (et 0%nat 5%nat (k_etik15 k)) (k_pad1 k) (et 5%nat 5%nat (k_etik6a k)) (k_pad2 k)
         (et 10%nat 2%nat (k_etikbc k)) (txt 2%nat (x_typvar x) 0%nat 2%nat (k_typvar k)) (k_pad3 k)
         (txt 4%nat (x_nomvar x) 0%nat 4%nat (k_nomvar k)) (k_pad4 k)
         (num (x_ip1 x) (k_ip1 k)) (k_levtyp k) (num (x_ip2 x) (k_ip2 k)) (k_pad5 k) (num (x_ip3 x) (k_ip3 k)) (k_pad6 k)
         (if x_date x =? -1 then k_date k else octal_date (x_date x)).
Definition edit_entry (x : edit) (e : list Z) : list Z := firstn 2 e ++ key_words (edit_keys x (keys_of (skipn 2 e))).

(** c_fst_edit_dir_plus: fstd98.c 1425-1515. [None]: no open file at that index
    (1432), no such page (1461: the page number may be the number of pages),
    record number out of the page (1461), an entry that is not of 18 words, or
    an int product that overflows (crack_std_parms, 1509). Sequential files are
    left out. *)
Definition fst_edit (h : Z) (x : edit) (s : sys) : option (Z * sys) :=
  let w := s_w s in
  f <- w_file w (hidx w h) ;;
  if negb (f_std f) then Some (ERR_NO_FILE, s) else
  if (length (f_pages f) <? hpage h)%nat then Some (ERR_BAD_PAGENO, s) else
  p <- nth_error (f_pages f) (hpage h) ;;
  e <- nth_error (p_ents p) (hrec h) ;;
  if negb (length e =? 18)%nat then None else
  let e' := edit_entry x e in
  _ <- crack (keys_of (skipn 2 e')) ;;
  let p' := p_setmod (p_setent p (hrec h) e') true in
  Some (0, mksys (setf w (hidx w h) (Some (f_setmod (f_setpages f (upd (f_pages f) (hpage h) p')) true))) (s_fs s)).

(** ** Vocabulary *)

Definition every_record : query := mkquery (-1) [] (-1) (-1) (-1) [] [].
Definition no_filter : Z -> bool := fun _ => true.

(** -1 and blanks: not to be changed. *)
Definition new_number (v old : Z) : Z := if v =? -1 then old else v.
Definition new_text (n : nat) (t old : list Z) : list Z := if blank (blank_filled n t) then old else kept n t.

(** The parameters [d'] after the edit [x] of a record of parameters [d]. The
    date is the date of validity; that of origin follows from it and from the
    time elapsed. *)
Definition edited (x : edit) (d d' : desc) : Prop :=
  (d_ni d', d_nj d', d_nk d') = (d_ni d, d_nj d, d_nk d) /\ (d_nbits d', d_datyp d') = (d_nbits d, d_datyp d) /\
  d_deet d' = new_number (x_deet x) (d_deet d) /\ d_npas d' = new_number (x_npas x) (d_npas d) /\
  (d_ip1 d' = new_number (x_ip1 x) (d_ip1 d) /\ d_ip2 d' = new_number (x_ip2 x) (d_ip2 d) /\ d_ip3 d' = new_number (x_ip3 x) (d_ip3 d)) /\
  (d_ig1 d' = new_number (x_ig1 x) (d_ig1 d) /\ d_ig2 d' = new_number (x_ig2 x) (d_ig2 d) /\
   d_ig3 d' = new_number (x_ig3 x) (d_ig3 d) /\ d_ig4 d' = new_number (x_ig4 x) (d_ig4 d)) /\
  d_typvar d' = new_text 2 (x_typvar x) (d_typvar d) /\ d_nomvar d' = new_text 4 (x_nomvar x) (d_nomvar d) /\
  d_etiket d' = new_text 12 (x_etiket x) (d_etiket d) /\
  d_grtyp d' = (if blank (blank_filled 1 (x_grtyp x)) then d_grtyp d else blank_filled 1 (x_grtyp x)) /\
  d_datev d' = new_number (x_date x) (d_datev d) /\
  (x_date x = -1 -> d_deet d' * d_npas d' = d_deet d * d_npas d -> d_dateo d' = d_dateo d) /\
  (d_deet d' * d_npas d' = 0 -> d_dateo d' = d_datev d') /\
  (forall o v, 0 < d_deet d' * d_npas d' -> stamps (d_datev d') v -> stampable o -> valid_at o v (d_deet d' * d_npas d') -> stamps (d_dateo d') o).

(** The numbers are those that fit in their place, the texts are printable; the
    date as in [date_ok]. *)
Definition edit_ok (x : edit) : Prop :=
  (x_date x = -1 \/ - 2 ^ 31 <= x_date x < 2 ^ 31 /\ x_date x mod 2 ^ 32 mod 10 <= 7) /\
  -1 <= x_deet x < 2 ^ 24 /\ -1 <= x_npas x < 2 ^ 26 /\
  (-1 <= x_ip1 x < 2 ^ 28 /\ -1 <= x_ip2 x < 2 ^ 28 /\ -1 <= x_ip3 x < 2 ^ 28) /\
  (-1 <= x_ig1 x < 2 ^ 24 /\ -1 <= x_ig2 x < 2 ^ 24 /\ -1 <= x_ig3 x < 2 ^ 24 /\ -1 <= x_ig4 x < 2 ^ 24) /\
  Forall printable (x_typvar x) /\ Forall printable (x_nomvar x) /\ Forall printable (x_etiket x) /\ Forall printable (x_grtyp x).

(** Histories of the calls of XdfHist.v and of edits. An edit is to be given the
    handle of a record, possibly a deleted one, of a file that may be written. *)
Inductive call := Call (o : op) | Edit (h : Z) (x : edit).
Definition do (a : call) (s : sys) : option (Z * sys) := match a with Call o => step o s | Edit h x => fst_edit h x s end.
Definition ok_call (s : sys) (a : call) : Prop :=
  match a with
  | Call o => ok_op s o
  | Edit h x => edit_ok x /\ forall f, w_file (s_w s) (hidx (s_w s) h) = Some f ->
      writable f /\ exists p, nth_error (f_pages f) (hpage h) = Some p /\ Z.of_nat (hrec h) < p_nent p
  end.
Inductive calls (A : sys -> call -> Prop) : sys -> list (call * Z) -> sys -> Prop :=
| calls_nil s : calls A s [] s
| calls_cons s a c s1 l s2 : ok_call s a -> A s a -> do a s = Some (c, s1) -> calls A s1 l s2 -> calls A s ((a, c) :: l) s2.
Definition all_calls (s : sys) (a : call) : Prop := True.
Definition reached (s : sys) : Prop := exists l, calls all_calls init_sys l s.

(** Calls that do not delete, rewrite or edit record [r] of page [k] of file
    [p], and calls that do not create the file anew. *)
Definition leaves (p k r : nat) (s : sys) (a : call) : Prop :=
  match a with Call o => spares p k r s o | Edit h _ => ~ designates s h p k r end.
Definition keeps (p : nat) (s : sys) (a : call) : Prop :=
  match a with Call o => keeps_file p s o | Edit _ _ => True end.
