(** Vocabulary of the theorems about XDF files: histories of calls, what a
    handle designates, what reading it gives. *)
From Coq Require Import ZArith List Lia Bool.
From Verif Require Import Bits Handles WaFile Xdf XdfSearch XdfOpen XdfHist XdfInv XdfAbs XdfCreate XdfPut4 XdfSys.
Import ListNotations.
Open Scope Z_scope.

(** A history: a sequence of calls with the codes they returned, each within
    its conditions of use ([ok_op]) and satisfying [A]. *)
Inductive hist (A : sys -> op -> Prop) : sys -> list (op * Z) -> sys -> Prop :=
| hist_nil s : hist A s [] s
| hist_cons s o c s1 l s2 : ok_op s o -> A s o -> step o s = Some (c, s1) -> hist A s1 l s2 -> hist A s ((o, c) :: l) s2.

Definition any (s : sys) (o : op) : Prop := True.

(** States reached by a history that starts without any file. *)
Definition reach (s : sys) : Prop := exists l, hist any init_sys l s.

(** Handle of record [r] of directory page [k] of the file open in slot [i]. *)
Definition rec_handle (i k r : nat) : Z := make_rnd_handle (Z.of_nat k) (Z.of_nat r) (Z.of_nat i).

(** File [p] is open in slot [i] and its directory has an entry [r] in page
    [k]. *)
Definition has_entry (s : sys) (p i k r : nat) : Prop :=
  s_fs s p = Opened i /\ exists f pg, w_file (s_w s) i = Some f /\ nth_error (f_pages f) k = Some pg /\ Z.of_nat r < p_nent pg.

(** Reading a handle, with any buffer that is large enough, gives [ws] and
    leaves the rest of the buffer alone. *)
Definition reads (w : world) (h : Z) (ws : list Z) : Prop :=
  Z.of_nat (length ws) < 2 ^ 26 /\
  forall buf, takes buf (length ws) ->
  exists b, xdfget w h buf = Some (0, b) /\ b_nbits b = 32 * Z.of_nat (length ws) /\ b_data b = ws ++ skipn (length ws) (b_data buf).

(** Handle [h] designates record [r] of page [k] of file [p]. *)
Definition designates (s : sys) (h : Z) (p k r : nat) : Prop :=
  s_fs s p = Opened (hidx (s_w s) h) /\ hpage h = k /\ hrec h = r.

(** Calls that may delete or rewrite that record. *)
Definition touches (p k r : nat) (s : sys) (o : op) : Prop :=
  match o with
  | OpCreate _ q _ _ _ _ _ _ => q = p
  | OpPut _ _ h _ => h <> 0 /\ designates s (Z.abs h) p k r
  | OpDel h => designates s h p k r
  | _ => False
  end.
Definition spares (p k r : nat) (s : sys) (o : op) : Prop := ~ touches p k r s o.

Definition keeps_file (p : nat) (s : sys) (o : op) : Prop :=
  match o with OpCreate _ q _ _ _ _ _ _ => q <> p | _ => True end.

(** The words that c_xdfput writes: the caller's, the first two being the
    record type kept, the length and the address. *)
Definition put_words (buf : buffer) (addr : Z) : list Z :=
  let n := b_nbits buf / 32 in
  mk_hd (w_idtyp (nth 0 (b_data buf) 0)) (n / 2) :: addr :: skipn 2 (firstn (Z.to_nat n) (b_data buf)).

(** Repeating a call that takes the handle where to go on from and gives the
    next one, until it answers that nothing more is found. *)
Inductive enumerates (call : world -> Z -> option (Z * world)) : world -> Z -> list Z -> world -> Prop :=
| enum_end w h w' : call w h = Some (ERR_NOT_FOUND, w') -> enumerates call w h [] w'
| enum_more w h h' w' l w'' : call w h = Some (h', w') -> 0 < h' -> enumerates call w' h' l w'' -> enumerates call w h (h' :: l) w''.

(** Positions (page, record) of the entries of a directory, in order, given
    the number of entries of each page. *)
Definition positions (ns : list nat) : list (nat * nat) :=
  flat_map (fun kn => map (fun r => (fst kn, r)) (seq 0 (snd kn))) (combine (seq 0 (length ns)) ns).
Definition page_sizes (f : fte) : list nat := map (fun p => Z.to_nat (p_nent p)) (f_pages f).

(** Entry [e] is not deleted and its [n] key words agree with [keys] on the
    bits of [msk]. *)
Definition key_match (n : nat) (keys msk e : list Z) : bool :=
  (1 <=? e_idtyp e) && (e_idtyp e <=? 125) &&
  forallb (fun j => Z.land (Z.lxor (nth (2 + j) e 0) (nth j keys 0)) (nth j msk 0) =? 0) (seq 0 n).

Definition entry_words (f : fte) (k r : nat) : list Z :=
  match nth_error (f_pages f) k with Some p => nth r (p_ents p) [] | None => [] end.

(** The parts of an open file: its header, directory page [k], record [r] of
    page [k] (deleted ones included); and the words [a, a + n) each occupies on
    disk, counted from 0. *)
Inductive part := Header | Page (k : nat) | Body (k r : nat).
Definition occupies (f : fte) (x : part) (a n : Z) : Prop :=
  match x with
  | Header => a = 0 /\ n = Z.of_nat (length (f_hdr f))
  | Page k => exists p, nth_error (f_pages f) k = Some p /\ a = 2 * (p_addr p - 1) /\ n = Z.of_nat (length (p_words p))
  | Body k r => exists p e, nth_error (f_pages f) k = Some p /\ Z.of_nat r < p_nent p /\ nth_error (p_ents p) r = Some e /\
                            a = 2 * (e_addr e - 1) /\ n = 2 * e_lng e
  end.

(** Number of entries, and of entries that are not deleted. *)
Definition live_entry (e : list Z) : bool := (1 <=? e_idtyp e) && (e_idtyp e <=? 125).
Definition n_entries (f : fte) : Z := Z.of_nat (length (positions (page_sizes f))).
Definition n_live (f : fte) : Z :=
  Z.of_nat (length (filter (fun s => live_entry (entry_words f (fst s) (snd s))) (positions (page_sizes f)))).

(** Calls that do not write the directory of file [p] to disk. *)
Definition no_sync (p : nat) (s : sys) (o : op) : Prop :=
  match o with
  | OpCkpt _ iun | OpClose _ iun => forall i f, s_fs s p = Opened i -> w_file (s_w s) i = Some f -> f_iun f <> iun
  | _ => True
  end.
(** Calls that do not rewrite a record in its place. *)
Definition no_rewrite (s : sys) (o : op) : Prop := match o with OpPut _ _ h _ => h <= 0 | _ => True end.

(** Disk found after a crash: [n] writes done, and the first [m] words of the
    next one. *)
Definition crash (d : disk) (log : list (Z * list Z)) (n m : nat) : disk :=
  let d1 := fold_left (fun d w => write_at d (Z.to_nat (fst w - 1)) (snd w)) (firstn n log) d in
  match nth_error log n with
  | Some (off, ws) => write_at d1 (Z.to_nat (off - 1)) (firstn m ws)
  | None => d1
  end.

(** Opening disk [d], in any mode, succeeds, announces [n] records and gives
    the directory [A]. *)
Definition opens_as (d : disk) (n : Z) (A : nat -> nat -> option (option (list Z * list Z))) : Prop :=
  forall junk iun ro std kp mode, kp_ok kp -> (std = true -> nth 3 d 0 = STDR \/ nth 3 d 0 = STDS) ->
  exists f, xdfopn junk iun ro std kp d mode = Some (Go (n, f)) /\ (forall k r, abs f k r = A k r) /\
            Forall (fun p => checksum_ok p = true) (f_pages f).
