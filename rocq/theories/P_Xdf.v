(** Properties C20-C28: random XDF files.

    [reach s]: state [s] is reached from the empty system by a history of
    calls (create, open, put, delete, search, checkpoint, close) on any number
    of files, each call within its conditions of use ([ok_op], XdfSys.v).
    Reading: [reads], c_xdfget with any buffer large enough; c_xdfprm:
    [xdfprm]; searching: [xdfloc2]. *)
From Coq Require Import ZArith List Lia Bool.
From Verif Require Import Bits Handles WaFile Xdf XdfLib XdfSearch XdfOpen XdfHist XdfInv XdfDel XdfPut XdfPut2 XdfPut3 XdfPut4 XdfAbs XdfCreate XdfSys XdfSys2 XdfSpec XdfSta XdfThm XdfThm2 XdfEnum XdfCrash XdfThm3 XdfDemo.
Import ListNotations.
Open Scope Z_scope.

(** ** C20 *)

(** The words put are read back, through any later history of calls (closing
    and opening again included) that does not delete or rewrite the record or
    recreate the file. *)
Theorem c20_put_then_read : forall s junk iun handle buf s1, reach s -> ok_op s (OpPut junk iun handle buf) ->
  step (OpPut junk iun handle buf) s = Some (0, s1) ->
  exists p i k r addr, s_fs s1 p = Opened i /\ (handle = 0 -> forall j, ~ has_entry s p j k r) /\
    reads (s_w s1) (rec_handle i k r) (put_words buf addr) /\
    forall l s2 j, hist (spares p k r) s1 l s2 -> s_fs s2 p = Opened j -> reads (s_w s2) (rec_handle j k r) (put_words buf addr).
Proof.
  intros s junk iun handle buf s1 R OK ST. pose proof (reach_wf _ R) as W. pose proof (proj1 (step_spec _ _ _ _ W OK ST)) as W1.
  destruct (put_spec _ _ _ _ _ _ W OK ST) as (p & i & f & k & r & e & P & F & IU & SA & EK & NEW & _).
  exists p, i, k, r, (w32 (e_addr e)). split; [exact P|]. split; [|split; [exact (reads_live _ _ _ _ _ _ _ W1 P SA)|]].
  - intros H0 j HE. destruct (has_entry_ent _ _ _ _ _ W HE) as (g & e' & _ & E & S). rewrite (NEW H0) in S. unfold abs in S. rewrite E in S. destruct (live e'); discriminate.
  - intros l s2 j H P2. pose proof (hist_frame _ _ _ _ _ _ _ W1 H SA) as S2. exact (reads_live _ _ _ _ _ _ _ (hist_wf _ _ _ _ H W1) P2 S2).
Qed.
Print Assumptions c20_put_then_read.

(** In a file with standard keys, c_xdfprm returns the keys, length and type
    that the record was put with, in the same way. *)
Theorem c20_keys : forall s junk iun handle buf s1, reach s -> ok_op s (OpPut junk iun handle buf) ->
  step (OpPut junk iun handle buf) s = Some (0, s1) ->
  exists p i k r f addr, s_fs s1 p = Opened i /\ w_file (s_w s) i = Some f /\ f_iun f = iun /\
    (f_kp f = std_kp -> forall l s2 j g, hist (spares p k r) s1 l s2 -> s_fs s2 p = Opened j -> w_file (s_w s2) j = Some g -> f_kp g = std_kp ->
     xdfprm (s_w s2) (rec_handle j k r) =
       Some (Go (addr, b_nbits buf / 32 / 2, w_idtyp (nth 0 (b_data buf) 0), firstn (2 * (f_plen f - 1)) (skipn 2 (b_data buf))))).
Proof.
  intros s junk iun handle buf s1 R OK ST. pose proof (reach_wf _ R) as W. pose proof (proj1 (step_spec _ _ _ _ W OK ST)) as W1.
  destruct (put_spec _ _ _ _ _ _ W OK ST) as (p & i & f & k & r & e & P & F & IU & SA & EK & NEW & _).
  exists p, i, k, r, f, (e_addr e). split; [exact P|]. split; [exact F|]. split; [exact IU|].
  intros KP l s2 j g H P2 G KG. pose proof (hist_frame _ _ _ _ _ _ _ W1 H SA) as S2. pose proof (hist_wf _ _ _ _ H W1) as W2.
  rewrite (sabs_open _ _ _ _ P2 G) in S2. unfold abs in S2. destruct (ent g k r) as [e'|] eqn:E; [|discriminate]. destruct (live e'); [|discriminate].
  assert (e' = e) as -> by congruence. rewrite (xdfprm_entry _ _ _ _ _ _ _ W2 P2 G KG E). pose proof (EK KP) as EE.
  pose proof OK as ((_ & B2 & _ & B4) & _). set (t := w_idtyp (nth 0 (b_data buf) 0)) in *. set (n := b_nbits buf / 32) in *.
  assert (E1 : e_lng e = n / 2). { rewrite EE. unfold e_lng. cbn [nth]. rewrite hd_lng. apply Z.mod_small. split; [apply Z.div_pos; lia|]. apply Z.div_lt_upper_bound; lia. }
  assert (E2 : e_idtyp e = t). { rewrite EE. unfold e_idtyp. cbn [nth]. rewrite hd_idtyp. apply Z.mod_small. lia. }
  rewrite E1, E2. do 3 f_equal. rewrite EE. reflexivity.
Qed.
Print Assumptions c20_keys.

(** Every other record stays as it is: a record that reads [ws] goes on
    reading [ws] through any history of calls that spares it. *)
Theorem c20_other_records : forall s p i k r ws l s2 j, reach s -> has_entry s p i k r -> reads (s_w s) (rec_handle i k r) ws ->
  hist (spares p k r) s l s2 -> s_fs s2 p = Opened j -> reads (s_w s2) (rec_handle j k r) ws.
Proof.
  intros s p i k r ws l s2 j R HE RD H P2. pose proof (reach_wf _ R) as W. destruct (reads_inv _ _ _ _ _ _ W HE RD) as (e & SA).
  exact (reads_live _ _ _ _ _ _ _ (hist_wf _ _ _ _ H W) P2 (hist_frame _ _ _ _ _ _ _ W H SA)).
Qed.
Print Assumptions c20_other_records.

(** A concrete history: three records put, the second deleted, closed, opened
    again for appending, a record added. *)
Definition demo : list op :=
  [demo_create 0 10; demo_put 10 100 200 1 2; demo_put 10 101 201 3 4; demo_put 10 102 202 5 6; demo_all 10 0; demo_next 10; demo_next 10; demo_next 10;
   OpDel 1025; demo_all 10 0; demo_all 10 1; demo_all 10 2049; OpClose zeros 10; OpOpen zeros 0 10 false false std_kp APPEND; demo_put 10 103 203 8 9;
   demo_all 10 2049].
Example c20_demo : reach (final demo) /\ codes demo = [0; 0; 0; 0; 1; 1025; 2049; -12; 0; 1; 2049; -12; 0; 2; 0; 3073].
Proof. split; [|vm_compute; reflexivity]. apply final_reach. unfold demo, demo_create, demo_put, demo_all, demo_next. repeat constructor. Qed.
Example c20_demo_read :
  match xdfget (s_w (final demo)) 2049 (demo_buf 10 0 0 0 0) with Some (0, b) => Some (firstn 6 (b_data b)) | _ => None end = Some [2 ^ 24 + 3; 533; 102; 202; 5; 6] /\
  match xdfget (s_w (final demo)) 3073 (demo_buf 10 0 0 0 0) with Some (0, b) => Some (skipn 2 (firstn 6 (b_data b))) | _ => None end = Some [103; 203; 8; 9].
Proof. split; vm_compute; reflexivity. Qed.

(** ** C21 *)

(** Searching from handle 0 and continuing with each handle returned gives
    exactly the live records whose keys agree with [keys] on the bits of [msk]
    (and accepted by the caller's filter), in the order of the directory, each
    once; and then ERR_NOT_FOUND. For files with standard keys. *)
Theorem c21_search_by_handle : forall s p i f junk filt keys nprim msk, reach s -> s_fs s p = Opened i -> w_file (s_w s) i = Some f -> f_kp f = std_kp ->
  let n := (2 * (f_plen f - 1))%nat in
  nprim <> 0 -> (n <= length keys)%nat -> (n <= length msk)%nat -> all_words msk ->
  let found := map (fun x => rec_handle i (fst x) (snd x))
    (filter (fun x => key_match n keys msk (entry_words f (fst x) (snd x)) && filt (rec_handle i (fst x) (snd x))) (positions (page_sizes f))) in
  let call := fun w h => xdfloc2 (S MAX_DIR_PAGES) junk filt w (f_iun f) h keys nprim (Some msk) in
  (exists w, enumerates call (s_w s) 0 found w) /\ (forall l w, enumerates call (s_w s) 0 l w -> l = found) /\ NoDup found.
Proof.
  intros s p i f junk filt keys nprim msk R P F KP n NP LP LM WM found call. pose proof (reach_wf _ R) as W.
  destruct (search_spec s p i f junk filt keys nprim msk W P F KP NP LP LM WM false) as (w & E). cbn [andb] in E.
  split; [exists w; exact E|]. split; [intros l w2 E2; apply (enum_det _ _ _ _ _ E _ _ E2)|]. exact (matching_nodup s i f filt (keys_eq n keys msk) W F).
Qed.
Print Assumptions c21_search_by_handle.

(** The same, continuing with handle -1 and no keys (c_fstsui). *)
Theorem c21_search_next : forall s p i f junk filt keys nprim msk, reach s -> s_fs s p = Opened i -> w_file (s_w s) i = Some f -> f_kp f = std_kp ->
  let n := (2 * (f_plen f - 1))%nat in
  nprim <> 0 -> (n <= length keys)%nat -> (n <= length msk)%nat -> all_words msk ->
  let found := map (fun x => rec_handle i (fst x) (snd x))
    (filter (fun x => key_match n keys msk (entry_words f (fst x) (snd x)) && filt (rec_handle i (fst x) (snd x))) (positions (page_sizes f))) in
  let call := fun w h => if h =? 0 then xdfloc2 (S MAX_DIR_PAGES) junk filt w (f_iun f) 0 keys nprim (Some msk)
                         else xdfloc2 (S MAX_DIR_PAGES) junk filt w (f_iun f) (-1) [] 0 None in
  exists w, enumerates call (s_w s) 0 found w.
Proof.
  intros s p i f junk filt keys nprim msk R P F KP n NP LP LM WM found call. pose proof (reach_wf _ R) as W.
  destruct (search_spec s p i f junk filt keys nprim msk W P F KP NP LP LM WM true) as (w & E). exists w.
  assert (X : forall c1 c2 w0 h l w1, (forall w h, c1 w h = c2 w h) -> enumerates c1 w0 h l w1 -> enumerates c2 w0 h l w1).
  { intros c1 c2 w0 h l w1 EQ. induction 1; [apply enum_end|eapply enum_more; [|eassumption|eassumption]]; rewrite <- EQ; assumption. }
  eapply X; [|exact E]. intros w0 h. unfold call, search. cbn [andb]. destruct (Z.eqb_spec h 0) as [->|]; reflexivity.
Qed.
Print Assumptions c21_search_next.

(** Continuing with -1 does not survive a put on the same file: the search of
    [demo2] found record 0; record 1 matches, but after a put the next search
    answers ERR_NO_POS. *)
Definition demo2 : list op := [demo_create 0 10; demo_put 10 100 200 1 2; demo_put 10 101 201 3 4; demo_all 10 0; demo_put 10 102 202 5 6; demo_next 10].
Theorem c21_next_after_put_refuted : reach (final demo2) /\ codes demo2 = [0; 0; 0; 1; 0; ERR_NO_POS].
Proof. split; [|vm_compute; reflexivity]. apply final_reach. unfold demo2, demo_create, demo_put, demo_all, demo_next. repeat constructor. Qed.
Print Assumptions c21_next_after_put_refuted.

(** ** C22 *)

(** Once deleted, a record stays deleted through every history that does not
    recreate the file: reading it fails and leaves the buffer alone, deleting
    it fails and changes nothing, no search finds it. *)
Theorem c22_deleted_for_good : forall s h s1, reach s -> ok_op s (OpDel h) -> step (OpDel h) s = Some (0, s1) ->
  exists p, s_fs s p = Opened (hidx (s_w s) h) /\
  forall l s2 i f, hist (keeps_file p) s1 l s2 -> s_fs s2 p = Opened i -> w_file (s_w s2) i = Some f ->
    let h2 := rec_handle i (hpage h) (hrec h) in
    (forall buf, xdfget (s_w s2) h2 buf = Some (ERR_DELETED, buf)) /\
    (exists c, c < 0 /\ step (OpDel h2) s2 = Some (c, s2)) /\
    (forall junk filt keys nprim msk l w, f_kp f = std_kp -> nprim <> 0 -> (2 * (f_plen f - 1) <= length keys)%nat ->
       (2 * (f_plen f - 1) <= length msk)%nat -> all_words msk ->
       enumerates (fun w h => xdfloc2 (S MAX_DIR_PAGES) junk filt w (f_iun f) h keys nprim (Some msk)) (s_w s2) 0 l w -> ~ In h2 l).
Proof.
  intros s h s1 R OK ST. pose proof (reach_wf _ R) as W. destruct (step_spec _ _ _ _ W OK ST) as [W1 E]. cbn [effect Z.eqb] in E.
  destruct E as (p & f0 & P & F0 & _ & _ & EFF). exists p. split; [exact P|]. intros l s2 i f H P2 F2 h2.
  assert (SD : sabs s1 p (hpage h) (hrec h) = Some None). { rewrite EFF, Nat.eqb_refl. unfold eq2. rewrite !Nat.eqb_refl. reflexivity. }
  pose proof (hist_dead _ _ _ _ _ _ W1 H SD) as SD2. pose proof (hist_wf _ _ _ _ H W1) as W2.
  split; [intros buf; apply (dead_get s2 p i); assumption|]. split; [apply (dead_del s2 p i); assumption|].
  intros junk filt keys nprim msk l0 w KP NP LP LM WM E.
  destruct (search_spec s2 p i f junk filt keys nprim msk W2 P2 F2 KP NP LP LM WM false) as (w' & E'). cbn [andb] in E'.
  rewrite (proj1 (enum_det _ _ _ _ _ E' _ _ E)). apply (matching_dead s2 p); assumption.
Qed.
Print Assumptions c22_deleted_for_good.

(** Deleting changes no other record of any file. *)
Theorem c22_local : forall s h c s1 p i k r ws, reach s -> ok_op s (OpDel h) -> step (OpDel h) s = Some (c, s1) ->
  has_entry s p i k r -> ~ designates s h p k r -> reads (s_w s) (rec_handle i k r) ws -> reads (s_w s1) (rec_handle i k r) ws.
Proof.
  intros s h c s1 p i k r ws R OK ST HE ND RD.
  assert (H : hist (spares p k r) s [(OpDel h, c)] s1) by (econstructor; [exact OK|exact ND|exact ST|constructor]).
  apply (c20_other_records s p i k r ws _ s1 i R HE RD H). cbn [step] in ST. destruct (xdfdel _ _) as [[c0 w']|]; [|discriminate]. cbn [bind] in ST. injection ST as <- <-. apply HE.
Qed.
Print Assumptions c22_local.

(** A deletion that fails changes nothing. *)
Theorem c22_failure : forall s h c s1, reach s -> ok_op s (OpDel h) -> step (OpDel h) s = Some (c, s1) -> c <> 0 -> s1 = s.
Proof.
  intros s h c s1 R OK ST C. destruct (step_spec _ _ _ _ (reach_wf _ R) OK ST) as [_ E]. cbn [effect] in E. rewrite (proj2 (Z.eqb_neq _ _) C) in E. exact E.
Qed.
Print Assumptions c22_failure.

Example c22_demo : codes (firstn 9 demo) = [0; 0; 0; 0; 1; 1025; 2049; -12; 0] /\ nth 8 demo (demo_next 0) = OpDel 1025.
Proof. split; [vm_compute; reflexivity|reflexivity]. Qed.

(** ** C23 *)

(** c_xdfsta of an open file: word 11 counts the live entries, word 2 all
    entries, word 3 the directory pages. *)
Theorem c23_statistics : forall s p i f d, reach s -> s_fs s p = Opened i -> w_file (s_w s) i = Some f ->
  exists st, xdfsta (s_w s) (f_iun f) d = Some (Go st) /\ length st = 12%nat /\
    nth 11 st 0 = n_live f /\ nth 2 st 0 = n_entries f /\ nth 3 st 0 = Z.of_nat (length (f_pages f)).
Proof.
  intros s p i f d R P F. pose proof (reach_wf _ R) as W. unfold xdfsta. rewrite (file_index_of _ _ _ W F), F. cbn [bind].
  exists (stat_words (f_hdr f)). split; [reflexivity|]. split; [reflexivity|]. apply stats_of. apply (fo_inv _ (wf_fok _ W i f F)).
Qed.
Print Assumptions c23_statistics.

Example c23_demo : match xdfsta (s_w (final demo)) 10 [] with Some (Go st) => map (fun k => nth k st 0) [11; 2; 3]%nat | _ => [] end = [3; 4; 1].
Proof. vm_compute. reflexivity. Qed.

(** ** C24 *)

(** The header, the directory pages and the records (deleted ones included)
    occupy pairwise disjoint parts of the file, all below its registered size
    (stat word 0, in 64-bit units), itself within the file on disk. *)
Theorem c24_disjoint : forall s p i f, reach s -> s_fs s p = Opened i -> w_file (s_w s) i = Some f ->
  (forall x y a n a' n', occupies f x a n -> occupies f y a' n' -> x <> y -> a + n <= a' \/ a' + n' <= a) /\
  (forall x a n, occupies f x a n -> 0 <= a /\ 0 < n /\ a + n <= 2 * nth 0 (stat_words (f_hdr f)) 0) /\
  2 * nth 0 (stat_words (f_hdr f)) 0 <= Z.of_nat (length (f_disk f)).
Proof.
  intros s p i f R P F. pose proof (fo_inv _ (wf_fok _ (reach_wf _ R) i f F)) as FI. pose proof FI as [G _]. split; [|split].
  - intros x y a n a' n' X Y NE. apply (occupies_ext _ _ _ _ FI) in X, Y. apply (g_apart _ _ G _ _ _ _ X Y). intros E. apply NE. apply owner_inj. exact E.
  - intros x a n X. apply (occupies_ext _ _ _ _ FI) in X. exact (g_in _ _ G _ _ _ X).
  - exact (g_size _ _ G).
Qed.
Print Assumptions c24_disjoint.

(** The parts of the demo file: header, one page, four records. *)
Example c24_demo : match w_file (s_w (final demo)) 1 with
  | Some f => (Z.of_nat (length (f_hdr f)), map (fun p => (2 * (p_addr p - 1), Z.of_nat (length (p_words p)))) (f_pages f),
               map (fun x => let e := entry_words f (fst x) (snd x) in (2 * (e_addr e - 1), 2 * e_lng e)) (positions (page_sizes f)))
  | None => (0, [], []) end = (20, [(20, 1032)], [(1052, 6); (1058, 6); (1064, 6); (1070, 6)]).
Proof. vm_compute. reflexivity. Qed.

(** ** C25 *)

(** Closing succeeds, and what it leaves on disk opens again, in any mode,
    with the same entries ([abs]: entry words and data words of the live
    records, which entries exist and are deleted), their number, and correct
    checksums. *)
Theorem c25_close_open : forall s p i f junk, reach s -> s_fs s p = Opened i -> w_file (s_w s) i = Some f ->
  exists s1 d, step (OpClose junk (f_iun f)) s = Some (0, s1) /\ s_fs s1 p = Shut d /\ opens_as d (n_live f) (abs f).
Proof. intros s p i f junk R P F. apply (close_spec s p i f junk (reach_wf _ R) P F). Qed.
Print Assumptions c25_close_open.

Example c25_demo : nth 12 demo (demo_next 0) = OpClose zeros 10 /\ nth 13 demo (demo_next 0) = OpOpen zeros 0 10 false false std_kp APPEND /\
  nth 12 (codes demo) 9 = 0 /\ nth 13 (codes demo) 9 = 2.
Proof. repeat split; vm_compute; reflexivity. Qed.

(** ** C26 *)

(** File [p] is opened (in append mode, or in another mode without rewriting
    records in place); after any history of calls in which it is neither
    closed nor checkpointed, the writes made so far are in the log of the file;
    a crash leaves a prefix of them on disk, the last one possibly cut. The
    disk then opens with the same entries, data and number of records as at the
    beginning. *)
Theorem c26_crash_before_close : forall s junk p iun ro std kp mode c s1 d l s2, reach s -> ok_op s (OpOpen junk p iun ro std kp mode) ->
  s_fs s p = Shut d -> step (OpOpen junk p iun ro std kp mode) s = Some (c, s1) -> 0 <= c ->
  hist (fun s o => no_sync p s o /\ (mode = APPEND \/ no_rewrite s o)) s1 l s2 ->
  exists A, opens_as d c A /\ exists i f, s_fs s2 p = Opened i /\ w_file (s_w s2) i = Some f /\
    f_disk f = crash d (f_log f) (length (f_log f)) 0 /\ forall n m, opens_as (crash d (f_log f) n m) c A.
Proof.
  intros s junk p iun ro std kp mode c s1 d l s2 R OK P ST C H. exists (dabs d).
  apply (crash_before_close s junk p iun ro std kp mode c s1 d l s2 (reach_wf _ R) OK P ST C H).
Qed.
Print Assumptions c26_crash_before_close.

Example c26_demo : nth 14 demo (demo_next 0) = demo_put 10 103 203 8 9 /\ nth 14 (codes demo) 9 = 0 /\
  match w_file (s_w (final demo)) 1 with Some f => length (f_log f) | None => 0%nat end = 1%nat.
Proof. repeat split; vm_compute; reflexivity. Qed.

(** ** C27 *)

(** The writes of c_xdfcls on a file open for writing are [ws]: after the
    first and before the last one, possibly in the middle of one of the others,
    a crash leaves a file that cannot be opened for writing: an error is
    returned. After all of them see C25, before the first C26. A write of the
    header is taken as atomic. *)
Theorem c27_crash_in_close : forall s p i f junk f', reach s -> s_fs s p = Opened i -> w_file (s_w s) i = Some f -> writable f ->
  xdfcls junk false f = Some f' ->
  exists ws, f_log f' = f_log f ++ ws /\ (2 <= length ws)%nat /\ f_disk f' = crash (f_disk f) ws (length ws) 0 /\
    forall n m, (1 <= n < length ws)%nat -> (n = length ws - 1 -> m = 0)%nat ->
    forall junk iun ro std kp mode, mode <> RDMODE -> exists c, c < 0 /\ xdfopn junk iun ro std kp (crash (f_disk f) ws n m) mode = Some (Err c).
Proof. intros s p i f junk f' R. apply (crash_in_close s p i f junk f' (reach_wf _ R)). Qed.
Print Assumptions c27_crash_in_close.

Example c27_demo : match w_file (s_w (final demo)) 1 with
  | Some f => writable f /\ match xdfcls zeros false f with Some f' => length (f_log f') = 4%nat | None => False end
  | None => False end.
Proof. vm_compute. repeat split; discriminate. Qed.

(** ** C28 *)

(** A file opened for reading (or read only): no call but closing it changes
    its words on disk, its directory or its header; closing leaves the words on
    disk. *)
Theorem c28_read_only : forall s o c s1 p i f, reach s -> ok_op s o -> step o s = Some (c, s1) -> s_fs s p = Opened i -> w_file (s_w s) i = Some f ->
  hget (f_hdr f) H_RWFLG = RDMODE \/ f_ro f = true ->
  s_fs s1 p = Shut (f_disk f) \/
  (s_fs s1 p = Opened i /\ exists f', w_file (s_w s1) i = Some f' /\ f_disk f' = f_disk f /\ f_log f' = f_log f /\ f_pages f' = f_pages f /\ f_hdr f' = f_hdr f /\
     (hget (f_hdr f') H_RWFLG = RDMODE \/ f_ro f' = true)).
Proof.
  intros s o c s1 p i f R OK ST P F PR. destruct (step_protected s o c s1 p i f (reach_wf _ R) OK ST P F PR) as [A B].
  assert (D : match o with OpClose _ iun => f_iun f = iun | _ => False end \/ match o with OpClose _ iun => f_iun f <> iun | _ => True end).
  { destruct o; auto. destruct (Z.eq_dec (f_iun f) iun); auto. }
  destruct D as [D|D].
  - left. destruct o; try contradiction. apply A. exact D.
  - right. destruct (B D) as (P1 & f' & F' & X). split; [exact P1|]. exists f'. intuition.
Qed.
Print Assumptions c28_read_only.

(** Putting to it or deleting from it fails. *)
Theorem c28_refused : forall s o c s1 p i f, reach s -> ok_op s o -> step o s = Some (c, s1) -> s_fs s p = Opened i -> w_file (s_w s) i = Some f ->
  hget (f_hdr f) H_RWFLG = RDMODE \/ f_ro f = true ->
  match o with OpPut _ iun _ _ => f_iun f = iun | OpDel h => hidx (s_w s) h = i | _ => False end -> c <> 0 /\ s1 = s.
Proof.
  intros s o c s1 p i f R OK ST P F PR M. pose proof (reach_wf _ R) as W. destruct o; try contradiction; subst.
  - cbn [step] in ST. destruct (xdfput junk (s_w s) (f_iun f) handle buf) as [[[c0 w'] b']|] eqn:X; [|discriminate]. cbn [bind] in ST. injection ST as <- <-.
    destruct (xdfput_ro _ _ _ _ _ _ _ _ _ _ (file_index_of _ _ _ W F) F (protected_not _ PR) X) as (A & -> & _). destruct s. auto.
  - destruct (step_spec _ _ _ _ W OK ST) as [_ E]. cbn [effect] in E. destruct (c =? 0) eqn:C; [|apply Z.eqb_neq in C; auto].
    exfalso. destruct E as (p0 & f0 & P0 & F0 & ND & _). assert (f0 = f) as -> by congruence. unfold no_del in ND. destruct PR as [X|X]; rewrite X in ND; [discriminate|rewrite orb_true_r in ND; discriminate].
Qed.
Print Assumptions c28_refused.

(** Append mode: a record that exists is never changed nor deleted, whatever
    the call; putting with a handle and deleting fail. *)
Theorem c28_append : forall s o c s1 p i f, reach s -> ok_op s o -> step o s = Some (c, s1) -> s_fs s p = Opened i -> w_file (s_w s) i = Some f ->
  hget (f_hdr f) H_RWFLG = APPEND ->
  (forall k r ws j, keeps_file p s o -> has_entry s p i k r -> reads (s_w s) (rec_handle i k r) ws -> s_fs s1 p = Opened j -> reads (s_w s1) (rec_handle j k r) ws) /\
  match o with OpPut _ iun handle _ => f_iun f = iun -> handle <> 0 -> c <> 0 | OpDel h => hidx (s_w s) h = i -> c <> 0 /\ s1 = s | _ => True end.
Proof.
  intros s o c s1 p i f R OK ST P F AP. pose proof (reach_wf _ R) as W. destruct (step_spec _ _ _ _ W OK ST) as [W1 E]. split.
  - intros k r ws j KF HE RD P1. destruct (reads_inv _ _ _ _ _ _ W HE RD) as (e & SA).
    exact (reads_live _ _ _ _ _ _ _ W1 P1 (step_append _ _ _ _ _ _ _ _ _ _ W OK ST KF P F AP SA)).
  - destruct o; try exact Logic.I; cbn [effect] in E.
    + intros IU HZ ->. cbn [Z.eqb] in E. destruct E as (p0 & i0 & f0 & k0 & r0 & e & ws & P0 & FX & F0 & WB & HN & _). subst iun. rewrite (file_index_of _ _ _ W F) in FX.
      assert (f0 = f) as -> by congruence. destruct (HN HZ) as [HA _]. contradiction.
    + intros HI. destruct (c =? 0) eqn:C; [|apply Z.eqb_neq in C; auto]. exfalso. destruct E as (p0 & f0 & P0 & F0 & ND & _). assert (f0 = f) as -> by congruence.
      unfold no_del in ND. rewrite AP in ND. discriminate.
Qed.
Print Assumptions c28_append.

Definition demo_ro : list op := [demo_create 0 10; demo_put 10 100 200 1 2; OpClose zeros 10; OpOpen zeros 0 10 false false std_kp RDMODE; demo_put 10 103 203 8 9; OpDel 1; demo_all 10 0].
Example c28_demo : reach (final demo_ro) /\ codes demo_ro = [0; 0; 0; 1; ERR_NO_WRITE; ERR_RDONLY; 1] /\ codes (demo ++ [OpDel 1]) = codes demo ++ [ERR_RDONLY].
Proof. split; [|split; vm_compute; reflexivity]. apply final_reach. unfold demo_ro, demo_create, demo_put, demo_all. repeat constructor. Qed.
