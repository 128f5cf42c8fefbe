(** Property C33: restoring a file with c_qdfrstr. *)
From Coq Require Import ZArith List Lia Bool.
From Verif Require Import Bits Handles WaFile Xdf XdfLib XdfSearch XdfOpen XdfHist XdfInv XdfPut4 XdfAbs XdfCreate XdfSys XdfSys2 XdfSpec XdfThm XdfThm2 XdfCrash XdfThm3 XdfDemo XdfRstr XdfRstrThm.
Import ListNotations.
Open Scope Z_scope.

(** The words up to the registered size (word 4, in 64-bit units) are those of
    the input with word 14, the write flag, cleared; what the output held
    beyond is left. Whatever the length and the number of chunks it takes. *)
Theorem c33_words : forall junk inp outp, let size := nth 4 inp 0 in let lng := w_lng (nth 0 inp 0) in
  nth 2 inp 0 = XDF0 \/ nth 2 inp 0 = XDF0_lc -> 8 <= lng <= 1032 -> lng <= size < 2 ^ 30 -> 2 * size <= Z.of_nat (length inp) ->
  exists out, qdfrstr junk inp outp = Some (Go out) /\
    (forall k, Z.of_nat k < 2 * size -> nth_error out k = if Nat.eqb k 14 then Some 0 else nth_error inp k) /\
    (forall k, 2 * size <= Z.of_nat k -> nth_error out k = nth_error outp k).
Proof.
  intros junk inp outp size lng MG L1 L2 L3. eexists. split; [apply qdfrstr_spec; unfold restorable, dsize; fold size; fold lng; tauto|]. fold size.
  set (n := Z.to_nat (2 * size)). assert (LF : length (firstn n inp) = n) by (rewrite firstn_length; lia). split; intros k K.
  - rewrite nth_error_app1 by (rewrite upd_length, LF; lia). rewrite upd_nth, LF, nth_firstn.
    rewrite (proj2 (Nat.ltb_lt 14 n)), (proj2 (Nat.ltb_lt k n)), andb_true_r by lia. reflexivity.
  - rewrite nth_error_app2 by (rewrite upd_length, LF; lia). rewrite upd_length, LF, nth_skipn. f_equal. lia.
Qed.
Print Assumptions c33_words.

(** A program stops, at any point, after a checkpoint (and calls that neither
    close the file nor checkpoint it again, nor rewrite records in place): the
    write flag is set on disk, the file cannot be opened for writing (C27);
    restored, it opens in any mode with the records of the checkpoint. *)
Theorem c33_after_checkpoint : forall s junk p i f s1 l s2 rjunk outp, reach s -> s_fs s p = Opened i -> w_file (s_w s) i = Some f -> writable f ->
  Z.of_nat (length (f_hdr f)) <= HDR_WORDS -> ok_op s (OpCkpt junk (f_iun f)) -> step (OpCkpt junk (f_iun f)) s = Some (0, s1) ->
  hist (fun s o => no_sync p s o /\ (hget (f_hdr f) H_RWFLG = APPEND \/ no_rewrite s o)) s1 l s2 ->
  exists f1 f2 lg, w_file (s_w s1) i = Some f1 /\ w_file (s_w s2) i = Some f2 /\ f_log f2 = f_log f1 ++ lg /\ f_disk f2 = crash (f_disk f1) lg (length lg) 0 /\
  forall n m, exists out, qdfrstr rjunk (crash (f_disk f1) lg n m) outp = Some (Go out) /\ opens_as out (n_live f) (abs f).
Proof. intros s junk p i f s1 l s2 rjunk outp R. apply restore_checkpoint. exact (reach_wf _ R). Qed.
Print Assumptions c33_after_checkpoint.

(** The same for a close stopped just before its last write. *)
Theorem c33_interrupted_close : forall s p i f junk f' rjunk outp, reach s -> s_fs s p = Opened i -> w_file (s_w s) i = Some f -> writable f ->
  Z.of_nat (length (f_hdr f)) <= HDR_WORDS -> xdfcls junk false f = Some f' ->
  exists ws out, f_log f' = f_log f ++ ws /\ (2 <= length ws)%nat /\ f_disk f' = crash (f_disk f) ws (length ws) 0 /\
    qdfrstr rjunk (crash (f_disk f) ws (length ws - 1) 0) outp = Some (Go out) /\ opens_as out (n_live f) (abs f).
Proof. intros s p i f junk f' rjunk outp R. apply restore_close. exact (reach_wf _ R). Qed.
Print Assumptions c33_interrupted_close.

(** Stopped after the first write of a close, the header is ahead of the
    directory: the restored file opens, announces the record and does not have
    it. *)
Definition demo_r : list op := [demo_create 0 10; demo_put 10 100 200 1 2].
Definition demo_early : option (res (Z * fte)) :=
  match w_file (s_w (final demo_r)) 1 with
  | Some f => match qdfrstr zeros (crash (f_disk f) [(1, f_hdr f)] 1 0) [] with
              | Some (Go d) => xdfopn zeros 10 false false std_kp d RWMODE
              | _ => None
              end
  | None => None
  end.
Theorem c33_early_refuted : reach (final demo_r) /\ codes demo_r = [0; 0] /\
  match w_file (s_w (final demo_r)) 1 with
  | Some f => n_live f = 1 /\ match xdfcls zeros false f with Some f' => nth (length (f_log f)) (f_log f') (0, []) = (1, f_hdr f) | None => False end
  | None => False
  end /\
  match demo_early with Some (Go (n, f)) => n = 1 /\ n_live f = 0 | _ => False end.
Proof.
  split; [apply final_reach; unfold demo_r, demo_create, demo_put; repeat constructor|]. split; [vm_compute; reflexivity|]. split.
  - vm_compute. split; reflexivity.
  - vm_compute. split; reflexivity.
Qed.
Print Assumptions c33_early_refuted.

(** A file cut short (registered size beyond its end): no error is reported
    and the missing words become zeros. *)
Definition cut_file : disk := [8; 0; XDF0; 0; 100; 0; 0; 0; 0; 0; 0; 0; 0; 0; 1; 0; 7; 7].
Theorem c33_cut_refuted : length cut_file = 18%nat /\
  qdfrstr zeros cut_file [] = Some (Go ([8; 0; XDF0; 0; 100; 0; 0; 0; 0; 0; 0; 0; 0; 0; 0; 0; 7; 7] ++ repeat 0 182)).
Proof. split; vm_compute; reflexivity. Qed.
Print Assumptions c33_cut_refuted.

Example c33_demo : nth 2 cut_file 0 = XDF0 /\ w_lng (nth 0 cut_file 0) = 8 /\
  let inp := firstn 4 cut_file ++ [9] ++ skipn 5 cut_file in 2 * nth 4 inp 0 = Z.of_nat (length inp).
Proof. vm_compute. auto. Qed.
Example c33_demo_ckpt : let ops := demo_r ++ [OpCkpt zeros 10; demo_put 10 101 201 3 4] in
  codes ops = [0; 0; 0; 0] /\
  match w_file (s_w (final (firstn 3 ops))) 1, w_file (s_w (final ops)) 1 with
  | Some f, Some g => length (f_hdr f) = 20%nat /\ hget (f_hdr f) H_RWFLG = CREATE /\ n_live f = 1 /\ length (f_log g) = S (length (f_log f)) /\
      match qdfrstr zeros (crash (f_disk f) (skipn (length (f_log f)) (f_log g)) 0 1) [] with
      | Some (Go d) => match xdfopn zeros 10 false false std_kp d RWMODE with Some (Go (n, h)) => n = 1 /\ n_live h = 1 | _ => False end
      | _ => False
      end
  | _, _ => False
  end.
Proof. vm_compute. repeat split; reflexivity. Qed.
