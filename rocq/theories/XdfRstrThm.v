(** c_qdfrstr: the words of the result, and what opens after it. *)
From Coq Require Import ZArith List Lia Bool.
From Verif Require Import Bits Handles WaFile Xdf XdfLib XdfOpen XdfSearch XdfHist XdfInv XdfDel XdfPut XdfPut2 XdfPut3 XdfPut4 XdfClose XdfClose2 XdfReopen XdfCreate XdfAbs XdfCkpt XdfSys XdfSys2 XdfSpec XdfThm XdfThm2 XdfCrash XdfThm3 XdfRstr.
Import ListNotations.
Open Scope Z_scope.

Lemma write_at_app d i u v : (i <= length d)%nat -> write_at (write_at d i u) (i + length u) v = write_at d i (u ++ v).
Proof.
  intros H. apply nth_error_ext. intros k. rewrite (write_at_nth (write_at d i u)) by (rewrite write_at_length by lia; lia). rewrite !write_at_nth by lia.
  rewrite app_length.
  destruct (Nat.leb_spec i k); cbn [andb].
  - destruct (Nat.ltb_spec k (i + length u)).
    + replace (i + length u <=? k)%nat with false by (symmetry; apply Nat.leb_gt; lia). cbn [andb].
      replace (k <? i + (length u + length v))%nat with true by (symmetry; apply Nat.ltb_lt; lia). rewrite nth_error_app1 by lia. reflexivity.
    + replace (i + length u <=? k)%nat with true by (symmetry; apply Nat.leb_le; lia). cbn [andb].
      replace (i + (length u + length v))%nat with (i + length u + length v)%nat by lia.
      destruct (Nat.ltb_spec k (i + length u + length v)); [|reflexivity]. rewrite nth_error_app2 by lia. f_equal. lia.
  - replace (i + length u <=? k)%nat with false by (symmetry; apply Nat.leb_gt; lia). reflexivity.
Qed.

Lemma range_app d i a b : range d i a ++ range d (i + a) b = range d i (a + b).
Proof.
  apply nth_error_ext. intros k. destruct (Nat.le_gt_cases (i + a) (length d)) as [L|L].
  - pose proof (range_length d i a L) as RL. destruct (Nat.ltb_spec k a).
    + rewrite nth_error_app1 by lia. rewrite !range_nth. rewrite (proj2 (Nat.ltb_lt k a)), (proj2 (Nat.ltb_lt k (a + b))) by lia. reflexivity.
    + rewrite nth_error_app2 by lia. rewrite RL, !range_nth. destruct (Nat.ltb_spec k (a + b)).
      * rewrite (proj2 (Nat.ltb_lt (k - a) b)) by lia. f_equal. lia.
      * rewrite (proj2 (Nat.ltb_ge (k - a) b)) by lia. reflexivity.
  - assert (range d (i + a) b = []) as ->. { unfold range. rewrite (skipn_all2 (n := i + a) d) by lia. apply firstn_nil. }
    rewrite app_nil_r, !range_nth. destruct (Nat.ltb_spec k a).
    + rewrite (proj2 (Nat.ltb_lt k (a + b))) by lia. reflexivity.
    + destruct (k <? a + b)%nat; [|reflexivity]. symmetry. apply nth_error_None. lia.
Qed.

Lemma copy_chunks_spec junk inp : forall n out pos len, 1 <= pos -> pos - 1 <= dsize out -> 0 <= len -> pos + len - 1 <= dsize inp -> len <= BUFLEN * Z.of_nat n ->
  copy_chunks n junk inp out pos len = Some (write_at out (Z.to_nat (pos - 1)) (range inp (Z.to_nat (pos - 1)) (Z.to_nat len))).
Proof.
  induction n; intros out pos len P O L I N.
  - assert (len = 0) as -> by lia. cbn [copy_chunks]. change (0 <=? 0) with true. cbv iota. f_equal. change (Z.to_nat 0) with 0%nat. unfold range, write_at. cbn [firstn app length]. rewrite Nat.add_0_r. symmetry. apply firstn_skipn.
  - cbn [copy_chunks]. destruct (Z.leb_spec len 0) as [E|E].
    + assert (len = 0) as -> by lia. f_equal. change (Z.to_nat 0) with 0%nat. unfold range, write_at. cbn [firstn app length]. rewrite Nat.add_0_r. symmetry. apply firstn_skipn.
    + cbv zeta. set (a := Z.min len BUFLEN). assert (A : 0 < a <= len) by (unfold a, BUFLEN; lia).
      rewrite waread_plain by lia. cbn [bind snd].
      assert (RL : length (range inp (Z.to_nat (pos - 1)) (Z.to_nat a)) = Z.to_nat a) by (apply range_length; unfold dsize in *; lia).
      rewrite RL, Nat.sub_diag. cbn [repeat]. rewrite app_nil_r. rewrite wawrit_plain by lia. cbn [bind].
      unfold dsize in O.
      assert (ZA : Z.to_nat (pos + a - 1) = (Z.to_nat (pos - 1) + Z.to_nat a)%nat) by lia.
      rewrite IHn.
      * f_equal. rewrite ZA. rewrite <- RL at 2. rewrite write_at_app by lia. f_equal. rewrite range_app. f_equal. lia.
      * lia.
      * unfold dsize. rewrite write_at_length by lia. lia.
      * lia.
      * lia.
      * unfold a, BUFLEN in *. lia.
Qed.

Lemma upd_firstn {A} n (l : list A) k v : (k < n)%nat -> firstn n (upd l k v) = upd (firstn n l) k v.
Proof.
  revert l k. induction n; intros [|x l] [|k] H; cbn [firstn upd]; try lia; try reflexivity. f_equal. apply IHn. lia.
Qed.

(** Hypotheses on the input: 4 words at least, an XDF signature, a header of
    at least 16 words that fits, a registered size within the file. *)
Definition restorable (d : disk) : Prop :=
  (nth 2 d 0 = XDF0 \/ nth 2 d 0 = XDF0_lc) /\ 8 <= w_lng (nth 0 d 0) <= 1032 /\
  w_lng (nth 0 d 0) <= nth 4 d 0 /\ nth 4 d 0 < 2 ^ 30 /\ 2 * nth 4 d 0 <= dsize d.

Lemma qdfrstr_spec junk inp outp : restorable inp ->
  qdfrstr junk inp outp = Some (Go (upd (firstn (Z.to_nat (2 * nth 4 inp 0)) inp) 14 0 ++ skipn (Z.to_nat (2 * nth 4 inp 0)) outp)).
Proof.
  intros (MG & HL & FS & SM & SZ). set (l64 := w_lng (nth 0 inp 0)) in *. set (fs := nth 4 inp 0) in *.
  assert (NF : forall k n, (k < n)%nat -> nth k (firstn n inp) 0 = nth k inp 0). { intros k n KN. rewrite <- (firstn_skipn n inp) at 2. unfold dsize in *. destruct (Nat.le_gt_cases (length inp) k).
    - rewrite !nth_overflow; [reflexivity| |rewrite firstn_length; lia]. rewrite firstn_skipn. assumption.
    - rewrite app_nth1; [reflexivity|]. rewrite firstn_length. lia. }
  unfold qdfrstr. rewrite waread_plain by lia. cbn [bind snd]. change (Z.to_nat (1 - 1)) with 0%nat. change (Z.to_nat 4) with 4%nat.
  assert (L4 : length (range inp 0 4) = 4%nat) by (apply range_length; unfold dsize in *; lia).
  rewrite L4. change (4 - 4)%nat with 0%nat. change (map (fun k => w32 (junk k)) (seq 4 0)) with (@nil Z). rewrite app_nil_r. cbv zeta.
  unfold range at 1 2 3. rewrite skipn_O. rewrite !NF by lia.
  replace ((nth 2 inp 0 =? XDF0) || (nth 2 inp 0 =? XDF0_lc)) with true. 2: { symmetry. apply orb_true_iff. destruct MG as [-> | ->]; [left|right]; apply Z.eqb_refl. }
  cbn [negb].
  change (nth 0 (range inp 0 4) 0) with (nth 0 (firstn 4 inp) 0). rewrite NF by lia. fold l64.
  replace (dsize inp <? 2 * l64) with false by (symmetry; apply Z.ltb_ge; lia).
  replace (HDR_WORDS <? 2 * l64) with false by (symmetry; apply Z.ltb_ge; unfold HDR_WORDS; lia).
  rewrite waread_plain by lia. cbn [bind snd]. change (Z.to_nat (1 - 1)) with 0%nat.
  set (n := Z.to_nat (2 * l64)).
  assert (LN : length (range inp 0 n) = n) by (apply range_length; unfold dsize in *; lia).
  rewrite LN. replace (16 - n)%nat with 0%nat by lia. change (map (fun k => w32 (junk k)) (seq n 0)) with (@nil Z). rewrite app_nil_r.
  rewrite wawrit_plain by (unfold dsize; lia). cbn [bind]. change (Z.to_nat (1 - 1)) with 0%nat.
  assert (F4 : hget (hset (range inp 0 n) H_RWFLG 0) H_FSIZ = fs).
  { unfold hget, hset. rewrite upd_nthd. change (Nat.eqb H_FSIZ H_RWFLG) with false. cbn [andb]. change (nth H_FSIZ (firstn n inp) 0 = fs). apply NF. unfold H_FSIZ. lia. }
  rewrite F4.
  assert (W : s32 (w32 (2 * (fs - l64))) = 2 * (fs - l64)). { unfold w32. rewrite Z.mod_small by lia. unfold s32. destruct (Z.ltb_spec (2 * (fs - l64)) (2 ^ 31)); lia. }
  rewrite W. rewrite firstn_all2 by (unfold hset; rewrite upd_length, LN; lia).
  assert (LH : length (hset (range inp 0 n) H_RWFLG 0) = n) by (unfold hset; rewrite upd_length; exact LN).
  rewrite copy_chunks_spec.
  - cbn [bind]. f_equal. f_equal. replace (Z.to_nat (1 + 2 * l64 - 1)) with n by lia.
    set (m := Z.to_nat (2 * (fs - l64))). pose proof (write_at_app outp 0 (hset (range inp 0 n) H_RWFLG 0) (range inp n m) ltac:(lia)) as WA.
    rewrite LH in WA. cbn [Nat.add] in WA. rewrite WA. unfold write_at. cbn [firstn Nat.add app].
    assert (LM : length (range inp n m) = m) by (apply range_length; unfold dsize in *; lia).
    assert (TN : Z.to_nat (2 * fs) = (n + m)%nat) by lia.
    f_equal.
    + rewrite TN. unfold hset. rewrite <- upd_app1 by (rewrite LN; unfold H_RWFLG; lia). change n with (0 + n)%nat at 2. rewrite range_app.
      change (w32 0) with 0. reflexivity.
    + f_equal. rewrite app_length, LH, LM, TN. reflexivity.
  - lia.
  - unfold dsize. rewrite write_at_length by lia. rewrite LH. lia.
  - lia.
  - lia.
  - rewrite Nat2Z.inj_succ. rewrite Z2Nat.id by (apply Z.div_pos; unfold BUFLEN; lia). unfold BUFLEN.
    pose proof (Z.mod_pos_bound (2 * (fs - l64)) 8192 ltac:(lia)). pose proof (Z.div_mod (2 * (fs - l64)) 8192 ltac:(lia)). lia.
Qed.

(** A disk that agrees, up to the registered size, with that of a file whose
    pages and header are all on disk. *)
Lemma restore_opens junk f d outp : finv f -> f_modified f = false -> range (f_disk f) 0 (length (f_hdr f)) = f_hdr f -> magic_ok (f_hdr f) ->
  Z.of_nat (length (f_hdr f)) <= HDR_WORDS -> fsize f <= dsize d -> (forall a n, Z.of_nat (a + n) <= fsize f -> range d a n = range (f_disk f) a n) ->
  restorable d /\ exists out, qdfrstr junk d outp = Some (Go out) /\ opens_as out (hget (f_hdr f) H_NREC) (abs f).
Proof.
  intros FI M HD MG HH SZ AG. pose proof FI as [G I]. pose proof (g_hlen _ _ G) as HL. pose proof (g_hlen16 _ _ G) as H16.
  assert (HX : ext (nents (f_pages f)) f OHdr = Some (0, Z.of_nat (length (f_hdr f)))) by reflexivity.
  pose proof (g_in _ _ G _ _ _ HX) as HI. fold (fsize f) in HI. pose proof (g_small _ _ G) as SM. fold (fsize f) in SM. pose proof (g_size _ _ G) as GS. fold (fsize f) in GS.
  assert (HD2 : range d 0 (length (f_hdr f)) = f_hdr f) by (rewrite AG by lia; exact HD).
  assert (NH : forall k, (k < length (f_hdr f))%nat -> nth k d 0 = hget (f_hdr f) k).
  { intros k K. unfold hget. rewrite <- HD2. unfold range. rewrite skipn_O. rewrite <- (firstn_skipn (length (f_hdr f)) d) at 1. rewrite app_nth1; [reflexivity|]. rewrite firstn_length. unfold dsize in *. lia. }
  assert (RS : restorable d).
  { unfold restorable. rewrite !NH by lia. unfold h_lng in HL. unfold HDR_WORDS in HH. unfold fsize in *. change (hget (f_hdr f) 4) with (hget (f_hdr f) H_FSIZ).
    split; [exact MG|]. lia. }
  split; [exact RS|]. rewrite (qdfrstr_spec junk d outp RS). eexists. split; [reflexivity|].
  rewrite (NH 4%nat) by lia. change (hget (f_hdr f) 4) with (hget (f_hdr f) H_FSIZ). fold (fsize f).
  set (out := upd _ 14 0 ++ _).
  set (hd := hset (f_hdr f) H_RWFLG 0). assert (LH : length hd = length (f_hdr f)) by apply hset_length.
  pose proof (finv_rwflg f 0 FI) as F2. fold hd in F2.
  destruct (hdr_write (f_sethdr f hd) hd F2 eq_refl) as (F3 & L3 & R3 & D3 & FR3). cbv zeta in *.
  set (f3 := f_setdisk (f_sethdr f hd) _ _) in *. change (f_disk (f_sethdr f hd)) with (f_disk f) in *.
  assert (C3 : clean f3).
  { split; [exact F3|]. split; [exact M|]. split; [exact R3|]. split. { change (f_hdr f3) with hd. unfold hd. rewrite hget_hset by (unfold H_RWFLG; lia). reflexivity. }
    change (f_hdr f3) with hd. unfold magic_ok, hd in *. rewrite !hget_hset by (unfold H_RWFLG; lia). exact MG. }
  assert (FS : fsize f3 = fsize f). { unfold fsize. change (f_hdr f3) with hd. unfold hd. rewrite hget_hset by (unfold H_RWFLG; lia). reflexivity. }
  set (n := Z.to_nat (fsize f)) in *.
  assert (LF : length (firstn n d) = n) by (rewrite firstn_length; unfold dsize in *; lia).
  assert (LO : (n <= length out)%nat). { unfold out. rewrite app_length, upd_length, LF. lia. }
  assert (AG3 : forall a k, Z.of_nat (a + k) <= fsize f3 -> range out a k = range (f_disk f3) a k).
  { rewrite FS. intros a k L. apply nth_error_ext. intros j. rewrite !range_nth. destruct (Nat.ltb_spec j k) as [J|]; [|reflexivity].
    change (f_disk f3) with (write_at (f_disk f) 0 hd). rewrite write_at_nth by lia. cbn [Nat.leb Nat.add andb]. rewrite Nat.sub_0_r.
    unfold out. rewrite nth_error_app1 by (rewrite upd_length, LF; lia).
    assert (Q : forall i, (i < n)%nat -> nth_error (firstn n d) i = nth_error (f_disk f) i).
    { intros i In. pose proof (AG 0%nat n ltac:(lia)) as E. unfold range in E. rewrite !skipn_O in E. rewrite E, nth_firstn. rewrite (proj2 (Nat.ltb_lt i n)) by lia. reflexivity. }
    assert (HN : forall i, (i < length (f_hdr f))%nat -> nth_error (f_disk f) i = nth_error (f_hdr f) i).
    { intros i In. rewrite <- HD. rewrite range_nth. cbn [Nat.add]. rewrite (proj2 (Nat.ltb_lt i _)) by lia. reflexivity. }
    rewrite upd_nth. unfold hd, hset. rewrite upd_nth, upd_length. change (w32 0) with 0. change H_RWFLG with 14%nat.
    rewrite LF. rewrite (proj2 (Nat.ltb_lt 14 n)) by lia. rewrite (proj2 (Nat.ltb_lt 14 (length (f_hdr f)))) by lia. rewrite !andb_true_r.
    destruct (Nat.eqb_spec (a + j) 14) as [E|E].
    - rewrite (proj2 (Nat.ltb_lt (a + j) _)) by lia. reflexivity.
    - rewrite Q by lia. destruct (Nat.ltb_spec (a + j) (length (f_hdr f))); [apply HN; assumption|reflexivity]. }
  destruct (clean_extend f3 out C3) as [CX AX]; [rewrite FS; unfold dsize; lia|exact AG3|].
  apply (opens_ext _ _ (abs (f_setdisk f3 out []))).
  { intros k r. rewrite AX. unfold abs. change (ent f3 k r) with (ent f k r). destruct (ent f k r) as [e|] eqn:E; [|reflexivity]. destruct (live e); [|reflexivity].
    rewrite (D3 k r e E). reflexivity. }
  pose proof (clean_opens _ CX) as O. change (f_disk (f_setdisk f3 out [])) with out in O. change (f_hdr (f_setdisk f3 out [])) with hd in O.
  unfold hd in O. rewrite hget_hset in O by (unfold H_RWFLG; lia). exact O.
Qed.

Lemma n_live_hdr f : finv f -> hget (f_hdr f) H_NREC = n_live f.
Proof. intros F. exact (proj1 (stats_of f F)). Qed.

(** After a checkpoint, whatever is put or deleted next and wherever the
    writing stops. *)
Lemma restore_checkpoint s junk p i f s1 l s2 rjunk outp : wf s -> s_fs s p = Opened i -> w_file (s_w s) i = Some f -> writable f ->
  Z.of_nat (length (f_hdr f)) <= HDR_WORDS -> ok_op s (OpCkpt junk (f_iun f)) -> step (OpCkpt junk (f_iun f)) s = Some (0, s1) ->
  hist (fun s o => no_sync p s o /\ (hget (f_hdr f) H_RWFLG = APPEND \/ no_rewrite s o)) s1 l s2 ->
  exists f1 f2 lg, w_file (s_w s1) i = Some f1 /\ w_file (s_w s2) i = Some f2 /\ f_log f2 = f_log f1 ++ lg /\ f_disk f2 = crash (f_disk f1) lg (length lg) 0 /\
  forall n m, exists out, qdfrstr rjunk (crash (f_disk f1) lg n m) outp = Some (Go out) /\ opens_as out (n_live f) (abs f).
Proof.
  intros W P F WB HH OK ST H. pose proof (wf_fok _ W i f F) as FK. pose proof (step_spec _ _ _ _ W OK ST) as [W1 _].
  cbn [step] in ST. rewrite (file_index_of _ _ _ W F), F in ST. cbn [bind] in ST.
  destruct (xdfckpt_spec junk f (fo_inv _ FK) WB) as (f1 & X & K). rewrite X in ST. cbn [bind] in ST.
  assert (s1 = mksys (setf (s_w s) i (Some f1)) (s_fs s)) as -> by congruence.
  assert (F1 : w_file (s_w (mksys (setf (s_w s) i (Some f1)) (s_fs s))) i = Some f1). { cbn [s_w setf w_file]. rewrite Nat.eqb_refl. reflexivity. }
  assert (HA : forall x o, (fun s o => no_sync p s o /\ (hget (f_hdr f) H_RWFLG = APPEND \/ no_rewrite s o)) x o -> no_sync p x o /\ (no_rewrite x o \/ hget (f_hdr f) H_RWFLG = APPEND)) by (cbv beta; tauto).
  destruct (hist_grows _ p _ _ _ _ HA H W1 i f1 P F1) as (P2 & f2 & F2 & G2); [rewrite (k_hdr _ _ K); reflexivity|].
  destruct G2 as (_ & _ & _ & lg & G3 & G4 & G5). exists f1, f2, lg. split; [exact F1|]. split; [exact F2|]. split; [exact G3|].
  split. { unfold crash. rewrite firstn_all. rewrite (proj2 (nth_error_None lg (length lg))) by lia. exact G4. }
  intros n m. pose proof (k_inv _ _ K) as FI1. pose proof FI1 as [G1 _]. pose proof (g_size _ _ G1) as SZ. fold (fsize f1) in SZ.
  assert (T : 0 <= fsize f1). { unfold fsize. pose proof (hget_word _ _ H_FSIZ G1) as Q. unfold word_ok in Q. lia. }
  destruct (crash_past (fsize f1) (f_disk f1) lg n m T G5 SZ) as [A B].
  destruct (restore_opens rjunk f1 (crash (f_disk f1) lg n m) outp FI1 (k_clean _ _ K)) as (_ & out & Q & O).
  - rewrite (k_hdr _ _ K). apply (k_disk _ _ K).
  - rewrite (k_hdr _ _ K). apply (fo_magic _ FK).
  - rewrite (k_hdr _ _ K). exact HH.
  - exact A.
  - exact B.
  - exists out. split; [exact Q|]. rewrite (k_hdr _ _ K), (n_live_hdr f (fo_inv _ FK)) in O. eapply opens_ext; [|exact O]. apply (k_abs _ _ K).
Qed.

(** A close interrupted just before its last write. *)
Lemma restore_close s p i f junk f' rjunk outp : wf s -> s_fs s p = Opened i -> w_file (s_w s) i = Some f -> writable f ->
  Z.of_nat (length (f_hdr f)) <= HDR_WORDS -> xdfcls junk false f = Some f' ->
  exists ws out, f_log f' = f_log f ++ ws /\ (2 <= length ws)%nat /\ f_disk f' = crash (f_disk f) ws (length ws) 0 /\
    qdfrstr rjunk (crash (f_disk f) ws (length ws - 1) 0) outp = Some (Go out) /\ opens_as out (n_live f) (abs f).
Proof.
  intros W P F WB HH X. pose proof (wf_fok _ W i f F) as FK. destruct (xdfckpt_spec junk f (fo_inv _ FK) WB) as (f1 & X1 & K).
  destruct (k_log _ _ K) as (mid & L1 & L2 & L3).
  destruct (restore_opens rjunk f1 (f_disk f1) outp (k_inv _ _ K) (k_clean _ _ K)) as (_ & out & Q & O).
  { rewrite (k_hdr _ _ K). apply (k_disk _ _ K). } { rewrite (k_hdr _ _ K). apply (fo_magic _ FK). } { rewrite (k_hdr _ _ K). exact HH. }
  { apply (g_size _ _ (proj1 (k_inv _ _ K))). } { reflexivity. }
  assert (Y : exists hd, f_log f' = f_log f1 ++ [(1, hd)] /\ f_disk f' = apply_log (f_disk f1) [(1, hd)]).
  { unfold xdfcls in X, X1. destruct WB as [WR RO]. rewrite RO in X, X1. replace (hget (f_hdr f) H_RWFLG =? RDMODE) with false in X, X1 by (symmetry; apply Z.eqb_neq; exact WR).
    cbn [negb andb] in X, X1. cbv zeta in X, X1. destruct (f_write junk f 1 _) as [g|]; [|discriminate]. cbn [bind] in X, X1.
    destruct (if f_modified g then _ else _) as [g2|]; [|discriminate]. cbn [bind] in X, X1. assert (g2 = f1) as -> by congruence.
    rewrite f_write_rw in X. 2: { pose proof (k_stat _ _ K) as S. destruct S as (_ & S & _). cbn [f_ro f_sethdr]. congruence. } 2: { unfold dsize. lia. }
    eexists. assert (f' = f') by reflexivity. split; injection X as <-; reflexivity. }
  destruct Y as (hd & Y1 & Y2). exists ([(1, f_hdr f)] ++ mid ++ [(1, hd)]), out.
  split. { rewrite Y1, L1, <- !app_assoc. reflexivity. } split. { cbn [app length]. rewrite app_length. cbn [length]. lia. }
  split. { unfold crash. rewrite firstn_all, (proj2 (nth_error_None _ _)) by lia. rewrite Y2, L2, <- apply_log_app, <- app_assoc. reflexivity. }
  split.
  - replace (crash (f_disk f) ([(1, f_hdr f)] ++ mid ++ [(1, hd)]) (length ([(1, f_hdr f)] ++ mid ++ [(1, hd)]) - 1) 0) with (f_disk f1); [exact Q|].
    rewrite app_assoc. rewrite app_length. cbn [length]. rewrite Nat.add_sub. unfold crash.
    rewrite firstn_app, firstn_all, Nat.sub_diag. cbn [firstn]. rewrite app_nil_r. rewrite nth_error_app2, Nat.sub_diag by lia. cbn [nth_error].
    change (Z.to_nat (1 - 1)) with 0%nat. unfold write_at. cbn [firstn app length Nat.add skipn]. exact L2.
  - rewrite (k_hdr _ _ K), (n_live_hdr f (fo_inv _ FK)) in O. eapply opens_ext; [|exact O]. apply (k_abs _ _ K).
Qed.
