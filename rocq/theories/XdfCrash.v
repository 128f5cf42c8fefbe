(** What a crash leaves on disk. *)
From Coq Require Import ZArith List Lia Bool.
From Verif Require Import Bits Handles HandlesFacts WaFile Xdf XdfLib XdfInv XdfDel XdfPut XdfPut2 XdfPut3 XdfPut4 XdfOpen XdfClose XdfClose2 XdfReopen XdfCreate XdfSearch XdfAbs XdfCkpt XdfLoc XdfHist XdfSys XdfSys2 XdfSpec XdfThm XdfThm2.
Import ListNotations.
Open Scope Z_scope.

(** * Writes past the end of the file *)
Lemma write_past d i ws top : (top <= i)%nat -> (top <= length d)%nat ->
  (top <= length (write_at d i ws))%nat /\ forall a n, (a + n <= top)%nat -> range (write_at d i ws) a n = range d a n.
Proof.
  intros A B. assert (L : (top <= length (write_at d i ws))%nat). { unfold write_at. rewrite !app_length, firstn_length. lia. }
  split; [exact L|]. intros a n H. apply nth_error_ext. intros k. rewrite !range_nth. destruct (Nat.ltb_spec k n); [|reflexivity].
  unfold write_at. rewrite nth_error_app1 by (rewrite firstn_length; lia). rewrite nth_firstn. destruct (Nat.ltb_spec (a + k) i); [reflexivity|lia].
Qed.

Lemma log_past top l : forall d, 0 <= top -> Forall (fun w => top < fst w) l -> top <= dsize d ->
  top <= dsize (apply_log d l) /\ forall a n, Z.of_nat (a + n) <= top -> range (apply_log d l) a n = range d a n.
Proof.
  induction l as [|[o ws] l IH]; intros d T F D; [split; [exact D|reflexivity]|].
  change (apply_log d ((o, ws) :: l)) with (apply_log (write_at d (Z.to_nat (o - 1)) ws) l). inversion F as [|? ? W F']; subst. cbn [fst] in W.
  unfold dsize in *. destruct (write_past d (Z.to_nat (o - 1)) ws (Z.to_nat top) ltac:(lia) ltac:(lia)) as [A B].
  destruct (IH (write_at d (Z.to_nat (o - 1)) ws) T F' ltac:(lia)) as [C E]. split; [exact C|]. intros a n H. rewrite E by exact H. apply B. lia.
Qed.

Lemma crash_past top d l n m : 0 <= top -> Forall (fun w => top < fst w) l -> top <= dsize d ->
  top <= dsize (crash d l n m) /\ forall a k, Z.of_nat (a + k) <= top -> range (crash d l n m) a k = range d a k.
Proof.
  intros T F D. unfold crash. fold (apply_log d (firstn n l)).
  assert (F1 : Forall (fun w => top < fst w) (firstn n l)) by (apply Forall_firstn; exact F).
  destruct (log_past top (firstn n l) d T F1 D) as [A B]. destruct (nth_error l n) as [[o ws]|] eqn:E; [|auto].
  rewrite Forall_forall in F. specialize (F _ (nth_error_In _ _ E)). cbn [fst] in F. unfold dsize in *.
  destruct (write_past (apply_log d (firstn n l)) (Z.to_nat (o - 1)) (firstn m ws) (Z.to_nat top) ltac:(lia) ltac:(lia)) as [G H].
  split; [lia|]. intros a k L. rewrite H by lia. apply B. exact L.
Qed.

(** * A clean file extended *)
Lemma clean_extend f d' : clean f -> fsize f <= dsize d' -> (forall a n, Z.of_nat (a + n) <= fsize f -> range d' a n = range (f_disk f) a n) ->
  clean (f_setdisk f d' []) /\ forall k r, abs (f_setdisk f d' []) k r = abs f k r.
Proof.
  intros (FI & M & H & R & MG) S B. pose proof FI as [G I].
  assert (HX : ext (nents (f_pages f)) f OHdr = Some (0, Z.of_nat (length (f_hdr f)))) by reflexivity.
  pose proof (g_in _ _ G _ _ _ HX) as HI. fold (fsize f) in HI.
  split.
  - split; [|split; [exact M|split; [|split; [exact R|exact MG]]]].
    + split.
      * pose proof G as G0. pose proof (g_tile _ _ G) as T. destruct G. constructor; try assumption.
        constructor; [apply (t_cover _ _ T)|apply (t_hdr _ _ T)|apply (t_page _ _ T)|].
        intros j s e p E P. destruct (t_rec _ _ T _ _ _ _ E P) as [R1 R2]. split; [|exact R2]. apply rhd_same with (f_disk f); [|exact R1].
        cbn [f_disk f_setdisk]. apply B. destruct (rec_ext_bound _ _ j s e G0 E) as (E1 & E2 & E3). lia.
      * intros k p P NS MD. destruct (I k p P NS MD) as [O X]. split; [|exact X]. unfold on_disk in *. cbn [f_setdisk f_disk f_plen].
        destruct (page_ext_bound _ _ _ _ G P) as [E1 E2]. change (f_plen (f_setdisk f d' [])) with (f_plen f). rewrite B; [exact O|].
        unfold page_wlen in *. rewrite Nat2Z.inj_add, !Z2Nat.id by lia. lia.
    + cbn [f_setdisk f_disk f_hdr]. rewrite B; [exact H|]. cbn [Nat.add]. lia.
  - intros k r. unfold abs. change (ent (f_setdisk f d' []) k r) with (ent f k r). destruct (ent f k r) as [e|] eqn:E; [|reflexivity]. destruct (live e); [|reflexivity].
    unfold rec_data. cbn [f_setdisk f_disk]. destruct (rec_ext_bound _ _ _ _ _ G E) as (E1 & E2 & E3). rewrite B; [reflexivity|].
    rewrite Nat2Z.inj_add, !Z2Nat.id by lia. exact E3.
Qed.

Lemma clean_opens f : clean f -> opens_as (f_disk f) (hget (f_hdr f) H_NREC) (abs f).
Proof.
  intros C. pose proof C as (C1 & C2 & C3 & C4 & C5). intros junk iun ro std kp mode KP SG.
  destruct (xdfopn_spec junk iun ro std kp f mode C1 C2 C3 C4 C5) as (f' & X & O & _ & Q).
  { intros ST. rewrite <- (clean_word3 f C). apply SG. exact ST. }
  { exact KP. }
  exists f'. split; [exact X|]. split; [apply (opened_abs _ _ _ _ _ _ _ O)|exact Q].
Qed.

Lemma opens_ext d n A B : (forall k r, A k r = B k r) -> opens_as d n A -> opens_as d n B.
Proof. intros E O junk iun ro std kp mode KP SG. destruct (O junk iun ro std kp mode KP SG) as (f & X & Y & Z). exists f. split; [exact X|]. split; [|exact Z]. intros. rewrite Y. apply E. Qed.

(** * One call on a file, without synchronisation nor rewriting in place *)
Definition grows (f f' : fte) : Prop :=
  f_iun f' = f_iun f /\ hget (f_hdr f') H_RWFLG = hget (f_hdr f) H_RWFLG /\ fsize f <= fsize f' /\
  exists l, f_log f' = f_log f ++ l /\ f_disk f' = apply_log (f_disk f) l /\ Forall (fun w => fsize f < fst w) l.

Lemma grows_refl f : grows f f.
Proof. split; [reflexivity|]. split; [reflexivity|]. split; [lia|]. exists []. rewrite app_nil_r. auto. Qed.

Lemma grows_trans f g h : grows f g -> grows g h -> grows f h.
Proof.
  intros (A1 & A2 & A3 & l & A4 & A5 & A6) (B1 & B2 & B3 & m & B4 & B5 & B6). split; [congruence|]. split; [congruence|]. split; [lia|].
  exists (l ++ m). split; [rewrite B4, A4, app_assoc; reflexivity|]. split; [rewrite apply_log_app, <- A5; exact B5|].
  apply Forall_app. split; [exact A6|]. eapply Forall_impl; [|exact B6]. cbv beta. intros. lia.
Qed.

Lemma grows_quiet f f' : quiet f f' -> grows f f'.
Proof.
  intros (_ & S & _ & D & L & H & _). split; [apply S|]. split; [rewrite H; reflexivity|]. split; [unfold fsize; rewrite H; lia|]. exists []. rewrite app_nil_r. auto.
Qed.

Lemma step_grows s o c s1 p i f : wf s -> ok_op s o -> step o s = Some (c, s1) -> s_fs s p = Opened i -> w_file (s_w s) i = Some f ->
  no_sync p s o -> (no_rewrite s o \/ hget (f_hdr f) H_RWFLG = APPEND) ->
  s_fs s1 p = Opened i /\ exists f', w_file (s_w s1) i = Some f' /\ grows f f'.
Proof.
  intros W OK ST P F NS NR.
  assert (SAME : forall x, s_fs x p = Opened i -> w_file (s_w x) i = Some f -> s_fs x p = Opened i /\ exists f', w_file (s_w x) i = Some f' /\ grows f f').
  { intros x A B. split; [exact A|]. exists f. split; [exact B|apply grows_refl]. }
  destruct o as [junk q iun std kp pri aux sign|junk q iun ro std kp mode|junk iun handle buf|h|junk filt iun handle primk nprim msk|junk iun|junk iun]; cbn [step] in ST.
  - destruct (s_fs s q) as [|d|j] eqn:Q; [| |discriminate]; destruct (open_slot (s_w s) iun) as [[e|j]|] eqn:OS; try discriminate; cbn [bind] in ST.
    1, 3: injection ST as <- <-; apply SAME; assumption.
    all: destruct (xdfopn_create _ _ _ _ _ _ _ _ _) as [[c0 g]|]; [|discriminate]; cbn [bind] in ST; injection ST as <- <-;
         destruct (open_slot_spec _ _ _ OS) as (N & _); apply SAME; cbn [s_fs s_w];
         [unfold setfs; destruct (Nat.eqb_spec p q) as [->|]; [congruence|exact P]|rewrite setf_other; [exact F|intros ->; congruence]].
  - destruct (s_fs s q) as [|d|j] eqn:Q; try discriminate. destruct (open_slot (s_w s) iun) as [[e|j]|] eqn:OS; try discriminate; cbn [bind] in ST.
    + injection ST as <- <-; apply SAME; assumption.
    + destruct (xdfopn _ _ _ _ _ _ _) as [[e|[n g]]|]; try discriminate. cbn [bind] in ST. injection ST as <- <-. destruct (open_slot_spec _ _ _ OS) as (N & _).
      apply SAME; cbn [s_fs s_w]; [unfold setfs; destruct (Nat.eqb_spec p q) as [->|]; [congruence|exact P]|rewrite setf_other; [exact F|intros ->; congruence]].
  - destruct (xdfput junk (s_w s) iun handle buf) as [[[c0 w'] b']|] eqn:X; [|discriminate]. cbn [bind] in ST. injection ST as <- <-.
    destruct (file_index (s_w s) iun) as [j|] eqn:FX.
    2: { destruct (xdfput_nofile _ _ _ _ _ _ _ _ FX X) as (_ & -> & _). apply SAME; assumption. }
    destruct (file_index_own _ _ _ FX) as (g & FJ & IU & _). destruct OK as (BO & RM). destruct (RM j g FX FJ) as [R1 R2].
    pose proof (xdfput_spec junk (s_w s) iun handle buf j g FX FJ (fo_inv _ (wf_fok _ W j g FJ)) BO R1 R2) as PS. rewrite X in PS.
    destruct PS as (O & f' & F' & PS). destruct (Nat.eq_dec j i) as [->|N].
    + assert (g = f) as -> by congruence. split; [exact P|]. exists f'. split; [exact F'|].
      destruct PS as [(_ & Q)|(_ & _ & AP & k & r & e1 & e0 & PE & WH & _)]; [apply grows_quiet; exact Q|].
      destruct (pe_log _ _ _ _ _ _ _ PE) as (l & L1 & L2 & _ & L3). destruct (pe_stat _ _ _ _ _ _ _ PE) as (S1 & _).
      split; [exact S1|]. split; [apply stat_rwflg; apply (pe_stat _ _ _ _ _ _ _ PE)|]. split; [apply (pe_fsiz _ _ _ _ _ _ _ PE)|].
      exists l. split; [exact L1|]. split; [exact L2|]. apply L3. intros T. destruct NR as [NR|NR].
      * cbn [no_rewrite] in NR. destruct WH as [WH|(HP & _)]; [|lia]. destruct (pe_tgt _ _ _ _ _ _ _ PE k r T) as (e & E & _). congruence.
      * destruct (Z.eq_dec handle 0) as [->|HN]; [discriminate|]. apply (AP HN). exact NR.
    + apply SAME; [exact P|]. cbn [s_w]. rewrite (proj2 O) by congruence. exact F.
  - destruct (w_file (s_w s) (hidx (s_w s) h)) as [g|] eqn:FH.
    2: { unfold xdfdel in ST. rewrite FH in ST. cbn [bind] in ST. injection ST as <- <-. apply SAME; assumption. }
    destruct (xdfdel_spec (s_w s) h g FH (fo_inv _ (wf_fok _ W _ g FH)) (OK g FH)) as (w' & X & E). rewrite X in ST. cbn [bind] in ST. injection ST as <- <-.
    destruct (del_code g (hpage h) (hrec h) =? 0) eqn:DC.
    + destruct E as ([_ O] & f' & F' & D). destruct (Nat.eq_dec (hidx (s_w s) h) i) as [HI|N].
      * rewrite HI in *. assert (g = f) as -> by congruence. split; [exact P|]. exists f'. split; [exact F'|].
        destruct D as (_ & S & D1 & D2 & D3 & _). split; [apply S|]. split; [apply stat_rwflg; exact S|]. split; [lia|]. exists []. rewrite app_nil_r. auto.
      * apply SAME; [exact P|]. cbn [s_w]. rewrite O by congruence. exact F.
    + subst w'. apply SAME; assumption.
  - destruct (xdfloc2 _ _ _ _ _ _ _ _ _) as [[c0 w']|] eqn:X; [|discriminate]. cbn [bind] in ST. injection ST as <- <-.
    destruct (file_index (s_w s) iun) as [j|] eqn:FX.
    2: { unfold xdfloc2 in X. rewrite FX in X. injection X as <- <-. apply SAME; assumption. }
    destruct (file_index_own _ _ _ FX) as (g & FJ & IU & _).
    destruct (xdfloc2_moved _ _ _ _ _ _ _ _ _ _ _ _ _ FX FJ (fo_inv _ (wf_fok _ W j g FJ)) X) as ([_ O] & f' & F' & Q & _).
    destruct (Nat.eq_dec j i) as [->|N].
    + assert (g = f) as -> by congruence. split; [exact P|]. exists f'. split; [exact F'|apply grows_quiet; exact Q].
    + apply SAME; [exact P|]. cbn [s_w]. rewrite O by congruence. exact F.
  - destruct (file_index (s_w s) iun) as [j|] eqn:FX; [|injection ST as <- <-; apply SAME; assumption].
    destruct (file_index_own _ _ _ FX) as (g & FJ & IU & _). rewrite FJ in ST. cbn [bind] in ST.
    destruct (xdfcls junk true g) as [g'|] eqn:X; [|discriminate]. cbn [bind] in ST. injection ST as <- <-.
    assert (NJ : i <> j). { intros ->. apply (NS j f P F). congruence. }
    apply SAME; [exact P|]. cbn [s_w]. rewrite setf_other by exact NJ. exact F.
  - destruct (file_index (s_w s) iun) as [j|] eqn:FX; [|injection ST as <- <-; apply SAME; assumption].
    destruct (file_index_own _ _ _ FX) as (g & FJ & IU & _). rewrite FJ in ST. cbn [bind] in ST.
    destruct (xdfcls junk false g) as [g'|] eqn:X; [|discriminate]. cbn [bind] in ST. injection ST as <- <-.
    assert (NJ : i <> j). { intros ->. apply (NS j f P F). congruence. }
    apply SAME; cbn [s_fs s_w]; [rewrite P, (proj2 (Nat.eqb_neq _ _) NJ); reflexivity|]. rewrite setf_other by exact NJ. exact F.
Qed.

Lemma hist_grows (A : sys -> op -> Prop) p m s l s1 : (forall s o, A s o -> no_sync p s o /\ (no_rewrite s o \/ m = APPEND)) -> hist A s l s1 -> wf s ->
  forall i f, s_fs s p = Opened i -> w_file (s_w s) i = Some f -> hget (f_hdr f) H_RWFLG = m ->
  s_fs s1 p = Opened i /\ exists f', w_file (s_w s1) i = Some f' /\ grows f f'.
Proof.
  intros HA H. induction H as [s|s o c s1 l s2 OK AO ST H IH]; intros W i f P F M.
  - split; [exact P|]. exists f. split; [exact F|apply grows_refl].
  - destruct (HA _ _ AO) as [NS NR]. destruct (step_grows s o c s1 p i f W OK ST P F NS) as (P1 & f1 & F1 & G1); [destruct NR; [left; assumption|right; congruence]|].
    destruct (step_spec _ _ _ _ W OK ST) as [W1 _].
    destruct (IH W1 i f1 P1 F1) as (P2 & f2 & F2 & G2); [destruct G1 as (_ & G1 & _); congruence|].
    split; [exact P2|]. exists f2. split; [exact F2|]. eapply grows_trans; eassumption.
Qed.

(** * A file whose header says that it is open for writing *)
Lemma flagged_open d h : (16 <= length h)%nat -> Z.of_nat (length h) = 2 * h_lng h -> magic_ok h -> hget h H_RWFLG <> RDMODE -> range d 0 (length h) = h ->
  forall junk iun ro std kp mode, mode <> RDMODE -> exists c, c < 0 /\ xdfopn junk iun ro std kp d mode = Some (Err c).
Proof.
  intros H16 HL MG RW HD junk iun ro std kp mode MO.
  assert (LD : (length h <= length d)%nat). { rewrite <- HD at 1. unfold range. rewrite firstn_length, skipn_length. lia. }
  unfold xdfopn. rewrite waread_plain by (unfold dsize; lia). cbn [bind snd]. change (Z.to_nat (1 - 1)) with 0%nat.
  assert (R4 : forall k, (k < 4)%nat -> nth k (range d 0 (Z.to_nat 4)) 0 = nth k h 0).
  { intros k K. rewrite <- HD. unfold range. rewrite skipn_O. change (Z.to_nat 4) with 4%nat.
    assert (NF : forall n, (k < n)%nat -> nth k (firstn n d) 0 = nth k d 0). { intros n KN. rewrite <- (firstn_skipn n d) at 2. rewrite app_nth1; [reflexivity|]. rewrite firstn_length. lia. }
    rewrite !NF by lia. reflexivity. }
  assert (L4 : length (range d 0 (Z.to_nat 4)) = 4%nat) by (rewrite range_length; [reflexivity|change (Z.to_nat 4) with 4%nat; lia]).
  rewrite L4. cbn [Nat.sub repeat]. rewrite app_nil_r. rewrite !R4 by lia.
  replace (negb _) with false. 2: { symmetry. apply negb_false_iff. destruct MG as [M|M]; unfold hget in M; rewrite M; reflexivity. }
  replace (w_lng (nth 0 h 0)) with (h_lng h) by reflexivity. rewrite <- HL.
  rewrite waread_plain by (unfold dsize; lia). cbn [bind snd]. change (Z.to_nat (1 - 1)) with 0%nat. rewrite !Nat2Z.id, HD, Nat.sub_diag. cbn [repeat]. rewrite app_nil_r.
  rewrite (proj2 (Nat.ltb_ge _ _) H16).
  destruct (std && _); [exists ERR_WRONG_FTYPE; split; reflexivity|].
  rewrite (proj2 (Z.eqb_neq _ _) MO), (proj2 (Z.eqb_neq _ _) RW). exists ERR_STILL_OPN. split; reflexivity.
Qed.

Lemma apply_log_one d o ws l : apply_log d ((o, ws) :: l) = apply_log (write_at d (Z.to_nat (o - 1)) ws) l.
Proof. reflexivity. Qed.

Lemma close_crash f f' mid n m : finv f ->
  Forall (wr_above (Z.of_nat (length (f_hdr f))) (dsize (f_disk f))) mid -> (n <= length mid)%nat ->
  range (crash (f_disk f) ((1, f_hdr f) :: mid ++ [(1, f_hdr f')]) (S n) (if Nat.eqb n (length mid) then 0 else m)) 0 (length (f_hdr f)) = f_hdr f.
Proof.
  intros FI FM N. pose proof FI as [G I].
  assert (HX : ext (nents (f_pages f)) f OHdr = Some (0, Z.of_nat (length (f_hdr f)))) by reflexivity.
  pose proof (g_in _ _ G _ _ _ HX) as HI. pose proof (g_size _ _ G) as SZ. unfold dsize in *.
  set (h := Z.of_nat (length (f_hdr f))) in *.
  set (d1 := write_at (f_disk f) 0 (f_hdr f)).
  assert (L1 : length d1 = length (f_disk f)) by (unfold d1; rewrite write_at_length by lia; lia).
  assert (R1 : range d1 0 (length (f_hdr f)) = f_hdr f) by (unfold d1; apply range_write_same; lia).
  unfold crash. fold (apply_log (f_disk f) (firstn (S n) ((1, f_hdr f) :: mid ++ [(1, f_hdr f')]))). cbn [firstn nth_error].
  rewrite apply_log_one. change (Z.to_nat (1 - 1)) with 0%nat. fold d1.
  rewrite firstn_app, (proj2 (Nat.sub_0_le n (length mid)) N), firstn_O, app_nil_r.
  assert (FN : Forall (wr_above h (dsize d1)) (firstn n mid)). { unfold dsize. rewrite L1. apply Forall_firstn. exact FM. }
  destruct (apply_log_above h d1 (firstn n mid) ltac:(lia) FN) as [L2 R2].
  assert (R3 : range (apply_log d1 (firstn n mid)) 0 (length (f_hdr f)) = f_hdr f) by (rewrite R2; [exact R1|unfold h; lia]).
  destruct (Nat.eqb_spec n (length mid)) as [->|NE].
  - rewrite nth_error_app2, Nat.sub_diag by lia. cbn [nth_error firstn]. unfold write_at. cbn [firstn skipn app length Nat.add]. exact R3.
  - rewrite nth_error_app1 by lia. destruct (nth_error mid n) as [[o ws]|] eqn:E; [|exact R3].
    rewrite Forall_forall in FM. destruct (FM _ (nth_error_In _ _ E)) as [W1 W2]. cbn [fst snd] in *.
    rewrite range_write_other; [exact R3|lia|]. left. unfold h in W1. lia.
Qed.
