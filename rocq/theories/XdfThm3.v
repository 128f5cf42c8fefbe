(** The property theorems on XDF files, before their final statement. *)
From Coq Require Import ZArith List Lia Bool Permutation.
From Verif Require Import Bits Handles HandlesFacts WaFile Xdf XdfLib XdfInv XdfDel XdfPut XdfPut2 XdfPut3 XdfPut4 XdfOpen XdfClose XdfClose2 XdfReopen XdfCreate XdfSearch XdfAbs XdfCkpt XdfLoc XdfHist XdfSys XdfSys2 XdfSpec XdfThm XdfThm2 XdfEnum XdfSta XdfCrash.
Import ListNotations.
Open Scope Z_scope.

(** * Positions *)
Lemma NoDup_app_ok {A} (l m : list A) : NoDup l -> NoDup m -> (forall x, In x l -> In x m -> False) -> NoDup (l ++ m).
Proof.
  induction l as [|a l IH]; intros L M D; [exact M|]. inversion L; subst. cbn [app]. constructor.
  - rewrite in_app_iff. intros [X|X]; [contradiction|]. apply (D a); [left; reflexivity|exact X].
  - apply IH; auto. intros x X. apply D. right. exact X.
Qed.
Lemma in_slots_from ns : forall k j r, In (j, r) (slots_from k ns) <-> exists n, (k <= j)%nat /\ nth_error ns (j - k) = Some n /\ (r < n)%nat.
Proof.
  induction ns as [|n ns IH]; intros k j r; cbn [slots_from].
  - split; [intros []|]. intros (n & _ & N & _). destruct (j - k)%nat; discriminate.
  - rewrite in_app_iff, in_map_iff, IH. split.
    + intros [(x & E & X)|(m & L & N & R)].
      * injection E as <- <-. apply in_seq in X. exists n. rewrite Nat.sub_diag. repeat split; try lia. 
      * exists m. split; [lia|]. replace (j - k)%nat with (S (j - S k)) by lia. auto.
    + intros (m & L & N & R). destruct (Nat.eq_dec j k) as [->|NE].
      * left. rewrite Nat.sub_diag in N. injection N as <-. exists r. split; [reflexivity|]. apply in_seq. lia.
      * right. exists m. split; [lia|]. replace (j - k)%nat with (S (j - S k)) in N by lia. auto.
Qed.
Lemma slots_from_nodup ns : forall k, NoDup (slots_from k ns).
Proof.
  induction ns as [|n ns IH]; intros k; cbn [slots_from]; [constructor|]. apply NoDup_app_ok; [|apply IH|].
  - apply FinFun.Injective_map_NoDup; [intros a b H; congruence|apply seq_NoDup].
  - intros [j r] A B. apply in_map_iff in A. destruct A as (x & E & _). injection E as <- _. apply in_slots_from in B. destruct B as (m & L & _). lia.
Qed.

Lemma positions_ent f k r : finv f -> In (k, r) (positions (page_sizes f)) <-> ent f k r = Some (entry_words f k r).
Proof.
  intros FI. rewrite <- slots_positions. unfold slots. rewrite in_slots_from. split.
  - intros (n & _ & N & R). rewrite Nat.sub_0_r in N. apply (ent_words f k r n FI N R).
  - intros E. apply entry_at_page in E. destruct E as (n & p & N & P & R & _). exists n. rewrite Nat.sub_0_r. repeat split; try assumption. lia.
Qed.
Lemma positions_nodup f : NoDup (positions (page_sizes f)).
Proof. rewrite <- slots_positions. apply slots_from_nodup. Qed.

Lemma abs_live_iff f k r : finv f -> (exists x, abs f k r = Some (Some x)) <-> In (k, r) (filter (fun s => live_entry (entry_words f (fst s) (snd s))) (positions (page_sizes f))).
Proof.
  intros FI. rewrite filter_In, (positions_ent f k r FI). cbn [fst snd]. unfold abs. split.
  - intros (x & X). destruct (ent f k r) as [e|] eqn:E; [|discriminate]. destruct (live e) eqn:L; [|discriminate].
    assert (e = entry_words f k r) as <-.
    { apply entry_at_page in E. destruct E as (n & p & N & P & R & Q). unfold entry_words. rewrite P. symmetry. apply nth_error_nth. exact Q. }
    split; [reflexivity|exact L].
  - intros (E & L). rewrite E. unfold live_entry in L. unfold live. rewrite L. eauto.
Qed.

Lemma n_live_abs f g : finv f -> finv g -> (forall k r, abs f k r = abs g k r) -> n_live f = n_live g.
Proof.
  intros F G E. unfold n_live. f_equal. apply Permutation_length. apply NoDup_Permutation.
  - apply NoDup_filter. apply positions_nodup.
  - apply NoDup_filter. apply positions_nodup.
  - intros [k r]. rewrite <- (abs_live_iff f k r F), <- (abs_live_iff g k r G), E. reflexivity.
Qed.

(** * Put, then read (C20) *)
Lemma stamped_put buf addr : 2 <= b_nbits buf / 32 -> b_nbits buf / 32 <= Z.of_nat (length (b_data buf)) ->
  firstn (Z.to_nat (b_nbits buf / 32)) (stamped (b_data buf) addr (b_nbits buf / 32)) = put_words buf (w32 addr).
Proof.
  intros A B. unfold put_words, stamped. set (n := b_nbits buf / 32) in *. destruct (b_data buf) as [|x [|y l]]; cbn [length] in B; try lia.
  destruct (Z.to_nat n) as [|[|m]] eqn:M; try lia. reflexivity.
Qed.

Lemma put_spec s junk iun handle buf s1 : wf s -> ok_op s (OpPut junk iun handle buf) -> step (OpPut junk iun handle buf) s = Some (0, s1) ->
  exists p i f k r e, s_fs s1 p = Opened i /\ w_file (s_w s) i = Some f /\ f_iun f = iun /\
    sabs s1 p k r = Some (Some (e, put_words buf (w32 (e_addr e)))) /\
    (f_kp f = std_kp -> e = mk_hd (w_idtyp (nth 0 (b_data buf) 0)) (b_nbits buf / 32 / 2) :: w32 (e_addr e) :: firstn (2 * (f_plen f - 1)) (skipn 2 (b_data buf))) /\
    (handle = 0 -> sabs s p k r = None) /\
    (forall q j t, (q, j, t) <> (p, k, r) -> (handle <> 0 -> ~ designates s (Z.abs handle) q j t) -> sabs s1 q j t = sabs s q j t) /\
    exists fk e0, f_kp fk = f_kp f /\ hkeep (f_hdr f) (f_hdr fk) /\ length e0 = (2 * f_plen f)%nat /\ keyed fk e0 e (b_data buf) (e_addr e) (b_nbits buf / 32).
Proof.
  intros W OK ST. pose proof (step_spec _ _ _ _ W OK ST) as [W1 E]. cbn [effect Z.eqb] in E. pose proof OK as ((_ & B2 & B3 & _) & _).
  destruct E as (p & i & f & k & r & e & ws & P & FX & F & WB & HN & EW & [EK EKY] & WH & TG & EFF). rewrite stamped_put in EW by lia.
  exists p, i, f, k, r, e. split.
  { cbn [step] in ST. destruct (xdfput _ _ _ _ _) as [[[c w'] b']|]; [|discriminate]. cbn [bind] in ST. injection ST as _ <-. exact P. }
  split; [exact F|]. split. { destruct (file_index_own _ _ _ FX) as (g & FG & IU & _). congruence. }
  split. { rewrite EFF, Nat.eqb_refl. unfold eq2. rewrite !Nat.eqb_refl. cbn [andb]. rewrite EW. reflexivity. }
  split; [exact EK|]. split. { intros ->. destruct WH as [WH|(H & _)]; [exact WH|lia]. }
  split; [|exact EKY]. intros q j t NE ND. rewrite EFF. destruct (Nat.eqb_spec q p) as [->|]; [|reflexivity].
  destruct (eq2 j t k r) eqn:EQ. { unfold eq2 in EQ. apply andb_prop in EQ. destruct EQ as [E1 E2]. apply Nat.eqb_eq in E1, E2. subst. congruence. }
  destruct (is_tgt (put_tgt handle) j t) eqn:IT; [|reflexivity]. exfalso. unfold put_tgt in IT. destruct (Z.eqb_spec handle 0) as [->|HZ]; [discriminate|].
  cbn [is_tgt] in IT. unfold eq2 in IT. apply andb_prop in IT. destruct IT as [E1 E2]. apply Nat.eqb_eq in E1, E2. apply (ND HZ). destruct (HN HZ) as [_ HI].
  unfold designates. rewrite HI. auto.
Qed.

(** * Search (C21) *)
Lemma enum_det call w h l w' : enumerates call w h l w' -> forall l2 w2, enumerates call w h l2 w2 -> l2 = l /\ w2 = w'.
Proof.
  induction 1 as [w h w' C|w h h' w' l w'' C P E IH]; intros l2 w2 E2; inversion E2; subst.
  - split; congruence.
  - exfalso. assert (ERR_NOT_FOUND = h') by congruence. subst h'. unfold ERR_NOT_FOUND in *. lia.
  - exfalso. assert (ERR_NOT_FOUND = h') by congruence. subst h'. unfold ERR_NOT_FOUND in *. lia.
  - assert (h' = h'0 /\ w' = w'0) as [<- <-] by (split; congruence). destruct (IH _ _ H1) as [-> ->]. auto.
Qed.

Definition search (junk : nat -> Z) (filt : Z -> bool) (iun : Z) (primk : list Z) (nprim : Z) (msk : list Z) (w : world) (h : Z) : option (Z * world) :=
  xdfloc2 (S MAX_DIR_PAGES) junk filt w iun h primk nprim (Some msk).

Lemma matching_nodup s i f filt MT : wf s -> w_file (s_w s) i = Some f -> NoDup (kp_matching f i filt MT).
Proof.
  intros W F. pose proof (fo_inv _ (wf_fok _ W i f F)) as FI. destruct (wf_named _ W i f F) as (p & P). unfold kp_matching.
  set (l := filter _ _). assert (ND : NoDup l) by (apply NoDup_filter, positions_nodup).
  assert (IN : forall k r, In (k, r) l -> ent f k r = Some (entry_words f k r)) by (intros k r I; apply filter_In in I; apply positions_ent; [exact FI|apply I]).
  clearbody l. induction l as [|[k r] l IH]; cbn [map]; [constructor|]. inversion ND; subst. constructor.
  - intros I. apply in_map_iff in I. destruct I as ([k' r'] & E & I). cbn [fst snd] in E.
    destruct (rec_handle_ent _ _ _ _ _ _ _ W P F (IN k r (or_introl eq_refl))) as (_ & A1 & A2 & _).
    destruct (rec_handle_ent _ _ _ _ _ _ _ W P F (IN k' r' (or_intror I))) as (_ & B1 & B2 & _).
    rewrite E in B1, B2. assert ((k', r') = (k, r)) by congruence. congruence.
  - apply IH; [assumption|]. intros. apply IN. right. assumption.
Qed.

Lemma search_spec s p i f junk filt primk nprim msk : wf s -> s_fs s p = Opened i -> w_file (s_w s) i = Some f -> f_kp f = std_kp ->
  nprim <> 0 -> (nkeys f <= length primk)%nat -> (nkeys f <= length msk)%nat -> all_words msk -> forall next : bool,
  exists w', enumerates (fun w h => if next && negb (h =? 0) then xdfloc2 (S MAX_DIR_PAGES) junk filt w (f_iun f) (-1) [] 0 None
                                    else search junk filt (f_iun f) primk nprim msk w h) (s_w s) 0 (matching f i filt primk msk) w'.
Proof.
  intros W P F KP NP LP LM WM next. unfold search. apply std_enum; auto.
  - apply (file_index_of _ _ _ W F).
  - apply (wf_fok _ W i f F).
  - apply (wf_seq _ W).
  - intros j g G IU. apply (wf_iun _ W j i g f G F IU).
  - exact (wf_rng _ W i f F).
  - pose proof (g_np _ _ (proj1 (fo_inv _ (wf_fok _ W i f F)))) as NPG. lia.
Qed.

Lemma kp_search_spec s p i f junk filt primk nprim msk kp MT : wf s -> s_fs s p = Opened i -> w_file (s_w s) i = Some f -> f_kp f = kp -> nprim <> 0 ->
  (forall g, fok g -> f_kp g = kp -> f_hdr g = f_hdr f -> f_plen g = f_plen f -> exists g1, aimed junk g primk nprim msk g1 /\ aims_to f MT g1) -> forall next : bool,
  exists w', enumerates (fun w h => if next && negb (h =? 0) then xdfloc2 (S MAX_DIR_PAGES) junk filt w (f_iun f) (-1) [] 0 None
                                    else xdfloc2 (S MAX_DIR_PAGES) junk filt w (f_iun f) h primk nprim msk) (s_w s) 0 (kp_matching f i filt MT) w'.
Proof.
  intros W P F KP NP AIM next. apply (kp_enum junk filt (f_iun f) primk nprim msk (S MAX_DIR_PAGES) kp); auto.
  - apply (file_index_of _ _ _ W F).
  - apply (wf_fok _ W i f F).
  - apply (wf_seq _ W).
  - intros j g G IU. apply (wf_iun _ W j i g f G F IU).
  - exact (wf_rng _ W i f F).
  - pose proof (g_np _ _ (proj1 (fo_inv _ (wf_fok _ W i f F)))) as NPG. lia.
Qed.

(** * Delete (C22) *)
Lemma matching_dead s p i f k r filt MT : wf s -> s_fs s p = Opened i -> w_file (s_w s) i = Some f -> sabs s p k r = Some None ->
  ~ In (rec_handle i k r) (kp_matching f i filt MT).
Proof.
  intros W P F D I. unfold kp_matching in I. apply in_map_iff in I. destruct I as ([k' r'] & E & I). cbn [fst snd] in E. apply filter_In in I. destruct I as [I M].
  pose proof (fo_inv _ (wf_fok _ W i f F)) as FI. apply (positions_ent f k' r' FI) in I. rewrite (sabs_open _ _ _ _ P F) in D.
  unfold abs in D. destruct (ent f k r) as [e|] eqn:EE; [|discriminate].
  destruct (rec_handle_ent _ _ _ _ _ _ _ W P F I) as (_ & A1 & A2 & _). destruct (rec_handle_ent _ _ _ _ _ _ _ W P F EE) as (_ & B1 & B2 & _).
  rewrite E in A1, A2. assert (K : k' = k) by congruence. assert (R : r' = r) by congruence. rewrite K, R in *. clear K R. assert (e = entry_words f k r) as -> by congruence.
  apply andb_prop in M. destruct M as [M _]. apply andb_prop in M. destruct M as [M _]. cbn [fst snd] in M. unfold live_entry in M. unfold live in D. rewrite M in D. discriminate.
Qed.

(** * Close and open (C25) *)
Lemma close_spec s p i f junk : wf s -> s_fs s p = Opened i -> w_file (s_w s) i = Some f ->
  exists s1 d, step (OpClose junk (f_iun f)) s = Some (0, s1) /\ s_fs s1 p = Shut d /\ opens_as d (n_live f) (abs f).
Proof.
  intros W P F. pose proof (wf_fok _ W i f F) as FK.
  assert (X : exists f', xdfcls junk false f = Some f' /\ img (f_disk f') (abs f)).
  { assert (WD : writable f \/ ~ writable f).
    { unfold writable. destruct (Z.eq_dec (hget (f_hdr f) H_RWFLG) RDMODE) as [E|E]; [right; tauto|]. destruct (f_ro f); [right; intros [_ D]; discriminate|left; auto]. }
    destruct WD as [WB|NW].
    - destruct (xdfcls_spec junk f (fo_inv _ FK) WB) as (f' & X & CE). exists f'. split; [exact X|].
      exists f'. split; [|split; [reflexivity|apply close_abs; exact CE]]. pose proof (g_hlen16 _ _ (proj1 (fo_inv _ FK))) as H16.
      unfold clean. split; [apply (ce_inv _ _ CE)|]. split; [apply (ce_clean _ _ CE)|].
      assert (LH : length (f_hdr f') = length (f_hdr f)) by (rewrite (ce_hdr _ _ CE); apply hset_length).
      split; [rewrite LH; apply (ce_disk _ _ CE)|]. rewrite (ce_hdr _ _ CE). rewrite hget_hset by (unfold H_RWFLG; lia). split; [reflexivity|].
      unfold magic_ok. rewrite hget_hset by (unfold H_RWFLG; lia). apply (fo_magic _ FK).
    - exists f. destruct (fo_ro _ FK NW) as [M I]. split; [apply xdfcls_readonly; assumption|exact I]. }
  destruct X as (f' & X & f0 & CL & D & A).
  cbn [step]. rewrite (file_index_of _ _ _ W F), F. cbn [bind]. rewrite X. cbn [bind]. eexists. exists (f_disk f'). split; [reflexivity|]. cbn [s_fs].
  rewrite P, Nat.eqb_refl. split; [reflexivity|]. rewrite <- D. apply (opens_ext _ _ (abs f0)); [exact A|].
  replace (n_live f) with (hget (f_hdr f0) H_NREC); [apply clean_opens; exact CL|].
  transitivity (n_live f0); [apply (stats_of f0 (proj1 CL))|apply n_live_abs; [apply CL|apply (fo_inv _ FK)|exact A]].
Qed.

(** * Crash before close (C26) *)
Lemma open_spec s junk p iun ro std kp mode c s1 d : wf s -> ok_op s (OpOpen junk p iun ro std kp mode) -> s_fs s p = Shut d ->
  step (OpOpen junk p iun ro std kp mode) s = Some (c, s1) -> 0 <= c ->
  exists i f f0, s_fs s1 p = Opened i /\ w_file (s_w s1) i = Some f /\ f_disk f = d /\ f_log f = [] /\ hget (f_hdr f) H_RWFLG = mode /\
     clean f0 /\ f_disk f0 = d /\ fsize f = fsize f0 /\ hget (f_hdr f0) H_NREC = c /\ forall k r, abs f0 k r = dabs d k r.
Proof.
  intros W (KP & MO & SG) P. cbn [step]. rewrite P.
  destruct (open_slot (s_w s) iun) as [[e|i]|] eqn:OS; [| |discriminate]; cbn [bind].
  - intros H. injection H as <- <-. pose proof (open_slot_err _ _ _ OS). lia.
  - destruct (wf_img _ W p d P) as (A & f0 & CL & D & AB). pose proof CL as (C1 & C2 & C3 & C4 & C5).
    destruct (xdfopn_spec junk iun ro std kp f0 mode C1 C2 C3 C4 C5) as (f & X & OP & FI & _); auto.
    { intros ST. rewrite <- (clean_word3 f0 CL), D. apply (SG ST d P). }
    rewrite D in X. rewrite X. cbn [bind]. intros H. injection H as <- <-. intros _.
    pose proof OP as (O1 & O2 & O3 & O4 & O5 & O6 & O7 & O8 & O9 & O10 & O11 & O12 & O13 & O14).
    pose proof (g_hlen16 _ _ (proj1 C1)) as H16.
    exists i, f, f0. cbn [s_fs s_w]. unfold setfs. rewrite Nat.eqb_refl, setf_same. split; [reflexivity|]. split; [reflexivity|].
    split; [congruence|]. split; [exact O8|]. split. { rewrite O9, hget_hset by (unfold H_RWFLG; lia). apply w32_id. unfold word_ok. lia. }
    split; [exact CL|]. split; [exact D|]. split. { unfold fsize. rewrite O9, hget_hset by (unfold H_RWFLG; lia). reflexivity. }
    split; [reflexivity|]. intros k r. rewrite <- D. symmetry. apply dabs_clean. exact CL.
Qed.

Lemma crash_before_close s junk p iun ro std kp mode c s1 d l s2 : wf s -> ok_op s (OpOpen junk p iun ro std kp mode) -> s_fs s p = Shut d ->
  step (OpOpen junk p iun ro std kp mode) s = Some (c, s1) -> 0 <= c ->
  hist (fun s o => no_sync p s o /\ (mode = APPEND \/ no_rewrite s o)) s1 l s2 ->
  opens_as d c (dabs d) /\ exists i f, s_fs s2 p = Opened i /\ w_file (s_w s2) i = Some f /\ f_disk f = crash d (f_log f) (length (f_log f)) 0 /\
    forall n m, opens_as (crash d (f_log f) n m) c (dabs d).
Proof.
  intros W OK P ST C H. destruct (step_spec _ _ _ _ W OK ST) as [W1 _].
  destruct (open_spec _ _ _ _ _ _ _ _ _ _ _ W OK P ST C) as (i & f & f0 & P1 & F1 & D1 & L1 & R1 & CL & D0 & FS & NR & AB).
  assert (OP0 : opens_as d c (dabs d)). { rewrite <- D0, <- NR. rewrite D0. apply (opens_ext _ _ (abs f0)); [exact AB|]. rewrite <- D0. apply clean_opens. exact CL. }
  split; [exact OP0|].
  assert (HA : forall x o, (fun s o => no_sync p s o /\ (mode = APPEND \/ no_rewrite s o)) x o -> no_sync p x o /\ (no_rewrite x o \/ mode = APPEND)) by (cbv beta; tauto).
  destruct (hist_grows _ p mode _ _ _ HA H W1 i f P1 F1 R1) as (P2 & f2 & F2 & G2).
  exists i, f2. split; [exact P2|]. split; [exact F2|]. destruct G2 as (_ & _ & _ & lg & G3 & G4 & G5). rewrite L1 in G3. cbn [app] in G3. rewrite D1 in G4.
  split. { unfold crash. rewrite G3, firstn_all. rewrite (proj2 (nth_error_None lg (length lg))) by lia. exact G4. }
  intros n m. rewrite G3. rewrite FS in G5. pose proof (proj1 CL) as [G0 I0]. pose proof (g_size _ _ G0) as SZ. fold (fsize f0) in SZ. rewrite D0 in SZ.
  assert (HX : ext (nents (f_pages f0)) f0 OHdr = Some (0, Z.of_nat (length (f_hdr f0)))) by reflexivity.
  pose proof (g_in _ _ G0 _ _ _ HX) as HI. fold (fsize f0) in HI.
  destruct (crash_past (fsize f0) d lg n m ltac:(lia) G5 SZ) as [A B].
  destruct (clean_extend f0 (crash d lg n m) CL A) as [CL' AB']; [rewrite D0; exact B|].
  apply (opens_ext _ _ (abs (f_setdisk f0 (crash d lg n m) []))). { intros k r. rewrite AB'. apply AB. }
  rewrite <- NR. apply (clean_opens _ CL').
Qed.

(** * Crash during close (C27) *)
Lemma crash_in_close s p i f junk f' : wf s -> s_fs s p = Opened i -> w_file (s_w s) i = Some f -> writable f -> xdfcls junk false f = Some f' ->
  exists ws, f_log f' = f_log f ++ ws /\ (2 <= length ws)%nat /\ f_disk f' = crash (f_disk f) ws (length ws) 0 /\
    forall n m, (1 <= n < length ws)%nat -> (n = length ws - 1 -> m = 0)%nat ->
    forall junk iun ro std kp mode, mode <> RDMODE -> exists c, c < 0 /\ xdfopn junk iun ro std kp (crash (f_disk f) ws n m) mode = Some (Err c).
Proof.
  intros W P F WB X. pose proof (wf_fok _ W i f F) as FK. destruct (xdfcls_spec junk f (fo_inv _ FK) WB) as (f1 & X1 & CE).
  assert (f1 = f') as -> by congruence. destruct (ce_log _ _ CE) as (mid & L1 & L2 & L3). cbn [app] in L1, L2.
  exists ((1, f_hdr f) :: mid ++ [(1, f_hdr f')]). split; [exact L1|]. split; [cbn [length]; rewrite app_length; cbn [length]; lia|]. split.
  { unfold crash. rewrite firstn_all, (proj2 (nth_error_None _ _)) by lia. exact L2. }
  intros n m N M. cbn [length] in N, M. rewrite app_length in N, M. cbn [length] in N, M. destruct n as [|n]; [lia|].
  pose proof (g_hlen16 _ _ (proj1 (fo_inv _ FK))) as H16.
  assert (MM : m = if Nat.eqb n (length mid) then 0%nat else m). { destruct (Nat.eqb_spec n (length mid)); [apply M; lia|reflexivity]. }
  rewrite MM. apply (flagged_open _ (f_hdr f)); [exact H16|apply (g_hlen _ _ (proj1 (fo_inv _ FK)))|apply (fo_magic _ FK)|apply WB|].
  apply close_crash; [apply (fo_inv _ FK)|exact L3|lia].
Qed.

(** * Append mode (C28) *)
Lemma step_append s o c s1 p i f k r x : wf s -> ok_op s o -> step o s = Some (c, s1) -> keeps_file p s o -> s_fs s p = Opened i -> w_file (s_w s) i = Some f ->
  hget (f_hdr f) H_RWFLG = APPEND -> sabs s p k r = Some x -> sabs s1 p k r = Some x.
Proof.
  intros W OK ST KF P F AP S. destruct (step_spec _ _ _ _ W OK ST) as [W1 E].
  destruct o; cbn [effect keeps_file] in *; try (rewrite E; exact S).
  - destruct (c =? 0); [|subst s1; exact S]. rewrite E. rewrite (proj2 (Nat.eqb_neq _ _)) by congruence. exact S.
  - destruct (c =? 0); [|rewrite E; exact S]. destruct E as (p0 & i0 & f0 & k0 & r0 & e & ws & P0 & FX & F0 & WB & HN & EW & EK & WH & TG & EFF).
    rewrite EFF. destruct (Nat.eqb_spec p p0) as [<-|]; [|exact S]. assert (i0 = i) as -> by congruence. assert (f0 = f) as -> by congruence.
    assert (handle = 0) as ->. { destruct (Z.eq_dec handle 0) as [|HZ]; [assumption|]. destruct (HN HZ) as [HA _]. congruence. }
    cbn [put_tgt Z.eqb is_tgt] in *. destruct (eq2 k r k0 r0) eqn:EQ; [|exact S]. unfold eq2 in EQ. apply andb_prop in EQ. destruct EQ as [E1 E2]. apply Nat.eqb_eq in E1, E2. subst.
    destruct WH as [WH|(HP & _)]; [congruence|lia].
  - destruct (c =? 0); [|subst s1; exact S]. destruct E as (p0 & f0 & P0 & F0 & ND & _ & EFF). rewrite EFF.
    destruct (Nat.eqb_spec p p0) as [<-|]; [|exact S]. exfalso. assert (hidx (s_w s) h = i) by congruence. assert (f0 = f) as -> by congruence.
    unfold no_del in ND. rewrite AP in ND. discriminate.
Qed.
