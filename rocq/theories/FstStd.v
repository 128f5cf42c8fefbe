(** Files made by c_fstouv are standard files, through any history. *)
From Coq Require Import ZArith List Lia Bool.
From Verif Require Import Bits Handles HandlesFacts WaFile Xdf XdfLib XdfInv XdfDel XdfPut XdfPut2 XdfPut3 XdfPut4 XdfOpen XdfClose XdfClose2 XdfReopen XdfCreate XdfSearch XdfAbs XdfCkpt XdfLoc XdfHist XdfSys XdfSys2 XdfSpec XdfThm XdfThm2 XdfSta XdfKeys XdfKeysFacts XdfKeysHist BitIO Fst FstSpec FstFacts FstSearch FstThm FstThm2 FstLuk.
Import ListNotations.
Open Scope Z_scope.
Open Scope opt_scope.

(** The sizes of the keys. *)
Definition sizes (h : list Z) : Z * Z := (h_lprm h, h_laux h).
Definition dsizes (d : disk) : Z * Z := sizes (firstn (Z.to_nat (2 * w_lng (nth 0 d 0))) d).
Lemma sizes_ext h h' : (forall k, (k = 10 \/ k = 11)%nat -> hget h' k = hget h k) -> sizes h' = sizes h.
Proof. intros H. unfold sizes, h_lprm, h_laux. rewrite !H by (unfold H_PRM, H_AUX; lia). reflexivity. Qed.
Lemma sizes_hkeep h h' : hkeep h h' -> sizes h' = sizes h.
Proof. intros [_ K]. apply sizes_ext. intros k D. apply K. unfold hkept. lia. Qed.
Lemma sizes_rwflg h v : (16 <= length h)%nat -> sizes (hset h H_RWFLG v) = sizes h.
Proof. intros L. apply sizes_ext. intros k D. rewrite hget_hset by (unfold H_RWFLG; lia). destruct (Nat.eqb_spec k H_RWFLG) as [->|]; [unfold H_RWFLG in D; lia|reflexivity]. Qed.
Lemma dsizes_of d h : range d 0 (length h) = h -> (1 <= length h)%nat -> Z.of_nat (length h) = 2 * h_lng h -> dsizes d = sizes h.
Proof.
  intros R L HL. unfold dsizes. f_equal. assert (N : nth 0 d 0 = nth 0 h 0).
  { rewrite <- R at 1. unfold range. rewrite skipn_O. destruct (length h); [lia|]. destruct d; reflexivity. }
  rewrite N. change (w_lng (nth 0 h 0)) with (h_lng h). rewrite <- HL, Nat2Z.id. unfold range in R. rewrite skipn_O in R. exact R.
Qed.
Definition sized (s : sys) (p : nat) (D : Z * Z) : Prop :=
  match s_fs s p with
  | Opened i => exists f, w_file (s_w s) i = Some f /\ sizes (f_hdr f) = D /\ (protected f -> dsizes (f_disk f) = D)
  | Shut d => dsizes d = D
  | _ => False
  end.
Lemma step_sized s o c s1 p D : wf s -> ok_op s o -> step o s = Some (c, s1) -> keeps_file p s o -> sized s p D -> sized s1 p D.
Proof.
  intros W OK ST KF DS. unfold sized in DS. destruct (s_fs s p) as [|d|i] eqn:P; [contradiction| |].
  - destruct (step_shut _ _ _ _ _ _ W OK ST P KF) as [P1|(i & f & f0 & mode & P1 & F1 & CL & D0 & D1 & H1)]; unfold sized; rewrite P1; [exact DS|].
    pose proof CL as ((G & _) & _ & R & _ & _). pose proof (g_hlen16 _ _ G) as H16.
    assert (DD : dsizes d = sizes (f_hdr f0)) by (rewrite <- D0; apply dsizes_of; [exact R|lia|apply (g_hlen _ _ G)]).
    exists f. split; [exact F1|]. split; [rewrite H1, sizes_rwflg by exact H16; congruence|]. intros _. rewrite D1. exact DS.
  - destruct DS as (f & F & DF & DP). destruct (prot_dec f) as [WB|PR].
    + destruct (step_kept _ _ _ _ _ _ _ W OK ST P F WB) as [(P1 & f' & F' & HK & WB')|(f' & P1 & CE)]; unfold sized; rewrite P1.
      * exists f'. split; [exact F'|]. split; [rewrite (sizes_hkeep _ _ HK); exact DF|]. intros PR. exfalso. exact (protected_not _ PR WB').
      * pose proof (ce_inv _ _ CE) as [G _]. pose proof (g_hlen16 _ _ G) as H16. rewrite (dsizes_of _ (f_hdr f')).
        -- rewrite (ce_hdr _ _ CE), sizes_rwflg; [exact DF|]. rewrite (ce_hdr _ _ CE), hset_length in H16. exact H16.
        -- rewrite <- (ce_disk _ _ CE) at 2. f_equal. rewrite (ce_hdr _ _ CE). apply hset_length.
        -- lia.
        -- apply (g_hlen _ _ G).
    + destruct (step_protected _ _ _ _ _ _ _ W OK ST P F PR) as [A B].
      assert (X : (match o with OpClose _ iun => f_iun f = iun | _ => False end) \/ match o with OpClose _ iun => f_iun f <> iun | _ => True end).
      { destruct o; auto. destruct (Z.eq_dec (f_iun f) iun); auto. }
      destruct X as [X|X].
      * destruct o; try contradiction. unfold sized. rewrite (A X). apply DP, PR.
      * destruct (B X) as (P1 & f' & F' & D1 & _ & H1 & _ & PR'). unfold sized. rewrite P1. exists f'. split; [exact F'|]. rewrite H1, D1. auto.
Qed.
Lemma hist_sized (A : sys -> op -> Prop) p D s l s1 : (forall s o, A s o -> keeps_file p s o) -> wf s -> hist A s l s1 -> sized s p D -> sized s1 p D.
Proof.
  intros HA W H. induction H as [s|s o c s1 l s2 OK AO ST H IH]; intros DS; [exact DS|].
  apply IH; [apply (step_spec _ _ _ _ W OK ST)|]. eapply step_sized; eauto.
Qed.
Lemma std_keys_ok : keys_ok stdfkeys stdf_info_keys.
Proof.
  split; [|split].
  - apply Nat.leb_le. vm_compute. reflexivity.
  - apply Nat.leb_le. vm_compute. reflexivity.
  - apply Z.leb_le. vm_compute. reflexivity.
Qed.
Lemma sized_std s p i f : wf s -> sized s p (9, 1) -> opened s p i f -> f_kp f = std_kp -> std_file f.
Proof.
  intros W S [P F] KP. unfold sized in S. rewrite P in S. destruct S as (f' & F' & SZ & _). assert (f' = f) as -> by congruence. unfold sizes in SZ.
  pose proof (wf_fok _ W i f F) as FK. pose proof (fo_inv _ FK) as [G _]. pose proof (g_lprm _ _ G) as LP. pose proof (fo_il _ FK) as IL. assert (h_lprm (f_hdr f) = 9 /\ h_laux (f_hdr f) = 1) as [A B] by (split; congruence).
  split; [exact KP|]. rewrite B in IL. rewrite A in LP. split; [lia|exact IL].
Qed.

(** A file made by c_fstouv is, as long as it exists, standard when c_fstouv
    opens it. *)
Lemma created_std s p iun junk s1 : wf s -> step (fst_create junk p iun) s = Some (0, s1) -> sized s1 p (9, 1) /\ exists i f, opened s1 p i f /\ f_kp f = std_kp.
Proof.
  intros W ST. cbn [step fst_create] in ST.
  assert (MAIN : forall d, bind (open_slot (s_w s) iun) (fun r => match r with Err c => Some (c, s)
     | Go i => bind (xdfopn_create junk iun false true std_kp d stdfkeys stdf_info_keys STDR) (fun cf => let (c, f) := cf in Some (c, mksys (setf (s_w s) i (Some f)) (setfs (s_fs s) p (Opened i)))) end) = Some (0, s1) ->
     sized s1 p (9, 1) /\ exists i f, opened s1 p i f /\ f_kp f = std_kp).
  { intros d. destruct (open_slot (s_w s) iun) as [[e|i]|] eqn:OS; [| |discriminate]; cbn [bind].
    - intros H. pose proof (open_slot_err _ _ _ OS) as X. assert (e = 0) by congruence. lia.
    - destruct (open_slot_spec _ _ _ OS) as (N & R & FX & _).
      destruct (create_spec junk iun true std_kp d stdfkeys stdf_info_keys STDR std_keys_ok std_kp_ok) as (f & X & FI & WB & RW & W2 & W3 & IU & RO & SD & KPE & PL & IL & LA & _).
      rewrite X. cbn [bind]. intros H. assert (s1 = mksys (setf (s_w s) i (Some f)) (setfs (s_fs s) p (Opened i))) as -> by congruence.
      assert (PS : setfs (s_fs s) p (Opened i) p = Opened i) by (unfold setfs; rewrite Nat.eqb_refl; reflexivity).
      split.
      + unfold sized. cbn [s_fs s_w]. rewrite PS. exists f. split; [apply setf_same|]. split.
        * unfold sizes. pose proof (g_lprm _ _ (proj1 FI)) as LP. rewrite LA, LP, PL, IL. vm_compute. reflexivity.
        * intros PR. exfalso. exact (protected_not _ PR WB).
      + exists i, f. split; [|exact KPE]. split; [exact PS|apply setf_same]. }
  destruct (s_fs s p) as [|d|j]; [| |discriminate]; eapply MAIN; exact ST.
Qed.

(** Writing shows that the file is so. *)
Lemma wrote_writable orc junk iun a fld rewrit s s1 p i f : wf s -> opened s p i f -> std_file f -> f_iun f = iun -> args_ok a -> field_ok a fld -> space f a ->
  fstecr orc junk iun a fld rewrit s = Some (0, s1) -> sized s1 p (9, 1).
Proof.
  intros W OP SF IU AO FO SP FE. destruct (fstecr_put _ _ _ _ _ _ _ _ _ _ _ W OP SF IU AO FO SP FE) as (_ & _ & _ & buf & dat & h & s0 & _ & (W0 & _ & FS0 & _ & g & G & LK) & ST & OK & _).
  destruct OP as [P F]. pose proof (wf_fok _ W0 i g G) as FK. assert (IG : f_iun g = iun) by (destruct LK as (_ & _ & _ & _ & _ & _ & X & _); congruence).
  assert (HK : hkeep (f_hdr f) (f_hdr g)) by (destruct LK as (_ & _ & -> & _); apply hkeep_refl).
  assert (WB : writable g).
  { destruct (prot_dec g) as [X|PR]; [exact X|]. exfalso. cbn [step] in ST. destruct (xdfput junk (s_w s0) iun h buf) as [[[c w'] b']|] eqn:X; [|discriminate]. cbn [bind] in ST.
    destruct (xdfput_ro _ _ _ _ _ _ _ _ _ _ (eq_trans (f_equal _ (eq_sym IG)) (file_index_of _ _ _ W0 G)) G (protected_not _ PR) X) as (C & _). apply C. congruence. }
  apply (step_sized s0 (OpPut junk iun h buf) 0 s1 p (9, 1) W0 OK ST); [exact Logic.I|]. unfold sized. rewrite FS0, P. exists g. split; [exact G|].
  split; [|intros PR; exfalso; exact (protected_not _ PR WB)]. rewrite (sizes_hkeep _ _ HK). pose proof (wf_fok _ W i f F) as FF.
  destruct SF as (_ & PL & IL). unfold sizes. rewrite (g_lprm _ _ (proj1 (fo_inv _ FF))), PL. f_equal. pose proof (fo_il _ FF) as X. rewrite IL in X. pose proof (Z.mod_pos_bound (hget (f_hdr f) H_AUX) (2 ^ 16) ltac:(lia)) as B. fold (h_laux (f_hdr f)) in B. lia.
Qed.

(** The file is still open and standard. *)
Lemma wrote_std orc junk iun a fld rewrit s s1 p i f : wf s -> opened s p i f -> std_file f -> f_iun f = iun -> args_ok a -> field_ok a fld -> space f a ->
  fstecr orc junk iun a fld rewrit s = Some (0, s1) -> exists f1, opened s1 p i f1 /\ std_file f1 /\ f_iun f1 = iun.
Proof.
  intros W OP SF IU AO FO SP FE. destruct (fstecr_put _ _ _ _ _ _ _ _ _ _ _ W OP SF IU AO FO SP FE) as (_ & _ & _ & buf & dat & h & s0 & _ & (W0 & _ & FS0 & _ & g & G & LK) & ST & OK & _).
  destruct OP as [P F]. destruct LK as (_ & _ & _ & KP & PL & IL & IG & _). pose proof (step_put_fs _ _ _ _ _ _ _ ST) as FS1. cbn [step] in ST.
  destruct (xdfput junk (s_w s0) iun h buf) as [[[c w'] b']|] eqn:X; [|discriminate]. cbn [bind] in ST. assert (s1 = mksys w' (s_fs s0)) as E1 by congruence.
  assert (FX : file_index (s_w s0) iun = Some i) by (rewrite <- IU, <- IG; apply (file_index_of _ _ _ W0 G)).
  destruct OK as (BO & RM). destruct (RM i g FX G) as [R1 R2].
  pose proof (xdfput_spec junk (s_w s0) iun h buf i g FX G (fo_inv _ (wf_fok _ W0 i g G)) BO R1 R2) as PS. rewrite X in PS. destruct PS as (O & f' & F' & PS).
  assert (S : stat g f') by (destruct PS as [(_ & Q)|(_ & _ & AP & k & r & e1 & e0 & PE & WH & _)]; [apply Q|apply (pe_stat _ _ _ _ _ _ _ PE)]).
  destruct S as (S1 & _ & _ & S4 & S5 & S6 & _). exists f'. split; [split; [rewrite FS1, FS0; exact P|rewrite E1; exact F']|]. destruct SF as (A & B & C). split; [|congruence].
  split; [congruence|]. split; [congruence|]. assert (f_ilen f' = f_ilen g) by congruence. congruence.
Qed.

(** ** What writing does *)
Lemma write_all orc junk iun a fld rewrit s s1 p i f f1 : wf s -> opened s p i f -> std_file f -> f_iun f = iun -> args_ok a -> field_ok a fld -> space f a ->
  fstecr orc junk iun a fld rewrit s = Some (0, s1) ->
  exists k r d, s_fs s1 p = Opened i /\ describes a d /\ prm_later s1 p k r d /\
    (field_fits a fld -> legible a fld d -> forall junk' l s2 j g dst, hist (spares p k r) s1 l s2 -> opened s2 p j g -> f_kp g = std_kp -> dst_ok a dst ->
       exists dst', fstluk orc junk' (s_w s2) (rec_handle j k r) dst = Some (rec_handle j k r, Some (a_ni a, a_nj a, Z.max 1 (a_nk a)), dst') /\ reads_field a fld dst dst') /\
    (opened s1 p i f1 -> 
      (~ In (k, r) (positions (page_sizes f)) \/ rewritten a rewrit i f = Some (k, r)) /\
      (forall filt q x, In x (found filt q i f1) <->
         x = (k, r) /\ wanted q (label_of d) = true /\ filt (rec_handle i k r) = true \/
         x <> (k, r) /\ rewritten a rewrit i f <> Some x /\ In x (found filt q i f))).
Proof.
  intros W OP SF IU AO FO SP FE. destruct (fstecr_written _ _ _ _ _ _ _ _ _ _ _ W OP SF IU AO FO SP FE) as (IR & k & r & e & dat & WR).
  pose proof (wrote_writable _ _ _ _ _ _ _ _ _ _ _ W OP SF IU AO FO SP FE) as SZ.
  destruct (prm_of_written _ _ _ _ _ _ _ _ _ _ _ _ _ IR AO WR) as (d & DS & DT & LB & PM). exists k, r, d. split; [apply WR|]. split; [exact DS|]. split; [exact PM|]. split.
  - intros FF LE junk' l s2 j g dst H OP2 KG DO. eapply luk_of_written; eauto.
    assert (W2 : wf s2) by (apply (hist_wf _ _ _ _ H), WR). apply (sized_std s2 p j g W2); [|exact OP2|exact KG].
    eapply (hist_sized (spares p k r)); [|apply WR|exact H|exact SZ]. intros x o. unfold spares, touches, keeps_file. destruct o; auto.
  - intros OP1. eapply found_of_written; eauto.
Qed.
