(** The key descriptors of a file are those it was created with, through any
    history of calls. *)
From Coq Require Import ZArith List Lia Bool.
From Verif Require Import Bits Handles HandlesFacts WaFile Xdf XdfLib XdfInv XdfDel XdfPut XdfPut2 XdfPut3 XdfPut4 XdfOpen XdfClose XdfClose2 XdfReopen XdfCreate XdfSearch XdfAbs XdfCkpt XdfLoc XdfHist XdfSys XdfSys2 XdfSpec XdfThm XdfEnum XdfSta XdfThm2 XdfKeys XdfKeysFacts.
Import ListNotations.
Open Scope Z_scope.

Definition desc (h : list Z) : list field * list field * Z := (prim_fields h, info_fields h, h_lprm h).
Definition ddesc (d : disk) : list field * list field * Z := desc (firstn (Z.to_nat (2 * w_lng (nth 0 d 0))) d).

Lemma desc_ext h h' : (forall k, (k = 10 \/ k = 11 \/ 16 <= k)%nat -> hget h' k = hget h k) -> desc h' = desc h.
Proof.
  intros H. assert (A : h_nprm h' = h_nprm h) by (unfold h_nprm; rewrite H by (unfold H_PRM; lia); reflexivity).
  assert (B : h_naux h' = h_naux h) by (unfold h_naux; rewrite H by (unfold H_AUX; lia); reflexivity).
  assert (C : h_lprm h' = h_lprm h) by (unfold h_lprm; rewrite H by (unfold H_PRM; lia); reflexivity).
  assert (D : forall o n, fields h' o n = fields h o n). { intros o n. unfold fields. apply map_ext. intros i. f_equal. apply (H (17 + 2 * i)%nat). lia. }
  unfold desc, prim_fields, info_fields. rewrite A, B, C, !D. reflexivity.
Qed.
Lemma desc_hkeep h h' : hkeep h h' -> desc h' = desc h.
Proof. intros [_ K]. apply desc_ext. intros k D. apply K. unfold hkept. lia. Qed.
Lemma desc_rwflg h v : (16 <= length h)%nat -> desc (hset h H_RWFLG v) = desc h.
Proof. intros L. apply desc_ext. intros k D. rewrite hget_hset by (unfold H_RWFLG; lia). destruct (Nat.eqb_spec k H_RWFLG) as [->|]; [unfold H_RWFLG in D; lia|reflexivity]. Qed.

Lemma ddesc_of d h : range d 0 (length h) = h -> (1 <= length h)%nat -> Z.of_nat (length h) = 2 * h_lng h -> ddesc d = desc h.
Proof.
  intros R L HL. unfold ddesc. f_equal. assert (N : nth 0 d 0 = nth 0 h 0).
  { rewrite <- R at 1. unfold range. rewrite skipn_O. destruct (length h); [lia|]. destruct d; reflexivity. }
  rewrite N. change (w_lng (nth 0 h 0)) with (h_lng h). rewrite <- HL, Nat2Z.id. unfold range in R. rewrite skipn_O in R. exact R.
Qed.

(** The file [p] has descriptors [D]. *)
Definition described (s : sys) (p : nat) (D : list field * list field * Z) : Prop :=
  match s_fs s p with
  | Opened i => exists f, w_file (s_w s) i = Some f /\ desc (f_hdr f) = D /\ (protected f -> ddesc (f_disk f) = D)
  | Shut d => ddesc d = D
  | _ => False
  end.

Lemma prot_dec f : writable f \/ protected f.
Proof. unfold writable, protected. destruct (Z.eq_dec (hget (f_hdr f) H_RWFLG) RDMODE) as [E|E]; [right; auto|]. destruct (f_ro f); auto. Qed.

Lemma step_kept s o c s1 p i f : wf s -> ok_op s o -> step o s = Some (c, s1) -> s_fs s p = Opened i -> w_file (s_w s) i = Some f -> writable f ->
  (s_fs s1 p = Opened i /\ exists f', w_file (s_w s1) i = Some f' /\ hkeep (f_hdr f) (f_hdr f') /\ writable f') \/
  (exists f', s_fs s1 p = Shut (f_disk f') /\ close_effect f f').
Proof.
  intros W OK ST P F WB.
  assert (SAME : forall x, s_fs x p = Opened i -> w_file (s_w x) i = Some f ->
    (s_fs x p = Opened i /\ exists f', w_file (s_w x) i = Some f' /\ hkeep (f_hdr f) (f_hdr f') /\ writable f') \/ (exists f', s_fs x p = Shut (f_disk f') /\ close_effect f f')).
  { intros x A B. left. split; [exact A|]. exists f. split; [exact B|]. split; [apply hkeep_refl|exact WB]. }
  assert (STAT : forall f', stat f f' -> hkeep (f_hdr f) (f_hdr f') /\ writable f').
  { intros f' S. pose proof (stat_rwflg _ _ S) as RW. destruct S as (_ & RO & _ & _ & _ & _ & HK). split; [exact HK|]. destruct WB as [W1 W2]. unfold writable. rewrite RW, RO. auto. }
  destruct o as [junk q iun std kp pri aux sign|junk q iun ro std kp mode|junk iun handle buf|h|junk filt iun handle primk nprim msk|junk iun|junk iun]; cbn [step] in ST.
  - destruct (s_fs s q) as [|d|j] eqn:Q; [| |discriminate]; destruct (open_slot (s_w s) iun) as [[e|j]|] eqn:OS; try discriminate; cbn [bind] in ST.
    1, 3: injection ST as <- <-; apply SAME; assumption.
    all: destruct (xdfopn_create _ _ _ _ _ _ _ _ _) as [[c0 g]|]; [|discriminate]; cbn [bind] in ST; injection ST as <- <-;
         destruct (open_slot_spec _ _ _ OS) as (N & _); apply SAME; cbn [s_fs s_w];
         [unfold setfs; destruct (Nat.eqb_spec p q) as [->|]; [congruence|exact P]|rewrite setf_other; [exact F|intros ->; congruence]].
  - destruct (s_fs s q) as [|d|j] eqn:Q; try discriminate. destruct (open_slot (s_w s) iun) as [[e|j]|] eqn:OS; try discriminate; cbn [bind] in ST.
    + injection ST as <- <-; apply SAME; assumption.
    + destruct (xdfopn _ _ _ _ _ _ _) as [[e|[n g]]|]; try discriminate. cbn [bind] in ST. injection ST as <- <-. destruct (open_slot_spec _ _ _ OS) as (N & _).
      apply SAME; cbn [s_fs s_w]; [unfold setfs; destruct (Nat.eqb_spec p q) as [->|]; [congruence|exact P]|rewrite setf_other; [exact F|intros ->; congruence]].
  - destruct (xdfput junk (s_w s) iun handle buf) as [[[c0 w'] b']|] eqn:X; [|discriminate]. cbn [bind] in ST. injection ST as <- <-.
    destruct (file_index (s_w s) iun) as [j|] eqn:FX.
    2: { destruct (xdfput_nofile _ _ _ _ _ _ _ _ FX X) as (_ & -> & _). apply SAME; assumption. }
    destruct (file_index_own _ _ _ FX) as (g & FJ & IU & _). destruct OK as (BO & RM). destruct (RM j g FX FJ) as [R1 R2].
    pose proof (xdfput_spec junk (s_w s) iun handle buf j g FX FJ (fo_inv _ (wf_fok _ W j g FJ)) BO R1 R2) as PS. rewrite X in PS.
    destruct PS as (O & f' & F' & PS). destruct (Nat.eq_dec j i) as [->|N].
    + assert (g = f) as -> by congruence. left. split; [exact P|]. exists f'. split; [exact F'|]. apply STAT.
      destruct PS as [(_ & Q)|(_ & _ & AP & k & r & e1 & e0 & PE & WH & _)]; [apply Q|apply (pe_stat _ _ _ _ _ _ _ PE)].
    + apply SAME; [exact P|]. cbn [s_w]. rewrite (proj2 O) by congruence. exact F.
  - destruct (w_file (s_w s) (hidx (s_w s) h)) as [g|] eqn:FH.
    2: { unfold xdfdel in ST. rewrite FH in ST. cbn [bind] in ST. injection ST as <- <-. apply SAME; assumption. }
    destruct (xdfdel_spec (s_w s) h g FH (fo_inv _ (wf_fok _ W _ g FH)) (OK g FH)) as (w' & X & E). rewrite X in ST. cbn [bind] in ST. injection ST as <- <-.
    destruct (del_code g (hpage h) (hrec h) =? 0) eqn:DC.
    + destruct E as ([_ O] & f' & F' & D). destruct (Nat.eq_dec (hidx (s_w s) h) i) as [HI|N].
      * rewrite HI in *. assert (g = f) as -> by congruence. left. split; [exact P|]. exists f'. split; [exact F'|]. apply STAT. apply D.
      * apply SAME; [exact P|]. cbn [s_w]. rewrite O by congruence. exact F.
    + subst w'. apply SAME; assumption.
  - destruct (xdfloc2 _ _ _ _ _ _ _ _ _) as [[c0 w']|] eqn:X; [|discriminate]. cbn [bind] in ST. injection ST as <- <-.
    destruct (file_index (s_w s) iun) as [j|] eqn:FX.
    2: { unfold xdfloc2 in X. rewrite FX in X. injection X as <- <-. apply SAME; assumption. }
    destruct (file_index_own _ _ _ FX) as (g & FJ & IU & _).
    destruct (xdfloc2_moved _ _ _ _ _ _ _ _ _ _ _ _ _ FX FJ (fo_inv _ (wf_fok _ W j g FJ)) X) as ([_ O] & f' & F' & Q & _).
    destruct (Nat.eq_dec j i) as [->|N].
    + assert (g = f) as -> by congruence. left. split; [exact P|]. exists f'. split; [exact F'|]. apply STAT, Q.
    + apply SAME; [exact P|]. cbn [s_w]. rewrite O by congruence. exact F.
  - destruct (file_index (s_w s) iun) as [j|] eqn:FX; [|injection ST as <- <-; apply SAME; assumption].
    destruct (file_index_own _ _ _ FX) as (g & FJ & IU & _). rewrite FJ in ST. cbn [bind] in ST.
    destruct (Nat.eq_dec j i) as [->|N].
    + assert (g = f) as -> by congruence. destruct (xdfckpt_spec junk f (fo_inv _ (wf_fok _ W i f F)) WB) as (f' & X & CK). rewrite X in ST. cbn [bind] in ST. injection ST as <- <-.
      left. split; [exact P|]. exists f'. split; [apply setf_same|]. apply STAT, (k_stat _ _ CK).
    + destruct (xdfcls junk true g) as [g'|] eqn:X; [|discriminate]. cbn [bind] in ST. injection ST as <- <-.
      apply SAME; [exact P|]. cbn [s_w]. rewrite setf_other by congruence. exact F.
  - destruct (file_index (s_w s) iun) as [j|] eqn:FX; [|injection ST as <- <-; apply SAME; assumption].
    destruct (file_index_own _ _ _ FX) as (g & FJ & IU & _). rewrite FJ in ST. cbn [bind] in ST.
    destruct (Nat.eq_dec j i) as [->|N].
    + assert (g = f) as -> by congruence. destruct (xdfcls_spec junk f (fo_inv _ (wf_fok _ W i f F)) WB) as (f' & X & CE). rewrite X in ST. cbn [bind] in ST. injection ST as <- <-.
      right. exists f'. split; [|exact CE]. cbn [s_fs]. rewrite P, Nat.eqb_refl. reflexivity.
    + destruct (xdfcls junk false g) as [g'|] eqn:X; [|discriminate]. cbn [bind] in ST. injection ST as <- <-.
      apply SAME; cbn [s_fs s_w]; [rewrite P, (proj2 (Nat.eqb_neq _ _)) by congruence; reflexivity|]. rewrite setf_other by congruence. exact F.
Qed.

(** Files that are shut. *)
Lemma step_shut s o c s1 p d : wf s -> ok_op s o -> step o s = Some (c, s1) -> s_fs s p = Shut d -> keeps_file p s o ->
  s_fs s1 p = Shut d \/ exists i f f0 mode, s_fs s1 p = Opened i /\ w_file (s_w s1) i = Some f /\ clean f0 /\ f_disk f0 = d /\ f_disk f = d /\ f_hdr f = hset (f_hdr f0) H_RWFLG mode.
Proof.
  intros W OK ST P KF.
  destruct o as [junk q iun std kp pri aux sign|junk q iun ro std kp mode|junk iun handle buf|h|junk filt iun handle primk nprim msk|junk iun|junk iun]; cbn [step] in ST.
  - left. cbn [keeps_file] in KF. destruct (s_fs s q) as [|d0|j] eqn:Q; [| |discriminate]; destruct (open_slot (s_w s) iun) as [[e|j]|] eqn:OS; try discriminate; cbn [bind] in ST.
    1, 3: injection ST as <- <-; exact P.
    all: destruct (xdfopn_create _ _ _ _ _ _ _ _ _) as [[c0 g]|]; [|discriminate]; cbn [bind] in ST; injection ST as <- <-; cbn [s_fs]; unfold setfs; rewrite (proj2 (Nat.eqb_neq _ _)) by congruence; exact P.
  - destruct (s_fs s q) as [|d0|j] eqn:Q; try discriminate. destruct (open_slot (s_w s) iun) as [[e|j]|] eqn:OS; try discriminate; cbn [bind] in ST.
    + left. injection ST as <- <-. exact P.
    + destruct (Nat.eq_dec p q) as [->|N].
      * right. assert (d0 = d) as -> by congruence. destruct (wf_img _ W q d P) as (A & f0 & CL & D & _). destruct OK as (KP & MO & SG). pose proof CL as (C1 & C2 & C3 & C4 & C5).
        destruct (xdfopn_spec junk iun ro std kp f0 mode C1 C2 C3 C4 C5) as (f & X & OP & FI & _); auto.
        { intros E. rewrite <- (clean_word3 f0 CL), D. apply (SG E d Q). }
        rewrite D in X. rewrite X in ST. cbn [bind] in ST. injection ST as <- <-. exists j, f, f0, mode. cbn [s_fs s_w]. unfold setfs. rewrite Nat.eqb_refl. split; [reflexivity|].
        split; [apply setf_same|]. split; [exact CL|]. split; [exact D|]. destruct OP as (O1 & O2 & O3 & O4 & O5 & O6 & O7 & O8 & O9 & _). split; [congruence|exact O9].
      * left. destruct (xdfopn _ _ _ _ _ _ _) as [[e|[n g]]|]; try discriminate. cbn [bind] in ST. injection ST as <- <-. cbn [s_fs]. unfold setfs. rewrite (proj2 (Nat.eqb_neq _ _)) by congruence. exact P.
  - left. destruct (xdfput junk (s_w s) iun handle buf) as [[[c0 w'] b']|]; [|discriminate]. cbn [bind] in ST. injection ST as <- <-. exact P.
  - left. destruct (xdfdel (s_w s) h) as [[c0 w']|]; [|discriminate]. cbn [bind] in ST. injection ST as <- <-. exact P.
  - left. destruct (xdfloc2 _ _ _ _ _ _ _ _ _) as [[c0 w']|]; [|discriminate]. cbn [bind] in ST. injection ST as <- <-. exact P.
  - left. destruct (file_index (s_w s) iun) as [j|]; [|injection ST as <- <-; exact P]. destruct (w_file (s_w s) j); [|discriminate]. cbn [bind] in ST.
    destruct (xdfcls junk true f); [|discriminate]. cbn [bind] in ST. injection ST as <- <-. exact P.
  - left. destruct (file_index (s_w s) iun) as [j|]; [|injection ST as <- <-; exact P]. destruct (w_file (s_w s) j); [|discriminate]. cbn [bind] in ST.
    destruct (xdfcls junk false f); [|discriminate]. cbn [bind] in ST. injection ST as <- <-. cbn [s_fs]. rewrite P. reflexivity.
Qed.

Lemma step_described s o c s1 p D : wf s -> ok_op s o -> step o s = Some (c, s1) -> keeps_file p s o -> described s p D -> described s1 p D.
Proof.
  intros W OK ST KF DS. unfold described in DS. destruct (s_fs s p) as [|d|i] eqn:P; [contradiction| |].
  - destruct (step_shut _ _ _ _ _ _ W OK ST P KF) as [P1|(i & f & f0 & mode & P1 & F1 & CL & D0 & D1 & H1)]; unfold described; rewrite P1; [exact DS|].
    pose proof CL as ((G & _) & _ & R & _ & _). pose proof (g_hlen16 _ _ G) as H16.
    assert (DD : ddesc d = desc (f_hdr f0)) by (rewrite <- D0; apply ddesc_of; [exact R|lia|apply (g_hlen _ _ G)]).
    exists f. split; [exact F1|]. split; [rewrite H1, desc_rwflg by exact H16; congruence|]. intros _. rewrite D1. exact DS.
  - destruct DS as (f & F & DF & DP). destruct (prot_dec f) as [WB|PR].
    + destruct (step_kept _ _ _ _ _ _ _ W OK ST P F WB) as [(P1 & f' & F' & HK & WB')|(f' & P1 & CE)]; unfold described; rewrite P1.
      * exists f'. split; [exact F'|]. split; [rewrite (desc_hkeep _ _ HK); exact DF|]. intros PR. exfalso. exact (protected_not _ PR WB').
      * pose proof (ce_inv _ _ CE) as [G _]. pose proof (g_hlen16 _ _ G) as H16. rewrite (ddesc_of _ (f_hdr f')).
        -- rewrite (ce_hdr _ _ CE), desc_rwflg; [exact DF|]. rewrite (ce_hdr _ _ CE), hset_length in H16. exact H16.
        -- rewrite <- (ce_disk _ _ CE) at 2. f_equal. rewrite (ce_hdr _ _ CE). apply hset_length.
        -- lia.
        -- apply (g_hlen _ _ G).
    + destruct (step_protected _ _ _ _ _ _ _ W OK ST P F PR) as [A B].
      assert (X : (match o with OpClose _ iun => f_iun f = iun | _ => False end) \/ match o with OpClose _ iun => f_iun f <> iun | _ => True end).
      { destruct o; auto. destruct (Z.eq_dec (f_iun f) iun); auto. }
      destruct X as [X|X].
      * destruct o; try contradiction. unfold described. rewrite (A X). apply DP, PR.
      * destruct (B X) as (P1 & f' & F' & D1 & _ & H1 & _ & PR'). unfold described. rewrite P1. exists f'. split; [exact F'|]. rewrite H1, D1. auto.
Qed.

Lemma spares_keeps p k r s o : spares p k r s o -> keeps_file p s o.
Proof. destruct o; cbn; auto. Qed.

Lemma hist_described (A : sys -> op -> Prop) p D s l s1 : (forall s o, A s o -> keeps_file p s o) -> wf s -> hist A s l s1 -> described s p D -> described s1 p D.
Proof.
  intros HA W H. induction H as [s|s o c s1 l s2 OK AO ST H IH]; intros DS; [exact DS|].
  apply IH; [apply (step_spec _ _ _ _ W OK ST)|]. eapply step_described; eauto.
Qed.
