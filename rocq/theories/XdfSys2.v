(** Every call keeps the invariant and has the stated effect. *)
From Coq Require Import ZArith List Lia Bool.
From Verif Require Import Bits Handles HandlesFacts WaFile Xdf XdfLib XdfInv XdfDel XdfPut XdfPut2 XdfPut3 XdfPut4 XdfOpen XdfClose XdfClose2 XdfReopen XdfCreate XdfSearch XdfAbs XdfCkpt XdfLoc XdfHist XdfSys.
Import ListNotations.
Open Scope Z_scope.

Lemma same_recs_refl s : same_recs s s.
Proof. intros q k r. reflexivity. Qed.

Lemma same_recs_replace s w' i f f' : w_file (s_w s) i = Some f -> others (s_w s) w' i -> w_file w' i = Some f' ->
  (forall k r, abs f' k r = abs f k r) -> same_recs s (mksys w' (s_fs s)).
Proof.
  intros F O F' A q k r. rewrite (sabs_replace s w' i f' q O F'). destruct (s_fs s q) as [| |j] eqn:Q; try reflexivity.
  destruct (Nat.eqb_spec j i) as [->|]; [|reflexivity]. rewrite A. rewrite (sabs_open s q i f Q F). reflexivity.
Qed.

(** Opening a file in a new slot. *)
Lemma wf_new s p i f : wf s -> w_file (s_w s) i = None -> (1 <= i < MAX_XDF_FILES)%nat -> file_index (s_w s) (f_iun f) = None -> fok f ->
  (forall j, s_fs s p <> Opened j) -> wf (mksys (setf (s_w s) i (Some f)) (setfs (s_fs s) p (Opened i))).
Proof.
  intros W N R FX FK NO.
  assert (C : forall j g, w_file (setf (s_w s) i (Some f)) j = Some g -> (j = i /\ g = f) \/ (j <> i /\ w_file (s_w s) j = Some g)).
  { intros j g H. destruct (Nat.eq_dec j i) as [->|D]; [rewrite setf_same in H; injection H as <-; auto|rewrite setf_other in H by exact D; auto]. }
  assert (NI : forall q, s_fs s q <> Opened i). { intros q H. destruct (wf_open _ W q i H) as (g & G). congruence. }
  constructor; cbn [s_w s_fs].
  - apply (wf_seq _ W).
  - intros j g H. destruct (C j g H) as [[-> ->]|[_ G]]; [exact R|apply (wf_rng _ W j g G)].
  - intros j g H. destruct (C j g H) as [[-> ->]|[_ G]]; [exact FK|apply (wf_fok _ W j g G)].
  - intros a b g h G H E. destruct (C a g G) as [[-> ->]|[Na G']]; destruct (C b h H) as [[-> ->]|[Nb H']]; auto.
    + exfalso. apply (file_index_none _ _ FX b h); [apply (wf_rng _ W b h H')|exact H'|congruence].
    + exfalso. apply (file_index_none _ _ FX a g); [apply (wf_rng _ W a g G')|exact G'|congruence].
    + apply (wf_iun _ W a b g h G' H' E).
  - intros q j. unfold setfs. destruct (Nat.eqb_spec q p) as [->|D].
    + intros H. injection H as <-. rewrite setf_same. eauto.
    + intros H. destruct (wf_open _ W q j H) as (g & G). exists g. rewrite setf_other; [exact G|]. intros ->. congruence.
  - intros q1 q2 j. unfold setfs. destruct (Nat.eqb_spec q1 p) as [->|D1]; destruct (Nat.eqb_spec q2 p) as [->|D2]; auto.
    + intros H1 H2. injection H1 as <-. exfalso. apply (NI q2 H2).
    + intros H1 H2. injection H2 as <-. exfalso. apply (NI q1 H1).
    + apply (wf_one _ W).
  - intros j g H. destruct (C j g H) as [[-> ->]|[D G]].
    + exists p. unfold setfs. rewrite Nat.eqb_refl. reflexivity.
    + destruct (wf_named _ W j g G) as (q & Q). exists q. unfold setfs. destruct (Nat.eqb_spec q p) as [->|]; [|exact Q]. exfalso. apply (NO j Q).
  - intros q d. unfold setfs. destruct (Nat.eqb_spec q p); [discriminate|]. apply (wf_img _ W).
Qed.

Lemma sabs_new s p i f q : wf s -> w_file (s_w s) i = None ->
  sabs (mksys (setf (s_w s) i (Some f)) (setfs (s_fs s) p (Opened i))) q = if Nat.eqb q p then abs f else sabs s q.
Proof.
  intros W N. unfold sabs, setfs. cbn [s_w s_fs]. destruct (Nat.eqb q p) eqn:E; [rewrite setf_same; reflexivity|].
  destruct (s_fs s q) as [| |j] eqn:Q; try reflexivity. rewrite setf_other; [reflexivity|].
  intros ->. destruct (wf_open _ W q i Q) as (g & G). congruence.
Qed.

Lemma ent_empty f k r : nents (f_pages f) = [0%nat] -> ent f k r = None.
Proof.
  intros N. unfold ent, entry_at. rewrite N. destruct k as [|[|k]]; cbn [nth_error]; try reflexivity. destruct (f_pages f); reflexivity.
Qed.

Lemma clean_word3 f : clean f -> nth 3 (f_disk f) 0 = hget (f_hdr f) 3.
Proof.
  intros ((G & _) & _ & H & _). unfold hget. rewrite <- H. unfold range. rewrite skipn_O. pose proof (g_hlen16 _ _ G). generalize (f_disk f).
  intros d. destruct d as [|a [|b [|c [|e d]]]]; try (destruct (length (f_hdr f)) as [|[|[|[|n]]]]; reflexivity).
  destruct (length (f_hdr f)) as [|[|[|[|n]]]]; try lia. reflexivity.
Qed.

Lemma step_create s c s' junk p iun std kp pri aux sign : wf s -> keys_ok pri aux -> kp_ok kp ->
  step (OpCreate junk p iun std kp pri aux sign) s = Some (c, s') -> wf s' /\ effect s (OpCreate junk p iun std kp pri aux sign) c s'.
Proof.
  intros W KO KP. cbn [step effect].
  assert (MAIN : forall d, (forall j, s_fs s p <> Opened j) -> bind (open_slot (s_w s) iun) (fun r => match r with Err c => Some (c, s)
     | Go i => bind (xdfopn_create junk iun false std kp d pri aux sign) (fun cf => let (c, f) := cf in Some (c, mksys (setf (s_w s) i (Some f)) (setfs (s_fs s) p (Opened i)))) end) = Some (c, s') ->
     wf s' /\ (if c =? 0 then forall q k r, sabs s' q k r = if Nat.eqb q p then None else sabs s q k r else s' = s)).
  { intros d NO. destruct (open_slot (s_w s) iun) as [[e|i]|] eqn:OS; [| |discriminate]; cbn [bind].
    - intros H. injection H as <- <-. split; [exact W|]. rewrite (proj2 (Z.eqb_neq e 0)); [reflexivity|]. pose proof (open_slot_err _ _ _ OS). lia.
    - destruct (open_slot_spec _ _ _ OS) as (N & R & FX & _).
      destruct (create_spec junk iun std kp d pri aux sign KO KP) as (f & X & FI & WB & RW & W2 & W3 & IU & RO & ST & KPE & PL & IL & LA & NE & T & CM & SM & _).
      rewrite X. cbn [bind]. intros H. injection H as <- <-. split.
      + assert (FX' : file_index (s_w s) (f_iun f) = None) by (rewrite IU; exact FX).
        apply (wf_new s p i f W N R FX'); [|exact NO]. constructor.
        * exact FI.
        * rewrite T. apply repeat_length.
        * rewrite CM. apply repeat_length.
        * exact SM.
        * left. exact W2.
        * rewrite LA. lia.
        * intros NW. contradiction.
      + cbn [Z.eqb]. intros q k r. rewrite (sabs_new _ _ _ _ _ W N). destruct (Nat.eqb q p); [|reflexivity]. apply abs_none. apply ent_empty. exact NE. }
  destruct (s_fs s p) as [|d|j] eqn:P; [| |discriminate].
  - apply (MAIN []). intros j. congruence.
  - apply (MAIN d). intros j. congruence.
Qed.

Lemma step_open s c s' junk p iun ro std kp mode : wf s -> ok_op s (OpOpen junk p iun ro std kp mode) ->
  step (OpOpen junk p iun ro std kp mode) s = Some (c, s') -> wf s' /\ same_recs s s'.
Proof.
  intros W (KP & MO & SG). cbn [step]. destruct (s_fs s p) as [|d|j] eqn:P; try discriminate.
  destruct (open_slot (s_w s) iun) as [[e|i]|] eqn:OS; [| |discriminate]; cbn [bind].
  - intros H. injection H as <- <-. split; [exact W|apply same_recs_refl].
  - destruct (open_slot_spec _ _ _ OS) as (N & R & FX & _). destruct (wf_img _ W p d P) as (A & f0 & CL & D & AB).
    pose proof CL as (C1 & C2 & C3 & C4 & C5).
    destruct (xdfopn_spec junk iun ro std kp f0 mode C1 C2 C3 C4 C5) as (f & X & OP & FI & _); auto.
    { intros ST. rewrite <- (clean_word3 f0 CL), D. apply (SG ST d eq_refl). }
    rewrite D in X. rewrite X. cbn [bind]. intros H. injection H as _ <-.
    pose proof OP as (O1 & O2 & O3 & O4 & O5 & O6 & O7 & O8 & O9 & O10 & O11 & O12 & O13 & O14).
    pose proof (g_hlen16 _ _ (proj1 C1)) as H16.
    assert (AE : forall k r, abs f k r = abs f0 k r) by apply (opened_abs _ _ _ _ _ _ _ OP).
    split.
    + assert (FX' : file_index (s_w s) (f_iun f) = None) by (rewrite O1; exact FX).
      apply (wf_new s p i f W N R FX'); [|intros j; congruence]. constructor.
      * exact FI.
      * rewrite O12. apply repeat_length.
      * rewrite O13. apply repeat_length.
      * exact O14.
      * rewrite O9. unfold magic_ok. rewrite hget_hset by (unfold H_RWFLG; lia). exact C5.
      * rewrite O6, O9, h_laux_hset; [reflexivity|discriminate|unfold H_RWFLG; lia].
      * intros _. split; [exact O11|]. exists f0. split; [exact CL|]. split; [congruence|]. intros. symmetry. apply AE.
    + intros q k r. rewrite (sabs_new _ _ _ _ _ W N). destruct (Nat.eqb_spec q p) as [->|]; [|reflexivity].
      rewrite (sabs_shut _ _ _ P), AE, <- D, dabs_clean by exact CL. reflexivity.
Qed.

Lemma step_put s c s' junk iun handle buf : wf s -> ok_op s (OpPut junk iun handle buf) ->
  step (OpPut junk iun handle buf) s = Some (c, s') -> wf s' /\ effect s (OpPut junk iun handle buf) c s'.
Proof.
  intros W (BO & RM). cbn [step effect].
  destruct (xdfput junk (s_w s) iun handle buf) as [[[c0 w'] b']|] eqn:X; [|discriminate]. cbn [bind]. intros H. injection H as <- <-.
  destruct (file_index (s_w s) iun) as [i|] eqn:FX.
  2: { destruct (xdfput_nofile _ _ _ _ _ _ _ _ FX X) as (C & -> & _). rewrite (proj2 (Z.eqb_neq _ _) C). destruct s. split; [exact W|apply same_recs_refl]. }
  destruct (file_index_own _ _ _ FX) as (f & F & IU & _). destruct (RM i f eq_refl F) as [R1 R2]. pose proof (wf_fok _ W i f F) as FK.
  pose proof (xdfput_spec junk (s_w s) iun handle buf i f FX F (fo_inv _ FK) BO R1 R2) as PS. rewrite X in PS.
  destruct PS as (O & f' & F' & [(C & Q)|(-> & WB & AP & k & r & e1 & e0 & PE & WH & BD & fk & FK1 & FK2 & FK3 & FK4)]).
  - rewrite (proj2 (Z.eqb_neq _ _) C). pose proof Q as (Q1 & Q2 & Q3 & Q4 & Q5 & Q6 & Q7).
    split; [|apply (same_recs_replace s w' i f f'); auto; apply quiet_abs; exact Q].
    eapply wf_replace; try eassumption; [apply Q2|]. eapply fok_stat; try eassumption.
    intros NW. destruct (xdfput_ro _ _ _ _ _ _ _ _ _ _ FX F NW X) as (_ & -> & _). assert (f' = f) as -> by congruence. apply (fo_ro _ FK NW).
  - pose proof (pe_stat _ _ _ _ _ _ _ PE) as ST.
    split.
    + eapply wf_replace; try eassumption; [apply ST|]. eapply fok_stat; try eassumption; [apply (pe_inv _ _ _ _ _ _ _ PE)|].
      intros NW. contradiction.
    + cbn [Z.eqb]. destruct (wf_at s i f W F) as (p & P & PU). rewrite BD in PE.
      set (ws := firstn (Z.to_nat (b_nbits buf / 32)) (stamped (b_data buf) (e_addr e1) (b_nbits buf / 32))) in *.
      destruct BO as (B1 & B2 & B3 & B4).
      assert (L1 : live e1 = true).
      { pose proof (pe_idtyp _ _ _ _ _ _ _ PE) as T. unfold live. rewrite T. unfold ws, stamped. destruct (b_data buf) as [|x0 dd]; [cbn [length] in B3; lia|].
        cbn [upd nth]. destruct (Z.to_nat (b_nbits buf / 32)) as [|n] eqn:N; [lia|]. cbn [firstn nth]. rewrite hd_idtyp. cbn [nth] in B4.
        rewrite Z.mod_small by lia. apply andb_true_intro. split; apply Z.leb_le; lia. }
      assert (LW : length ws = Z.to_nat (b_nbits buf / 32)) by (unfold ws; rewrite firstn_length, stamped_length; lia).
      exists p, i, f, k, r, e1, ws. split; [exact P|]. split; [reflexivity|]. split; [exact F|]. split; [exact WB|]. split; [exact AP|].
      split; [reflexivity|]. split.
      { split; [|exists fk, e0; split; [exact FK1|]; split; [exact FK2|]; split; [exact FK3|exact FK4]].
        intros KP. apply (std_keyed fk f e0); [apply (fo_inv _ FK)|rewrite FK1; exact KP|exact FK2|exact FK3|lia|exact FK4]. }
      rewrite (sabs_open _ _ _ _ P F). split; [|split].
      * destruct WH as [WH|(HP & HT & e & HE & HL)]; [left; apply abs_none; exact WH|right].
        split; [exact HP|]. split; [exact HT|]. destruct (pe_tgt _ _ _ _ _ _ _ PE k r HT) as (e2 & E2 & L2 & _). rewrite HE in E2. injection E2 as <-.
        exists e, (rec_data f e). split; [apply abs_live; auto|]. destruct (rec_ext_bound _ _ _ _ _ (proj1 (fo_inv _ FK)) HE) as (X1 & X2 & X3).
        pose proof (g_size _ _ (proj1 (fo_inv _ FK))) as SZ. fold (fsize f) in SZ. unfold dsize in SZ.
        rewrite LW. unfold rec_data, range. rewrite firstn_length, skipn_length. lia.
      * intros a b T. destruct (pe_tgt _ _ _ _ _ _ _ PE a b T) as (e & E & L & _). exists (e, rec_data f e). apply abs_live. auto.
      * intros q j t. rewrite (sabs_replace s w' i f' q O F'). destruct (s_fs s q) as [|d|i'] eqn:Q.
        -- destruct (Nat.eqb_spec q p) as [->|]; [congruence|reflexivity].
        -- destruct (Nat.eqb_spec q p) as [->|]; [congruence|reflexivity].
        -- destruct (Nat.eqb_spec i' i) as [->|N].
           ++ apply PU in Q. subst q. rewrite Nat.eqb_refl. apply (put_abs _ _ _ _ _ _ _ PE L1).
           ++ destruct (Nat.eqb_spec q p) as [->|]; [congruence|reflexivity].
Qed.

Lemma step_del s c s' h : wf s -> ok_op s (OpDel h) -> step (OpDel h) s = Some (c, s') -> wf s' /\ effect s (OpDel h) c s'.
Proof.
  intros W RH. cbn [step effect ok_op] in *. destruct (w_file (s_w s) (hidx (s_w s) h)) as [f|] eqn:F.
  2: { unfold xdfdel. rewrite F. cbn [bind]. intros H. injection H as <- <-. cbn [Z.eqb ERR_BAD_HNDL]. destruct s. auto. }
  pose proof (wf_fok _ W _ f F) as FK. destruct (xdfdel_spec (s_w s) h f F (fo_inv _ FK) (RH f eq_refl)) as (w' & X & E). rewrite X. cbn [bind].
  intros H. injection H as <- <-. destruct (del_code f (hpage h) (hrec h) =? 0) eqn:DC.
  - destruct E as (O & f' & F' & (D1 & D2 & D3 & D4 & D5 & D6 & D7 & D8 & D9 & DA)). apply Z.eqb_eq in DC. unfold del_code in DC.
    destruct (no_del f) eqn:ND; [discriminate|]. destruct (length (f_pages f) <=? hpage h)%nat; [discriminate|].
    destruct (abs f (hpage h) (hrec h)) as [[x|]|] eqn:A; try discriminate.
    destruct (wf_at s _ f W F) as (p & P & PU). split.
    + eapply wf_replace; try eassumption; [apply D2|]. eapply fok_stat; try eassumption. intros NW. exfalso. apply NW.
      unfold no_del in ND. apply orb_false_elim in ND. destruct ND as [ND1 ND2]. apply orb_false_elim in ND1. destruct ND1 as [ND1 _]. apply Z.eqb_neq in ND1. split; assumption.
    + exists p, f. split; [exact P|]. split; [reflexivity|]. split; [exact ND|]. rewrite (sabs_open _ _ _ _ P F). split; [eauto|].
      intros q j t. rewrite (sabs_replace s w' _ f' q O F'). destruct (s_fs s q) as [|d|i'] eqn:Q.
      * destruct (Nat.eqb_spec q p) as [->|]; [congruence|reflexivity].
      * destruct (Nat.eqb_spec q p) as [->|]; [congruence|reflexivity].
      * destruct (Nat.eqb_spec i' (hidx (s_w s) h)) as [->|N].
        -- pose proof (proj1 (PU q) Q) as Q2. subst q. rewrite Nat.eqb_refl. cbn [andb]. rewrite DA, (sabs_open _ _ _ _ P F). reflexivity.
        -- destruct (Nat.eqb_spec q p) as [->|]; [congruence|reflexivity].
  - subst w'. destruct s. auto.
Qed.

Lemma step_loc s c s' junk filt iun handle primk nprim msk : wf s ->
  step (OpLoc junk filt iun handle primk nprim msk) s = Some (c, s') -> wf s' /\ same_recs s s'.
Proof.
  intros W. cbn [step]. destruct (xdfloc2 _ _ _ _ _ _ _ _ _) as [[c0 w']|] eqn:X; [|discriminate]. cbn [bind]. intros H. injection H as <- <-.
  destruct (file_index (s_w s) iun) as [i|] eqn:FX.
  2: { unfold xdfloc2 in X. rewrite FX in X. injection X as <- <-. destruct s. split; [exact W|apply same_recs_refl]. }
  destruct (file_index_own _ _ _ FX) as (f & F & IU & _). pose proof (wf_fok _ W i f F) as FK.
  destruct (xdfloc2_moved _ _ _ _ _ _ _ _ _ _ _ _ _ FX F (fo_inv _ FK) X) as (O & f' & F' & Q & (t & m & v & cc & EQ)).
  split; [|apply (same_recs_replace s w' i f f'); auto; apply quiet_abs; exact Q].
  destruct Q as (Q1 & Q2 & Q3 & Q4 & Q5 & Q6 & Q7).
  eapply wf_replace; try eassumption; [apply Q2|]. eapply fok_stat; try eassumption. intros NW. destruct (fo_ro _ FK NW) as [M I]. subst f'. split; [exact M|].
  destruct I as (f0 & C0 & D0 & A0). exists f0. split; [exact C0|]. split; [exact D0|]. intros k r. rewrite A0. symmetry. reflexivity.
Qed.

Lemma step_ckpt s c s' junk iun : wf s -> step (OpCkpt junk iun) s = Some (c, s') -> wf s' /\ same_recs s s'.
Proof.
  intros W. cbn [step]. destruct (file_index (s_w s) iun) as [i|] eqn:FX.
  2: { intros H. injection H as _ <-. split; [exact W|apply same_recs_refl]. }
  destruct (file_index_own _ _ _ FX) as (f & F & IU & _). pose proof (wf_fok _ W i f F) as FK. rewrite F. cbn [bind].
  assert (WD : writable f \/ ~ writable f).
  { unfold writable. destruct (Z.eq_dec (hget (f_hdr f) H_RWFLG) RDMODE) as [E|E]; [right; tauto|]. destruct (f_ro f); [right; intros [_ D]; discriminate|left; auto]. }
  destruct WD as [WB|NW].
  - destruct (xdfckpt_spec junk f (fo_inv _ FK) WB) as (f' & X & CK). rewrite X. cbn [bind]. intros H. injection H as _ <-. split.
    + eapply (wf_replace s _ i f f'); try eassumption; [apply others_setf, others_refl|apply setf_same|apply (k_stat _ _ CK)|].
      eapply fok_stat; try eassumption; [apply (k_stat _ _ CK)|apply (k_inv _ _ CK)|]. intros NW. contradiction.
    + apply (same_recs_replace s _ i f f'); auto; [apply others_setf, others_refl|apply setf_same|apply (k_abs _ _ CK)].
  - rewrite (xdfcls_readonly _ _ _ NW) by (apply (fo_ro _ FK NW)). cbn [bind]. intros H. injection H as _ <-. split.
    + eapply (wf_replace s _ i f f); try eassumption; [apply others_setf, others_refl|apply setf_same|reflexivity].
    + apply (same_recs_replace s _ i f f); auto; [apply others_setf, others_refl|apply setf_same].
Qed.

Lemma wf_close s i f d A : wf s -> w_file (s_w s) i = Some f -> img d A ->
  wf (mksys (setf (s_w s) i None) (fun q => match s_fs s q with Opened j => if Nat.eqb j i then Shut d else Opened j | x => x end)).
Proof.
  intros W F I.
  assert (C : forall j g, w_file (setf (s_w s) i None) j = Some g -> j <> i /\ w_file (s_w s) j = Some g).
  { intros j g G. destruct (Nat.eq_dec j i) as [->|N]; [rewrite setf_same in G; discriminate|]. rewrite setf_other in G by exact N. auto. }
  assert (E : forall q j, match s_fs s q with Opened j => if Nat.eqb j i then Shut d else Opened j | x => x end = Opened j -> s_fs s q = Opened j /\ j <> i).
  { intros q j. destruct (s_fs s q) as [| |j']; try discriminate. destruct (Nat.eqb_spec j' i); [discriminate|]. intros H. injection H as <-. auto. }
  constructor; cbn [s_w s_fs].
  - apply (wf_seq _ W).
  - intros j g G. apply (wf_rng _ W j g (proj2 (C j g G))).
  - intros j g G. apply (wf_fok _ W j g (proj2 (C j g G))).
  - intros a b g h G H E0. apply (wf_iun _ W a b g h (proj2 (C a g G)) (proj2 (C b h H)) E0).
  - intros q j Q. apply E in Q. destruct Q as [Q N]. destruct (wf_open _ W q j Q) as (g & G). exists g. rewrite setf_other by exact N. exact G.
  - intros p q j P Q. apply E in P, Q. apply (wf_one _ W p q j (proj1 P) (proj1 Q)).
  - intros j g G. destruct (C j g G) as [N G']. destruct (wf_named _ W j g G') as (q & Q). exists q. rewrite Q. rewrite (proj2 (Nat.eqb_neq _ _) N). reflexivity.
  - intros q x. destruct (s_fs s q) as [|y|j] eqn:Q; [discriminate| |].
    + intros H. injection H as <-. apply (wf_img _ W q y Q).
    + destruct (Nat.eqb j i); [|discriminate]. intros H. injection H as <-. eauto.
Qed.

Lemma step_close s c s' junk iun : wf s -> step (OpClose junk iun) s = Some (c, s') -> wf s' /\ same_recs s s'.
Proof.
  intros W. cbn [step]. destruct (file_index (s_w s) iun) as [i|] eqn:FX.
  2: { intros H. injection H as _ <-. split; [exact W|apply same_recs_refl]. }
  destruct (file_index_own _ _ _ FX) as (f & F & IU & _). pose proof (wf_fok _ W i f F) as FK. rewrite F. cbn [bind].
  assert (X : exists f', xdfcls junk false f = Some f' /\ img (f_disk f') (abs f)).
  { assert (WD : writable f \/ ~ writable f).
    { unfold writable. destruct (Z.eq_dec (hget (f_hdr f) H_RWFLG) RDMODE) as [E|E]; [right; tauto|]. destruct (f_ro f); [right; intros [_ D]; discriminate|left; auto]. }
    destruct WD as [WB|NW].
    - destruct (xdfcls_spec junk f (fo_inv _ FK) WB) as (f' & X & CE). exists f'. split; [exact X|].
      exists f'. split; [|split; [reflexivity|apply close_abs; exact CE]]. pose proof (g_hlen16 _ _ (proj1 (fo_inv _ FK))) as H16.
      unfold clean. split; [apply (ce_inv _ _ CE)|]. split; [apply (ce_clean _ _ CE)|].
      assert (LH : length (f_hdr f') = length (f_hdr f)) by (rewrite (ce_hdr _ _ CE); apply hset_length).
      split; [rewrite LH; apply (ce_disk _ _ CE)|]. rewrite (ce_hdr _ _ CE). rewrite hget_hset by (unfold H_RWFLG; lia). split; [reflexivity|].
      unfold magic_ok. rewrite hget_hset by (unfold H_RWFLG; lia). apply (fo_magic _ FK).
    - exists f. destruct (fo_ro _ FK NW) as [M I]. split; [apply xdfcls_readonly; assumption|exact I]. }
  destruct X as (f' & X & I). rewrite X. cbn [bind]. intros H. injection H as _ <-. split; [eapply wf_close; eassumption|].
  intros q k r. unfold sabs. cbn [s_fs s_w]. destruct (s_fs s q) as [|d|j] eqn:Q; try reflexivity.
  destruct (Nat.eqb_spec j i) as [->|N].
  - rewrite F. apply (img_dabs _ _ I).
  - rewrite setf_other by exact N. reflexivity.
Qed.

Theorem step_spec s o c s' : wf s -> ok_op s o -> step o s = Some (c, s') -> wf s' /\ effect s o c s'.
Proof.
  intros W OK ST. destruct o as [junk p iun std kp pri aux sign|junk p iun ro std kp mode|junk iun handle buf|h|junk filt iun handle primk nprim msk|junk iun|junk iun].
  - destruct OK as [A B]. apply step_create; assumption.
  - eapply step_open; eassumption.
  - apply step_put; assumption.
  - apply step_del; assumption.
  - eapply step_loc; eassumption.
  - eapply step_ckpt; eassumption.
  - eapply step_close; eassumption.
Qed.
