(** Erasing, counting and editing the records of standard files: properties
    C59 and C60.

    [reached s]: the state after any history of calls, edits included.
    [found filt q i f]: the records that a search [q] gives, in order
    (theorem c60_search). *)
From Coq Require Import ZArith List Lia Bool.
From Verif Require Import Bits BitIO SpecPack Handles WaFile Xdf XdfLib XdfInv XdfDel XdfPut XdfPut2 XdfPut3 XdfPut4 XdfOpen XdfSearch XdfAbs XdfHist XdfSys XdfSys2 XdfSpec XdfThm XdfThm2 XdfThm3 XdfRstrThm XdfDemo Dates DatesSpec Fst FstSpec FstFacts FstSearch FstThm FstThm2 FstLuk FstInl FstStd FstDemo FstEff FstEffFacts P_Fst.
Import ListNotations.
Open Scope Z_scope.
Open Scope opt_scope.

(** ** C59 *)

Lemma erase_spec s p i f k r : reached s -> opened s p i f -> In (k, r) (positions (page_sizes f)) ->
  exists c s1, fsteff (rec_handle i k r) s = Some (c, s1) /\
    (c = 0 <-> f_std f = true /\ writable f /\ hget (f_hdr f) H_RWFLG <> APPEND /\ In (k, r) (found no_filter every_record i f)) /\
    (c <> 0 -> c < 0 /\ s1 = s) /\
    (c = 0 -> reached s1 /\ s_fs s1 = s_fs s /\ others (s_w s) (s_w s1) i /\ exists f1, opened s1 p i f1 /\ del_eff f f1 k r).
Proof.
  intros RS OP IN. pose proof (reached_wf _ RS) as W. pose proof OP as [P F]. pose proof (fo_inv _ (wf_fok _ W i f F)) as FI.
  pose proof (proj1 (positions_ent f k r FI) IN) as E. destruct (rec_handle_ent _ _ _ _ _ _ _ W P F E) as (H1 & H2 & H3 & _). set (h := rec_handle i k r) in *.
  unfold fsteff. rewrite H1, F. destruct (f_std f) eqn:SD.
  2: { exists ERR_NO_FILE, s. split; [reflexivity|]. split; [split; [discriminate|intros (X & _); discriminate]|]. split; [intros _; split; reflexivity|discriminate]. }
  assert (RH : real_handle f h). { intros pg PG. rewrite H2 in PG. rewrite H3. destruct (nth_ent _ _ _ _ _ FI PG E) as [A B]. apply entry_at_page in E. destruct E as (n & p' & N & P' & R & Q). assert (p' = pg) as -> by congruence.
    unfold nents in N. rewrite (map_nth_error (fun p => Z.to_nat (p_nent p)) _ _ PG) in N. injection N as <-. lia. }
  destruct (xdfdel_spec (s_w s) h f) as (w' & X & EF); [rewrite H1; exact F|exact FI|exact RH|]. rewrite H1, H2, H3 in *.
  exists (del_code f k r), (mksys w' (s_fs s)). cbn [step]. rewrite X. cbn [bind]. split; [reflexivity|].
  assert (LK : (length (f_pages f) <=? k)%nat = false). { apply Nat.leb_gt. apply entry_at_page in E. destruct E as (n & p' & N & P' & R & Q). apply nth_error_Some. congruence. }
  assert (DC : del_code f k r = 0 <-> no_del f = false /\ exists y, abs f k r = Some (Some y)).
  { unfold del_code. rewrite LK. destruct (no_del f); [split; [discriminate|intros (Y & _); discriminate]|]. destruct (abs f k r) as [[y|]|].
    - split; [intros _; split; eauto|reflexivity].
    - split; [discriminate|intros (_ & y & Y); discriminate].
    - split; [discriminate|intros (_ & y & Y); discriminate]. }
  assert (ND : no_del f = false <-> writable f /\ hget (f_hdr f) H_RWFLG <> APPEND).
  { unfold no_del, writable. rewrite !orb_false_iff, !Z.eqb_neq. tauto. }
  split; [|split].
  - rewrite DC, ND, (found_every _ _ _ _ _ _ W OP), (sabs_open _ _ _ _ P F). split.
    + intros ((A & B) & [e ws] & Y). split; [reflexivity|]. split; [exact A|]. split; [exact B|]. eauto.
    + intros (_ & A & B & e & ws & Y). split; [auto|]. eauto.
  - intros N. rewrite (proj2 (Z.eqb_neq _ _) N) in EF. rewrite EF. split; [|destruct s; reflexivity]. clear - N. unfold del_code in *. destruct (no_del f); [reflexivity|]. destruct (_ <=? _)%nat; [reflexivity|]. destruct (abs f k r) as [[y|]|]; [congruence|reflexivity|reflexivity].
  - intros Z0. rewrite Z0 in *. cbn [Z.eqb] in EF. destruct EF as (OT & f1 & F1 & DE). split; [|split; [reflexivity|split; [exact OT|exists f1; split; [split; [exact P|exact F1]|exact DE]]]].
    eapply reached_calls; [exact RS|]. eapply (calls_cons all_calls _ (Call (OpDel h))); [| |cbn [do step]; rewrite X; reflexivity|constructor].
    + cbn [ok_call ok_op]. intros g G. rewrite H1 in G. assert (g = f) as -> by congruence. exact RH.
    + exact Logic.I.
Qed.

(** fsteff erases a record that searches give, in a standard file that may be
    written; otherwise it returns a negative code and nothing changes. *)
Theorem c59_code : forall s p i f k r, reached s -> opened s p i f -> In (k, r) (positions (page_sizes f)) ->
  exists c s1, fsteff (rec_handle i k r) s = Some (c, s1) /\
    (c = 0 <-> f_std f = true /\ writable f /\ hget (f_hdr f) H_RWFLG <> APPEND /\ In (k, r) (found no_filter every_record i f)) /\
    (c <> 0 -> c < 0 /\ s1 = s) /\ (c = 0 -> reached s1).
Proof.
  intros s p i f k r RS OP IN. destruct (erase_spec _ _ _ _ _ _ RS OP IN) as (c & s1 & E & C & N & Z0). exists c, s1. split; [exact E|]. split; [exact C|]. split; [exact N|]. intros X. apply Z0. exact X.
Qed.
Print Assumptions c59_code.

(** Every search then gives what it gave, in the same order, without the record
    erased; all other records of all files keep their parameters and their
    data; the number of records is one less. *)
Theorem c59_erased : forall s p i f k r s1, reached s -> opened s p i f -> std_file f -> In (k, r) (positions (page_sizes f)) -> fsteff (rec_handle i k r) s = Some (0, s1) ->
  (exists f1, opened s1 p i f1 /\ std_file f1 /\ forall filt q, found filt q i f1 = filter (fun x => negb ((fst x =? k)%nat && (snd x =? r)%nat)) (found filt q i f)) /\
  (forall q iq g j t, opened s q iq g -> f_kp g = std_kp -> In (j, t) (found no_filter every_record iq g) -> (q, j, t) <> (p, k, r) ->
     fstprm (s_w s1) (rec_handle iq j t) = fstprm (s_w s) (rec_handle iq j t) /\ forall ws, reads (s_w s) (rec_handle iq j t) ws -> reads (s_w s1) (rec_handle iq j t) ws) /\
  fstnbrv (f_iun f) s1 = option_map Z.pred (fstnbrv (f_iun f) s).
Proof.
  intros s p i f k r s1 RS OP SF IN FE. destruct (erase_spec _ _ _ _ _ _ RS OP IN) as (c & s1' & E & C & _ & Z0). rewrite FE in E. assert (0 = c /\ s1 = s1') as [<- <-] by (split; congruence).
  destruct (Z0 eq_refl) as (RS1 & FS & OT & f1 & OP1 & DE). destruct (proj1 C eq_refl) as (_ & _ & _ & INF). pose proof (reached_wf _ RS) as W. pose proof (reached_wf _ RS1) as W1.
  pose proof OP as [P F]. pose proof OP1 as [P1 F1]. pose proof DE as (FI1 & ST & DK & _ & _ & LP & NE & _ & _ & AB).
  assert (FD : forall filt q, found filt q i f1 = filter (fun x => negb ((fst x =? k)%nat && (snd x =? r)%nat)) (found filt q i f)).
  { intros filt q. apply found_filter; [exact NE|]. intros [j t]. rewrite (found_abs _ _ _ _ _ _ _ _ W1 OP1), (found_abs _ _ _ _ _ _ _ _ W OP), (sabs_open _ _ _ _ P1 F1), (sabs_open _ _ _ _ P F), AB. cbn [fst snd]. unfold eq2.
    destruct ((j =? k)%nat && (t =? r)%nat); cbn [negb]; [split; [intros (? & ? & X & _); discriminate|intros (_ & X); discriminate]|]. split; [intros X; split; [exact X|reflexivity]|intros (X & _); exact X]. }
  assert (SF1 : std_file f1). { destruct SF as (A & B & D). destruct ST as (_ & _ & _ & S4 & S5 & S6 & _). split; [congruence|]. split; congruence. }
  split; [exists f1; split; [exact OP1|split; [exact SF1|exact FD]]|]. split.
  - intros q iq g j t OQ KG INQ NE3. pose proof OQ as [Q G]. apply (found_every _ _ _ _ _ _ W OQ) in INQ. destruct INQ as (e & ws & SA).
    assert (SA1 : sabs s1 q j t = Some (Some (e, ws))).
    { destruct (Nat.eq_dec q p) as [->|NQ].
      - rewrite (sabs_open _ _ _ _ P1 F1), AB. destruct (eq2_spec j t k r) as [X|_]; [exfalso; apply NE3; injection X as -> ->; reflexivity|]. rewrite (sabs_open _ _ _ _ P F) in SA. exact SA.
      - assert (NI : iq <> i). { intros ->. apply NQ. apply (wf_one _ W q p i Q P). }
        rewrite (sabs_open s1 q iq g); [rewrite (sabs_open _ _ _ _ Q G) in SA; exact SA|rewrite FS; exact Q|]. rewrite (proj2 OT) by exact NI. exact G. }
    assert (exists g1, opened s1 q iq g1 /\ f_kp g1 = std_kp) as (g1 & OQ1 & KG1).
    { destruct (Nat.eq_dec iq i) as [->|NI]; [exists f1|exists g]; (split; [split; [rewrite FS; exact Q|]|]).
      - exact F1.
      - destruct ST as (_ & _ & _ & S4 & _). assert (g = f) as -> by congruence. congruence.
      - rewrite (proj2 OT) by exact NI. exact G.
      - exact KG. }
    split.
    + assert (ent g j t = Some e) as E0 by (rewrite (sabs_open _ _ _ _ Q G) in SA; apply abs_live in SA; apply SA).
      assert (ent g1 j t = Some e) as E1 by (destruct OQ1 as [Q1 G1]; rewrite (sabs_open _ _ _ _ Q1 G1) in SA1; apply abs_live in SA1; apply SA1).
      rewrite (std_prm _ _ _ _ _ _ _ W1 OQ1 KG1 E1), (std_prm _ _ _ _ _ _ _ W OQ KG E0). reflexivity.
    + intros ws0 RD. assert (HE : has_entry s q iq j t).
      { split; [exact Q|]. rewrite (sabs_open _ _ _ _ Q G) in SA. apply abs_live in SA. destruct SA as (E0 & _). apply entry_at_page in E0. destruct E0 as (n & pg & N & PG & R & _). exists g, pg. split; [exact G|]. split; [exact PG|].
        unfold nents in N. rewrite (map_nth_error (fun p => Z.to_nat (p_nent p)) _ _ PG) in N. injection N as <-. lia. }
      destruct (reads_inv _ _ _ _ _ _ W HE RD) as (e' & SA'). assert (ws0 = ws) as -> by congruence. eapply reads_live; [exact W1|apply OQ1|exact SA1].
  - assert (IU : f_iun f1 = f_iun f) by apply ST. rewrite <- IU at 1. rewrite (count_found _ _ _ _ W1 OP1), (count_found _ _ _ _ W OP). cbn [option_map]. f_equal. rewrite FD.
    apply erase_length; [apply NoDup_filter, positions_nodup|exact INF].
Qed.
Print Assumptions c59_erased.

(** No search gives it ever after, whatever is done, closing and opening
    included, until the file is made anew; fsteff refuses it. *)
Theorem c59_gone : forall s p i f k r s1 l s2 j g, reached s -> opened s p i f -> In (k, r) (positions (page_sizes f)) -> fsteff (rec_handle i k r) s = Some (0, s1) ->
  calls (keeps p) s1 l s2 -> opened s2 p j g ->
  (forall filt q, ~ In (k, r) (found filt q j g)) /\ exists c, c < 0 /\ fsteff (rec_handle j k r) s2 = Some (c, s2).
Proof.
  intros s p i f k r s1 l s2 j g RS OP IN FE C OP2. destruct (erase_spec _ _ _ _ _ _ RS OP IN) as (c & s1' & E & _ & _ & Z0). rewrite FE in E. assert (0 = c /\ s1 = s1') as [<- <-] by (split; congruence).
  destruct (Z0 eq_refl) as (RS1 & FS & OT & f1 & OP1 & DE). pose proof OP1 as [P1 F1]. destruct DE as (_ & _ & _ & _ & _ & _ & _ & _ & _ & AB).
  assert (SA1 : sabs s1 p k r = Some None). { rewrite (sabs_open _ _ _ _ P1 F1), AB. destruct (eq2_spec k r k r); congruence. }
  pose proof (calls_dead _ _ _ _ _ _ (reached_wf _ RS1) C SA1) as SA2. pose proof (reached_calls _ _ _ _ RS1 C) as RS2. pose proof (reached_wf _ RS2) as W2.
  assert (NF : forall filt q, ~ In (k, r) (found filt q j g)). { intros filt q X. apply (found_abs _ _ _ _ _ _ _ _ W2 OP2) in X. destruct X as (e & ws & X & _). congruence. }
  split; [exact NF|]. assert (IN2 : In (k, r) (positions (page_sizes g))).
  { destruct OP2 as [P2 G]. rewrite (sabs_open _ _ _ _ P2 G) in SA2. apply (positions_ent g k r (fo_inv _ (wf_fok _ W2 j g G))). unfold abs in SA2. destruct (ent g k r) as [e|] eqn:EE; [|discriminate].
    apply entry_at_page in EE. destruct EE as (n & pg & N & PG & R & Q). f_equal. unfold entry_words. rewrite PG. symmetry. apply nth_error_nth. exact Q. }
  destruct (erase_spec _ _ _ _ _ _ RS2 OP2 IN2) as (c & s3 & E3 & C3 & N3 & _). exists c. assert (CN : c <> 0) by (intros X; apply C3 in X; destruct X as (_ & _ & _ & X); apply NF in X; exact X).
  destruct (N3 CN) as [L ->]. split; [exact L|exact E3].
Qed.
Print Assumptions c59_gone.

(** fstnbrv is the number of records that a search without conditions gives,
    after any history. *)
Theorem c59_count : forall s p i f, reached s -> opened s p i f -> fstnbrv (f_iun f) s = Some (Z.of_nat (length (found no_filter every_record i f))).
Proof. intros s p i f RS OP. exact (count_found _ _ _ _ (reached_wf _ RS) OP). Qed.
Print Assumptions c59_count.

(** ** C60 *)

Lemma edit_all s p i f k r x d : reached s -> opened s p i f -> std_file f -> f_std f = true -> writable f -> In (k, r) (found no_filter every_record i f) -> edit_ok x ->
  fstprm (s_w s) (rec_handle i k r) = Some (Go d) -> new_number (x_deet x) (d_deet d) * new_number (x_npas x) (d_npas d) < 2 ^ 31 ->
  exists s1 f1 e d', fst_edit (rec_handle i k r) x s = Some (0, s1) /\ reached s1 /\ opened s1 p i f1 /\ stat f f1 /\ f_disk f1 = f_disk f /\ page_sizes f1 = page_sizes f /\ s_fs s1 = s_fs s /\ others (s_w s) (s_w s1) i /\
    ent f k r = Some e /\ ent f1 k r = Some (edit_entry x e) /\ length e = 18%nat /\ live e = true /\
    crack (keys_of (skipn 2 (edit_entry x e))) = Some d' /\ edited x d d' /\ label_of d' = entry_label (skipn 2 (edit_entry x e)) /\
    forall q j t, sabs s1 q j t = if Nat.eqb q p && eq2 j t k r then Some (Some (edit_entry x e, rec_data f e)) else sabs s q j t.
Proof.
  intros RS OP SF SD WR IN XO PM OV. pose proof (reached_wf _ RS) as W. pose proof OP as [P F]. pose proof (fo_inv _ (wf_fok _ W i f F)) as FI. pose proof SF as (KP & PL & IL).
  apply (found_every _ _ _ _ _ _ W OP) in IN. destruct IN as (e & ws & SA). rewrite (sabs_open _ _ _ _ P F) in SA. apply abs_live in SA. destruct SA as (E & L & _).
  destruct (rec_handle_ent _ _ _ _ _ _ _ W P F E) as (H1 & H2 & H3 & _).
  destruct (entry_shape _ _ _ _ _ (proj1 FI) E) as [EL _]. rewrite PL in EL. change (2 * 9)%nat with 18%nat in EL.
  rewrite (std_prm _ _ _ _ _ _ _ W OP KP E) in PM. destruct (crack (keys_of (skipn 2 e))) as [d0|] eqn:CR; [|discriminate]. assert (d0 = d) as -> by congruence. set (h := rec_handle i k r) in *.
  destruct (edit_cracks x _ d XO CR OV) as (d' & CR' & ED & LB). rewrite <- (edit_entry_skip x e EL) in CR', LB.
  pose proof E as E'. apply entry_at_page in E'. destruct E' as (n & pg & _ & PG & _ & _). destruct (nth_ent _ _ _ _ _ FI PG E) as [RN Q].
  assert (NR : Z.of_nat r < p_nent pg). { pose proof E as E'. apply entry_at_page in E'. destruct E' as (m & pg' & N & PG' & R & _). assert (pg' = pg) as -> by congruence. unfold nents in N. rewrite (map_nth_error (fun p => Z.to_nat (p_nent p)) _ _ PG) in N. injection N as <-. lia. }
  assert (OK : ok_call s (Edit h x)). { split; [exact XO|]. intros g G. rewrite H1 in G. assert (g = f) as -> by congruence. split; [exact WR|]. exists pg. rewrite H2, H3. auto. }
  set (f1 := ent_file f k r pg (edit_entry x e)). set (s1 := mksys (setf (s_w s) i (Some f1)) (s_fs s)).
  assert (FE : fst_edit h x s = Some (0, s1)).
  { unfold fst_edit. rewrite H1, F. cbn [bind]. rewrite SD. cbn [negb]. rewrite H2, H3. rewrite (proj2 (Nat.ltb_ge _ _)) by (apply Nat.lt_le_incl, nth_error_Some; congruence). rewrite PG. cbn [bind]. rewrite Q. cbn [bind]. rewrite EL. cbn [Nat.eqb negb]. rewrite CR'. reflexivity. }
  destruct (edit_step _ _ _ _ _ W OK FE) as [W1 EF]. cbn [Z.eqb] in EF. destruct EF as (p' & f' & pg' & e' & [P' F'] & PG' & EE' & _ & _ & _ & _ & _ & AB). rewrite H1 in *. rewrite H2, H3 in *.
  assert (f' = f) as -> by congruence. assert (p' = p) as -> by (apply (wf_one _ W p' p i P' P)). assert (e' = e) as -> by congruence. rewrite L in AB.
  destruct (edit_entry_keeps x e EL) as (K1 & K2 & K3). destruct (entry_shape _ _ _ _ _ (proj1 FI) E) as [_ EW].
  destruct (ent_eff f k r pg e (edit_entry x e) FI PG E K1 K2 K3 ltac:(rewrite (edit_entry_length x e EL); congruence) (edit_entry_words x e EW)) as (_ & ST & NE & EN & _).
  exists s1, f1, e, d'. split; [exact FE|]. split; [eapply reached_calls; [exact RS|]; eapply (calls_cons all_calls _ (Edit h x)); [exact OK|exact Logic.I|exact FE|constructor]|].
  split; [split; [exact P|apply setf_same]|]. split; [exact ST|]. split; [reflexivity|]. split; [exact NE|]. split; [reflexivity|]. split; [split; [reflexivity|intros j N; apply setf_other; exact N]|].
  split; [exact E|]. split; [unfold f1; rewrite EN; destruct (eq2_spec k r k r); congruence|]. split; [exact EL|]. split; [exact L|]. split; [exact CR'|]. split; [exact ED|]. split; [exact LB|exact AB].
Qed.

(** Editing a record that searches give, in a standard file that may be written:
    fstprm then gives the parameters edited, after any later calls that leave
    this record alone, closing and opening included; searches take the record
    by its new parameters and give the others as before. *)
Theorem c60_edit : forall s p i f k r x d, reached s -> opened s p i f -> std_file f -> f_std f = true -> writable f -> In (k, r) (found no_filter every_record i f) -> edit_ok x ->
  fstprm (s_w s) (rec_handle i k r) = Some (Go d) -> new_number (x_deet x) (d_deet d) * new_number (x_npas x) (d_npas d) < 2 ^ 31 ->
  exists s1 f1 d', fst_edit (rec_handle i k r) x s = Some (0, s1) /\ reached s1 /\ opened s1 p i f1 /\ std_file f1 /\ edited x d d' /\
    (forall l s2 j g, calls (leaves p k r) s1 l s2 -> opened s2 p j g -> f_kp g = std_kp -> fstprm (s_w s2) (rec_handle j k r) = Some (Go d')) /\
    page_sizes f1 = page_sizes f /\
    (forall filt q y, In y (found filt q i f1) <->
       y = (k, r) /\ wanted q (label_of d') = true /\ filt (rec_handle i k r) = true \/ y <> (k, r) /\ In y (found filt q i f)) /\
    fstnbrv (f_iun f) s1 = fstnbrv (f_iun f) s.
Proof.
  intros s p i f k r x d RS OP SF SD WR IN XO PM OV. destruct (edit_all _ _ _ _ _ _ _ _ RS OP SF SD WR IN XO PM OV) as (s1 & f1 & e & d' & FE & RS1 & OP1 & ST & DK & PS & FS & OT & E & E1 & EL & L & CR & ED & LB & AB).
  pose proof (reached_wf _ RS) as W. pose proof (reached_wf _ RS1) as W1. exists s1, f1, d'. split; [exact FE|]. split; [exact RS1|]. split; [exact OP1|].
  split. { destruct SF as (A & B & C). destruct ST as (_ & _ & _ & S4 & S5 & S6 & _). split; [congruence|]. split; congruence. }
  split; [exact ED|].
  assert (SA1 : sabs s1 p k r = Some (Some (edit_entry x e, rec_data f e))). { rewrite AB, Nat.eqb_refl. destruct (eq2_spec k r k r); [reflexivity|congruence]. }
  assert (FD : forall filt q y, In y (found filt q i f1) <-> y = (k, r) /\ wanted q (label_of d') = true /\ filt (rec_handle i k r) = true \/ y <> (k, r) /\ In y (found filt q i f)).
  { intros filt q [j t]. rewrite (found_abs _ _ _ _ _ _ _ _ W1 OP1), (found_abs _ _ _ _ _ _ _ _ W OP), AB, Nat.eqb_refl, LB. cbn [andb]. destruct (eq2_spec j t k r) as [X|X].
    - injection X as -> ->. split; [intros (e' & ws & Y & A & B); left; assert (e' = edit_entry x e) as -> by congruence; auto|]. intros [(_ & A & B)|(Y & _)]; [|congruence]. eexists _, _. split; [reflexivity|auto].
    - split; [intros Y; right; split; [exact X|exact Y]|]. intros [(Y & _)|(_ & Y)]; [congruence|exact Y]. }
  split; [|split; [exact PS|split; [exact FD|]]].
  - intros l s2 j g C OP2 KG. pose proof (calls_frame _ _ _ _ _ _ _ W1 C SA1) as SA2. pose proof (reached_wf _ (reached_calls _ _ _ _ RS1 C)) as W2. pose proof OP2 as [P2 G]. rewrite (sabs_open _ _ _ _ P2 G) in SA2. apply abs_live in SA2. destruct SA2 as (E2 & _).
    rewrite (std_prm _ _ _ _ _ _ _ W2 OP2 KG E2), CR. reflexivity.
  - assert (IU : f_iun f1 = f_iun f) by apply ST. rewrite <- IU at 1. rewrite (count_found _ _ _ _ W1 OP1), (count_found _ _ _ _ W OP). do 2 f_equal. f_equal.
    rewrite (found_filter no_filter every_record i f f1 (fun _ => true)); [|exact PS|].
    + generalize (found no_filter every_record i f). intros l. induction l as [|a l IH]; [reflexivity|]. cbn [filter]. rewrite IH. reflexivity.
    + intros y. rewrite FD. split.
      * intros [(-> & _)|(_ & Y)]; auto.
      * intros (Y & _). assert (DE : {y = (k, r)} + {y <> (k, r)}) by (destruct y as [a b]; destruct (Nat.eq_dec a k), (Nat.eq_dec b r); subst; [left; reflexivity|right; congruence..]). destruct DE as [->|N]; [left; repeat split|right; auto].
Qed.
Print Assumptions c60_edit.

(** The data of the record edited are read as before, and so are the parameters
    and the data of all other records of all files. *)
Theorem c60_data : forall s p i f k r x d, reached s -> opened s p i f -> std_file f -> f_std f = true -> writable f -> In (k, r) (found no_filter every_record i f) -> edit_ok x ->
  fstprm (s_w s) (rec_handle i k r) = Some (Go d) -> new_number (x_deet x) (d_deet d) * new_number (x_npas x) (d_npas d) < 2 ^ 31 ->
  exists s1, fst_edit (rec_handle i k r) x s = Some (0, s1) /\
    (forall orc junk dst, fstluk orc junk (s_w s1) (rec_handle i k r) dst = fstluk orc junk (s_w s) (rec_handle i k r) dst) /\
    forall q iq g j t, opened s q iq g -> f_kp g = std_kp -> In (j, t) (found no_filter every_record iq g) ->
      (forall ws, reads (s_w s) (rec_handle iq j t) ws -> reads (s_w s1) (rec_handle iq j t) ws) /\
      ((q, j, t) <> (p, k, r) -> fstprm (s_w s1) (rec_handle iq j t) = fstprm (s_w s) (rec_handle iq j t)).
Proof.
  intros s p i f k r x d RS OP SF SD WR IN XO PM OV. destruct (edit_all _ _ _ _ _ _ _ _ RS OP SF SD WR IN XO PM OV) as (s1 & f1 & e & d' & FE & RS1 & OP1 & ST & DK & PS & FS & OT & E & E1 & EL & L & CR & ED & LB & AB).
  pose proof (reached_wf _ RS) as W. pose proof (reached_wf _ RS1) as W1. pose proof OP as [P F]. pose proof OP1 as [P1 F1]. pose proof (fo_inv _ (wf_fok _ W i f F)) as FI. pose proof (fo_inv _ (wf_fok _ W1 i f1 F1)) as FI1.
  exists s1. split; [exact FE|]. split.
  - destruct (rec_handle_ent _ _ _ _ _ _ _ W P F E) as (H1 & H2 & H3 & _). destruct (rec_handle_ent _ _ _ _ _ _ _ W1 P1 F1 E1) as (G1 & _ & _ & _). destruct (edit_entry_keeps x e EL) as (K1 & K2 & K3).
    assert (KP1 : f_kp f1 = std_kp) by (destruct ST as (_ & _ & _ & S4 & _); destruct SF; congruence).
    apply (fstluk_same (s_w s) (s_w s1) (rec_handle i k r) f f1 e (edit_entry x e)); rewrite ?H1, ?H2, ?H3, ?G1; auto.
    exists (skipn 2 e), (skipn 2 (edit_entry x e)). split; [apply (xdfprm_entry _ _ _ _ _ _ _ W P F (proj1 SF) E)|]. split; [rewrite <- K1, <- K2, <- K3; apply (xdfprm_entry _ _ _ _ _ _ _ W1 P1 F1 KP1 E1)|].
    rewrite (edit_entry_skip x e EL), keys_round. pose proof (keys_of_small (skipn 2 e)) as SM. change (k_ni (norm (edit_keys x (keys_of (skipn 2 e))))) with (k_ni (norm (keys_of (skipn 2 e)))). change (k_nj (norm (edit_keys x (keys_of (skipn 2 e))))) with (k_nj (norm (keys_of (skipn 2 e)))).
    change (k_nk (norm (edit_keys x (keys_of (skipn 2 e))))) with (k_nk (norm (keys_of (skipn 2 e)))). change (k_nbits (norm (edit_keys x (keys_of (skipn 2 e))))) with (k_nbits (norm (keys_of (skipn 2 e)))). change (k_datyp (norm (edit_keys x (keys_of (skipn 2 e))))) with (k_datyp (norm (keys_of (skipn 2 e)))).
    rewrite SM. reflexivity.
  - intros q iq g j t OQ KG INQ. pose proof OQ as [Q G]. pose proof INQ as INQ'. apply (found_every _ _ _ _ _ _ W OQ) in INQ. destruct INQ as (e0 & ws & SA).
    assert (HE : has_entry s q iq j t).
    { split; [exact Q|]. rewrite (sabs_open _ _ _ _ Q G) in SA. apply abs_live in SA. destruct SA as (E0 & _). apply entry_at_page in E0. destruct E0 as (n & pg & N & PG & R & _). exists g, pg. split; [exact G|]. split; [exact PG|].
      unfold nents in N. rewrite (map_nth_error (fun p => Z.to_nat (p_nent p)) _ _ PG) in N. injection N as <-. lia. }
    split.
    + intros ws0 RD. destruct (reads_inv _ _ _ _ _ _ W HE RD) as (e' & SA'). assert (ws0 = ws) as -> by congruence.
      assert (exists e1, sabs s1 q j t = Some (Some (e1, ws))) as (e1 & SA1).
      { rewrite AB. destruct (Nat.eqb_spec q p) as [->|]; cbn [andb]; [|eauto]. destruct (eq2_spec j t k r) as [X|]; [|eauto]. injection X as -> ->. rewrite (sabs_open _ _ _ _ P F) in SA. apply abs_live in SA. destruct SA as (E0 & _ & <-). assert (e0 = e) as -> by congruence. eauto. }
      eapply reads_live; [exact W1|rewrite FS; exact Q|exact SA1].
    + intros NE3. assert (SA1 : sabs s1 q j t = Some (Some (e0, ws))).
      { rewrite AB. destruct (Nat.eqb_spec q p) as [->|]; cbn [andb]; [|exact SA]. destruct (eq2_spec j t k r) as [X|]; [|exact SA]. exfalso. apply NE3. injection X as -> ->. reflexivity. }
      assert (exists g1, opened s1 q iq g1 /\ f_kp g1 = std_kp) as (g1 & OQ1 & KG1).
      { destruct (Nat.eq_dec iq i) as [->|NI]; [exists f1|exists g]; (split; [split; [rewrite FS; exact Q|]|]).
        - exact F1.
        - destruct ST as (_ & _ & _ & S4 & _). assert (g = f) as -> by congruence. congruence.
        - rewrite (proj2 OT) by exact NI. exact G.
        - exact KG. }
      assert (ent g j t = Some e0) as Ea by (rewrite (sabs_open _ _ _ _ Q G) in SA; apply abs_live in SA; apply SA).
      assert (ent g1 j t = Some e0) as Eb by (destruct OQ1 as [Q1 G1]; rewrite (sabs_open _ _ _ _ Q1 G1) in SA1; apply abs_live in SA1; apply SA1).
      rewrite (std_prm _ _ _ _ _ _ _ W1 OQ1 KG1 Eb), (std_prm _ _ _ _ _ _ _ W OQ KG Ea). reflexivity.
Qed.
Print Assumptions c60_data.

(** Searches give [found] after any history of calls, edits included (C38). *)
Theorem c60_search : forall next junk filt q s p i f, reached s -> opened s p i f -> std_file f -> query_ok q -> (q_datev q = -1 \/ dates_coded f) ->
  let call := fun s h => if h =? 0 then fstinf junk filt (f_iun f) q s else if next : bool then fstsui junk filt (f_iun f) s else fstinfx junk filt h (f_iun f) q s in
  exists s2, lists call s 0 (map (fun x => (rec_handle i (fst x) (snd x), record_dims f (fst x) (snd x))) (found filt q i f)) s2.
Proof.
  intros next junk filt q s p i f RS OP SF QO DC call. destruct (search_lists next junk filt q s p i f (reached_wf _ RS) OP SF QO DC) as (s2 & L & _). exists s2. exact L.
Qed.
Print Assumptions c60_search.

(** Writing after edits: the state is again one that calls lead to, and what is
    written is found as in C37 and C39. *)
Theorem c60_write : forall orc junk iun a fld rewrit s s1 p i f, reached s -> opened s p i f -> std_file f -> f_iun f = iun -> args_ok a -> field_ok a fld -> space f a ->
  fstecr orc junk iun a fld rewrit s = Some (0, s1) ->
  let old := if rewrit then hd_error (found (fun _ => true) (same_record a) i f) else None in
  reached s1 /\ exists f1 k r d, opened s1 p i f1 /\ std_file f1 /\ f_iun f1 = iun /\ describes a d /\
    (~ In (k, r) (positions (page_sizes f)) \/ old = Some (k, r)) /\
    (forall l s2 j g, calls (leaves p k r) s1 l s2 -> opened s2 p j g -> f_kp g = std_kp -> fstprm (s_w s2) (rec_handle j k r) = Some (Go d)) /\
    (forall filt q x, In x (found filt q i f1) <->
       x = (k, r) /\ wanted q (label_of d) = true /\ filt (rec_handle i k r) = true \/
       x <> (k, r) /\ old <> Some x /\ In x (found filt q i f)).
Proof.
  intros orc junk iun a fld rewrit s s1 p i f RS OP SF IU AO FO SP FE old. pose proof (reached_wf _ RS) as W.
  destruct (fstecr_written _ _ _ _ _ _ _ _ _ _ _ W OP SF IU AO FO SP FE) as (IR & k & r & e & dat & WR).
  destruct (written_prm _ _ _ _ _ _ _ _ _ _ _ _ _ IR AO WR) as (d & CR & _ & DS & LB).
  destruct (wrote_std _ _ _ _ _ _ _ _ _ _ _ W OP SF IU AO FO SP FE) as (f1 & OP1 & SF1 & IU1).
  assert (RS1 : reached s1).
  { destruct (fstecr_put _ _ _ _ _ _ _ _ _ _ _ W OP SF IU AO FO SP FE) as (_ & _ & _ & buf & x & h & s0 & _ & _ & ST & OK & _ & _ & (l & HI)).
    assert (RS0 : reached s0) by (eapply reached_calls; [exact RS|eapply (hist_calls _ all_calls); [exact HI|]; intros; exact Logic.I]).
    eapply reached_calls; [exact RS0|]. eapply (calls_cons all_calls _ (Call (OpPut junk iun h buf))); [exact OK|exact Logic.I|exact ST|constructor]. }
  split; [exact RS1|]. destruct (found_of_written _ _ _ _ _ _ _ _ _ _ _ _ _ _ d W OP WR OP1 LB) as [A B]. exists f1, k, r, d.
  split; [exact OP1|]. split; [exact SF1|]. split; [exact IU1|]. split; [exact DS|]. split; [exact A|]. split; [|exact B].
  intros l s2 j g C OP2 KG. destruct (wr_new _ _ _ _ _ _ _ _ _ _ _ _ _ WR) as (hd & addr & SA1). pose proof (calls_frame _ _ _ _ _ _ _ (reached_wf _ RS1) C SA1) as SA2.
  pose proof (reached_wf _ (reached_calls _ _ _ _ RS1 C)) as W2. pose proof OP2 as [P2 G]. rewrite (sabs_open _ _ _ _ P2 G) in SA2. apply abs_live in SA2. destruct SA2 as (E2 & _).
  rewrite (std_prm _ _ _ _ _ _ _ W2 OP2 KG E2), CR. reflexivity.
Qed.
Print Assumptions c60_write.

(** ** The hypotheses are met *)

Lemma demo_next s n s1 : reach s -> (exists i f, opened s 0 i f /\ std_file f /\ f_iun f = 10 /\ hget (f_hdr f) H_FSIZ < 10000) -> Forall printable n ->
  code (wr (demo_args demo_date n) s false) = Some 0 -> s1 = after (wr (demo_args demo_date n) s false) ->
  reach s1 /\ exists i f, opened s1 0 i f /\ std_file f /\ f_iun f = 10.
Proof.
  intros RS (i & f & OP & SF & IU & SZ) PN C S1. destruct (code_after _ _ C) as (s1' & E). rewrite E in S1. cbn [after] in S1. subst s1'.
  destruct (c39_reach _ _ _ _ _ _ _ _ _ _ _ RS OP SF IU (demo_args_ok n PN) (proj1 (demo_field_ok n)) (demo_space f n SF SZ) E) as (R1 & f1 & OP1 & SF1 & IU1).
  split; [exact R1|]. exists i, f1. auto.
Qed.
Definition demo_edit : edit := mkedit (-1) (-1) 12 (-1) 12 (-1) [] [85; 85] [] [] (-1) (-1) (-1) (-1).
Lemma demo_edit_ok : edit_ok demo_edit.
Proof. unfold edit_ok, demo_edit; cbn -[Z.pow]. repeat split; auto; try lia; repeat (apply Forall_cons || apply Forall_nil); unfold printable; lia. Qed.
Definition shown (s : sys) (h : Z) : option (Z * Z * Z * Z * list Z) :=
  match fstprm (s_w s) h with Some (Go d) => Some (d_dateo d, d_deet d, d_npas d, d_ip2 d, d_nomvar d) | _ => None end.
Lemma demo_prm (o : option (res desc)) : match o with Some (Go d) => Some (d_deet d, d_npas d) | _ => None end = Some (3600, 6) ->
  exists d, o = Some (Go d) /\ new_number (x_deet demo_edit) (d_deet d) * new_number (x_npas demo_edit) (d_npas d) < 2 ^ 31.
Proof. intros H. destruct o as [[z|d]|]; try discriminate H. exists d. split; [reflexivity|]. assert (d_deet d = 3600) as -> by congruence. reflexivity. Qed.
(** fst2 holds two records; one may be erased, one may be edited. *)
Example eff_demo : exists f, reached fst2 /\ opened fst2 0 1 f /\ std_file f /\ f_iun f = 10 /\ f_std f = true /\ writable f /\ hget (f_hdr f) H_RWFLG <> APPEND /\
  found no_filter every_record 1 f = [(0, 0); (0, 1)]%nat /\ edit_ok demo_edit /\ rec_handle 1 0 0 = 1 /\
  exists d, fstprm (s_w fst2) 1 = Some (Go d) /\ new_number (x_deet demo_edit) (d_deet d) * new_number (x_npas demo_edit) (d_npas d) < 2 ^ 31.
Proof.
  destruct fst0_file as (R0 & F0). assert (PT : Forall printable tt /\ Forall printable gz) by (split; repeat (apply Forall_cons || apply Forall_nil); unfold printable; lia).
  destruct (demo_next fst0 tt fst1 R0 F0 (proj1 PT)) as (R1 & i1 & f1 & OP1 & SF1 & IU1); [vm_compute; reflexivity|unfold fst1; reflexivity|].
  assert (S1 : match s_fs fst1 0%nat with Opened i => match w_file (s_w fst1) i with Some f => hget (f_hdr f) H_FSIZ <? 10000 | None => false end | _ => false end = true) by (vm_compute; reflexivity).
  destruct (demo_next fst1 gz fst2 R1) as (R2 & i2 & f2 & OP2 & SF2 & IU2); [exists i1, f1; destruct OP1 as [P F]; rewrite P, F in S1; split; [split; assumption|]; split; [exact SF1|]; split; [exact IU1|apply Z.ltb_lt; exact S1]|apply PT|vm_compute; reflexivity|unfold fst2; reflexivity|]. clear S1.
  assert (S2 : match s_fs fst2 0%nat with Opened i => match w_file (s_w fst2) i with Some f => Some (i, f_std f, f_ro f, hget (f_hdr f) H_RWFLG =? RDMODE, hget (f_hdr f) H_RWFLG =? APPEND, found no_filter every_record 1 f) | None => None end | _ => None end
    = Some (1%nat, true, false, false, false, [(0, 0); (0, 1)]%nat)) by (vm_compute; reflexivity).
  pose proof OP2 as [P F]. rewrite P, F in S2. assert (i2 = 1%nat) as -> by congruence.
  assert (f_std f2 = true /\ f_ro f2 = false /\ (hget (f_hdr f2) H_RWFLG =? RDMODE) = false /\ (hget (f_hdr f2) H_RWFLG =? APPEND) = false /\ found no_filter every_record 1 f2 = [(0, 0); (0, 1)]%nat) as (A & B & C & D & E) by (repeat split; congruence).
  exists f2. split; [apply reach_reached; exact R2|]. split; [exact OP2|]. split; [exact SF2|]. split; [exact IU2|]. split; [exact A|]. split; [split; [apply Z.eqb_neq; exact C|exact B]|]. split; [apply Z.eqb_neq; exact D|].
  split; [exact E|]. split; [apply demo_edit_ok|]. split; [reflexivity|].
  apply demo_prm. vm_compute. reflexivity.
Qed.
(** What erasing and editing do there: erased once, not twice; found by the new
    name and not by the old one; the data as before. *)
Example eff_demo2 : code (fsteff 1 fst2) = Some 0 /\ (fstnbrv 10 fst2, fstnbrv 10 (after (fsteff 1 fst2))) = (Some 2, Some 1) /\ code (fsteff 1 (after (fsteff 1 fst2))) = Some ERR_DELETED /\
  option_map fst (fstinl 3 zeros no_filter 10 every_record 5 (after (fsteff 1 fst2))) = Some (0, [1025]).
Proof. repeat split; vm_compute; reflexivity. Qed.
Example edit_demo : code (fst_edit 1 demo_edit fst2) = Some 0 /\ shown fst2 1 = Some (demo_date, 3600, 6, 6, [84; 84; 32; 32]) /\
  shown (after (fst_edit 1 demo_edit fst2)) 1 = Some (439083800, 3600, 12, 12, [85; 85; 32; 32]) /\
  option_map fst (fstinl 3 zeros no_filter 10 (named tt) 5 (after (fst_edit 1 demo_edit fst2))) = Some (0, []) /\
  option_map fst (fstinl 3 zeros no_filter 10 (named [85; 85]) 5 (after (fst_edit 1 demo_edit fst2))) = Some (0, [1]) /\
  fstluk no_orc zeros (s_w (after (fst_edit 1 demo_edit fst2))) 1 (repeat 7 6) = Some (1, Some (2, 2, 1), [1; 65535; 3; 4; 7; 7]).
Proof. repeat split; vm_compute; reflexivity. Qed.

(** ** What does not hold *)

(** The date given to an edit becomes the date of validity of the record, not its
    date of origin as with fstecr: asking for the date that the record has changes
    it. *)
Definition redate : edit := mkedit demo_date (-1) (-1) (-1) (-1) (-1) [] [] [] [] (-1) (-1) (-1) (-1).
Theorem c60_date_refuted : exists f k r x s1 d d', reached fst2 /\ opened fst2 0 1 f /\ std_file f /\ writable f /\ In (k, r) (found no_filter every_record 1 f) /\ edit_ok x /\
  fst_edit (rec_handle 1 k r) x fst2 = Some (0, s1) /\ fstprm (s_w fst2) (rec_handle 1 k r) = Some (Go d) /\ fstprm (s_w s1) (rec_handle 1 k r) = Some (Go d') /\
  x_date x = d_dateo d /\ x_deet x = -1 /\ x_npas x = -1 /\ d_dateo d' <> x_date x.
Proof.
  destruct eff_demo as (f & RS & OP & SF & _ & _ & WR & _ & FD & _). exists f, 0%nat, 0%nat, redate.
  assert (X : match fst_edit (rec_handle 1 0 0) redate fst2 with Some (c, s1) => match fstprm (s_w fst2) (rec_handle 1 0 0), fstprm (s_w s1) (rec_handle 1 0 0) with Some (Go d), Some (Go d') => Some (c, d_dateo d, d_dateo d') | _, _ => None end | None => None end
    = Some (0, demo_date, 439083800)) by (vm_compute; reflexivity).
  revert X. generalize (fst_edit (rec_handle 1 0 0) redate fst2) as o. generalize (fstprm (s_w fst2) (rec_handle 1 0 0)) as o1. intros o1 o X.
  destruct o as [[c s1]|]; [|discriminate X]. destruct o1 as [[z|d]|]; try discriminate X. destruct (fstprm (s_w s1) (rec_handle 1 0 0)) as [[z|d']|] eqn:PM; try discriminate X.
  assert (c = 0 /\ d_dateo d = demo_date /\ d_dateo d' = 439083800) as (-> & A & B) by (repeat split; congruence). exists s1, d, d'.
  split; [exact RS|]. split; [exact OP|]. split; [exact SF|]. split; [exact WR|]. split; [rewrite FD; left; reflexivity|].
  split; [unfold edit_ok, redate; cbn -[Z.pow Z.modulo]; repeat split; auto; try lia; right; split; [unfold demo_date; lia|vm_compute; discriminate]|].
  split; [reflexivity|]. split; [reflexivity|]. split; [exact PM|]. split; [symmetry; exact A|]. split; [reflexivity|]. split; [reflexivity|]. rewrite B. discriminate.
Qed.
Print Assumptions c60_date_refuted.

(** A file open for reading only: the edit is accepted and seen, and it is gone
    when the file is opened again. *)
Definition closed2 : sys := after (step (OpClose zeros 10) fst2).
Definition reader : sys := after (step (OpOpen zeros 0 10 true true std_kp RDMODE) closed2).
Theorem c60_readonly_refuted : exists s h x s1 s2 s3 a b, s = reader /\ code (step (OpOpen zeros 0 10 true true std_kp RDMODE) closed2) = Some 2 /\
  fst_edit h x s = Some (0, s1) /\ step (OpClose zeros 10) s1 = Some (0, s2) /\ step (OpOpen zeros 0 10 true true std_kp RDMODE) s2 = Some (2, s3) /\
  shown s h = Some a /\ shown s1 h = Some b /\ shown s3 h = Some a /\ a <> b.
Proof.
  assert (X : match fst_edit 1 demo_edit reader with Some (c, s1) => match step (OpClose zeros 10) s1 with Some (c2, s2) => match step (OpOpen zeros 0 10 true true std_kp RDMODE) s2 with Some (c3, s3) => Some (c, c2, c3, shown reader 1, shown s1 1, shown s3 1) | None => None end | None => None end | None => None end
    = Some (0, 0, 2, Some (demo_date, 3600, 6, 6, [84; 84; 32; 32]), Some (439083800, 3600, 12, 12, [85; 85; 32; 32]), Some (demo_date, 3600, 6, 6, [84; 84; 32; 32]))) by (vm_compute; reflexivity).
  assert (Y : code (step (OpOpen zeros 0 10 true true std_kp RDMODE) closed2) = Some 2) by (vm_compute; reflexivity).
  revert X Y. generalize (step (OpOpen zeros 0 10 true true std_kp RDMODE) closed2) as o. intros o. destruct (fst_edit 1 demo_edit reader) as [[c s1]|] eqn:A; [|discriminate]. destruct (step (OpClose zeros 10) s1) as [[c2 s2]|] eqn:B; [|discriminate].
  destruct (step (OpOpen zeros 0 10 true true std_kp RDMODE) s2) as [[c3 s3]|] eqn:C; [|discriminate]. intros X Y.
  exists reader, 1, demo_edit, s1, s2, s3, (demo_date, 3600, 6, 6, [84; 84; 32; 32]), (439083800, 3600, 12, 12, [85; 85; 32; 32]).
  split; [reflexivity|]. split; [exact Y|]. split; [rewrite A; congruence|]. split; [rewrite B; congruence|]. split; [rewrite C; congruence|]. split; [congruence|]. split; [congruence|]. split; [congruence|]. discriminate.
Qed.
Print Assumptions c60_readonly_refuted.

(** A handle whose page is the one after the last, or of a closed file: fsteff
    refuses it, editing reads outside of the directory. *)
Theorem c60_handle_refuted : exists h x, fst_edit h x fst2 = None /\ code (fsteff h fst2) = Some ERR_BAD_PAGENO /\ fst_edit 1 x closed2 = None /\ code (fsteff 1 closed2) = Some ERR_BAD_HNDL.
Proof. exists (rec_handle 1 1 0), demo_edit. repeat split; vm_compute; reflexivity. Qed.
Print Assumptions c60_handle_refuted.
