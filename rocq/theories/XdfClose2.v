(** c_xdfcls, continued: all pages, the header, and reopening. *)
From Coq Require Import ZArith List Lia Bool.
From Verif Require Import Bits Handles WaFile Xdf XdfOpen XdfLib XdfInv XdfDel XdfPut XdfPut2 XdfPut3 XdfPut4 XdfClose.
Import ListNotations.
Open Scope Z_scope.

Definition closed_like (e e' : list Z) : Prop := e' = e \/ e' = close_ent e.

Lemma live_close e : live e = true -> close_ent e = e.
Proof.
  unfold live, close_ent. intros H. destruct (Z.eqb_spec (e_idtyp e) 254) as [E|]; [|reflexivity]. rewrite E in H. discriminate.
Qed.
Lemma close_close e : (0 < length e)%nat -> close_ent (close_ent e) = close_ent e.
Proof.
  intros L. unfold close_ent at 2 3. destruct (Z.eqb_spec (e_idtyp e) 254) as [E|N].
  - unfold close_ent. destruct (e_upd0 e 255 (e_lng e) L) as (-> & _). reflexivity.
  - unfold close_ent. destruct (Z.eqb_spec (e_idtyp e) 254); [contradiction|reflexivity].
Qed.

Record closing (f0 f : fte) : Prop := {
  c_inv : ginv (nents (f_pages f)) f;
  c_img : gimg (fun _ => False) f;
  c_same : exists d lg ps, f = f_setpages (f_setdisk f0 d lg) ps;
  c_ns : nents (f_pages f) = nents (f_pages f0);
  c_ent : forall j s, match ent f0 j s, ent f j s with
                      | Some e, Some e' => closed_like e e'
                      | None, None => True | _, _ => False end;
  c_data : forall j s e, ent f0 j s = Some e -> live e = true -> rec_data f e = rec_data f0 e;
  c_len : length (f_disk f) = length (f_disk f0);
  c_log : exists mid, f_log f = f_log f0 ++ mid /\ f_disk f = apply_log (f_disk f0) mid /\
     Forall (wr_above (Z.of_nat (length (f_hdr f0))) (dsize (f_disk f0))) mid;
  c_mod : forall j p, nth_error (f_pages f0) j = Some p -> p_mod p = false -> exists p', nth_error (f_pages f) j = Some p' /\ p_mod p' = false
}.

Lemma closing_refl f : finv f -> closing f f.
Proof.
  intros [G I]. constructor; auto.
  - exists (f_disk f), (f_log f), (f_pages f). destruct f; reflexivity.
  - intros j s. destruct (ent f j s); [left; reflexivity|exact Logic.I].
  - exists []. rewrite app_nil_r. auto.
  - intros j p P M. exists p. auto.
Qed.

Lemma closing_trans f0 f1 f2 : finv f0 -> closing f0 f1 -> closing f1 f2 -> closing f0 f2.
Proof.
  intros [G0 _] A B. destruct A as [A1 A2 (d & lg & ps & A3) A4 A5 A6 A7 (m & A8 & A9 & A10) A11].
  destruct B as [B1 B2 (d' & lg' & ps' & B3) B4 B5 B6 B7 (m' & B8 & B9 & B10) B11].
  constructor; auto.
  - exists d', lg', ps'. rewrite B3, A3. reflexivity.
  - congruence.
  - intros j s. specialize (A5 j s). specialize (B5 j s). destruct (ent f0 j s) as [e|] eqn:E0; destruct (ent f1 j s) as [e1|]; try contradiction.
    + destruct (ent f2 j s) as [e2|]; [|contradiction].
      assert (L : (0 < length e)%nat). { pose proof (entry_shape _ _ _ _ _ G0 E0) as [L _]. pose proof (g_plen _ _ G0). lia. }
      unfold closed_like in *. destruct A5 as [->| ->]; destruct B5 as [->| ->]; auto. right. apply close_close. exact L.
    + destruct (ent f2 j s); [contradiction|exact I].
  - intros j s e E L. rewrite <- (A6 j s e E L). pose proof (A5 j s) as Q. rewrite E in Q. destruct (ent f1 j s) as [e1|] eqn:E1; [|contradiction].
    assert (e1 = e) as ->. { destruct Q as [->| ->]; [reflexivity|apply live_close; exact L]. }
    eapply B6; eassumption.
  - congruence.
  - exists (m ++ m'). rewrite B8, A8, <- app_assoc. split; [reflexivity|]. rewrite B9, A9, apply_log_app. split; [reflexivity|].
    apply Forall_app. split; [exact A10|]. unfold dsize in *. rewrite A7 in B10. rewrite A3 in B10. exact B10.
  - intros j p P M. destruct (A11 j p P M) as (p1 & P1 & M1). apply (B11 j p1 P1 M1).
Qed.

Lemma close_page_closing junk f k : finv f -> f_ro f = false -> (k < length (f_pages f))%nat ->
  exists f', close_page junk f k = Some f' /\ closing f f' /\ exists p', nth_error (f_pages f') k = Some p' /\ p_mod p' = false.
Proof.
  intros [G IM] RO K. destruct (nth_error (f_pages f) k) as [p|] eqn:P; [|apply nth_error_None in P; lia].
  destruct (p_mod p) eqn:M.
  2: { exists f. unfold close_page. rewrite P. cbn [bind]. rewrite M. split; [reflexivity|]. split; [apply closing_refl; split; assumption|].
       exists p. auto. }
  pose proof (nents_nth _ _ _ P) as N. pose proof (nent_bound f k p G P) as NB.
  destruct (close_page_mod junk _ f k p G P N ltac:(lia) RO M) as (f' & p' & E & C).
  pose proof (closed_ginv _ _ _ _ _ _ G P N C) as G'.
  destruct C as [(d' & lg' & F') OK A X NE MF EN XR IMG LOG LD FR _ _].
  assert (PK : nth_error (f_pages f') k = Some p').
  { rewrite F'. cbn [f_pages f_setpages]. apply upd_nth_same. exact K. }
  assert (NN : nents (f_pages f') = nents (f_pages f)).
  { rewrite F'. cbn [f_pages f_setpages]. unfold nents. rewrite map_upd, NE. apply upd_self. apply (map_nth_error (fun p => Z.to_nat (p_nent p)) _ _ P). }
  assert (XP : ext (nents (f_pages f)) f (OPage k) = Some (2 * (p_addr p - 1), page_wlen (f_plen f))) by (cbn [ext]; rewrite P; reflexivity).
  assert (FRO : forall o s l, ext (nents (f_pages f)) f o = Some (s, l) -> o <> OPage k -> (forall r e, o = ORec k r -> ent f k r = Some e -> live e = true) ->
     range (f_disk f') (Z.to_nat s) (Z.to_nat l) = range (f_disk f) (Z.to_nat s) (Z.to_nat l)).
  { intros o s l XO NO NL. pose proof (g_in _ _ G _ _ _ XO) as IO. pose proof (g_in _ _ G _ _ _ XP) as IP. apply FR.
    - pose proof (g_apart _ _ G _ _ _ _ XO XP NO) as AP. unfold apart in AP. cbn [fst snd] in AP. lia.
    - intros e He TE. apply In_nth_error in He. destruct He as [r Hr].
      pose proof (page_ent_in _ _ _ _ _ _ G P N Hr) as EE.
      assert (XE : ext (nents (f_pages f)) f (ORec k r) = Some (2 * (e_addr e - 1), 2 * e_lng e)) by (cbn [ext]; rewrite EE; reflexivity).
      assert (D : o <> ORec k r). { intros ->. specialize (NL r e eq_refl EE). unfold live in NL. rewrite TE in NL. discriminate. }
      pose proof (g_apart _ _ G _ _ _ _ XO XE D) as AP. unfold apart in AP. cbn [fst snd] in AP.
      pose proof (g_in _ _ G _ _ _ XE) as IE. lia. }
  exists f'. split; [exact E|]. split; [|exists p'; auto]. constructor.
  - rewrite NN. exact G'.
  - intros j q Q _ QM. destruct (Nat.eq_dec j k) as [->|NJ]. { rewrite PK in Q. injection Q as <-. auto. }
    assert (Q0 : nth_error (f_pages f) j = Some q). { rewrite F' in Q. cbn [f_pages f_setpages] in Q. rewrite upd_nth_other in Q by congruence. exact Q. }
    destruct (IM j q Q0) as [O1 O2]; [tauto| |]. { rewrite F' in QM. exact QM. }
    split; [|exact O2]. unfold on_disk in *. rewrite <- O1. rewrite F'. cbn [f_plen f_setpages f_setdisk]. rewrite F' in FRO. apply (FRO (OPage j)); [|congruence|discriminate].
    cbn [ext]. rewrite Q0. reflexivity.
  - exists d', lg', (upd (f_pages f) k p'). exact F'.
  - exact NN.
  - intros j s. unfold ent. rewrite NN. replace (f_pages f') with (upd (f_pages f) k p') by (rewrite F'; reflexivity). rewrite (entry_at_closed _ _ _ _ _ P N EN).
    destruct (Nat.eqb_spec j k) as [->|].
    + destruct (entry_at (nents (f_pages f)) (f_pages f) k s); cbn [option_map]; [right; reflexivity|exact Logic.I].
    + destruct (entry_at (nents (f_pages f)) (f_pages f) j s); [left; reflexivity|exact Logic.I].
  - intros j s e EE L. unfold rec_data. apply (FRO (ORec j s)); [|discriminate|].
    + cbn [ext]. unfold ent in EE. rewrite EE. reflexivity.
    + intros r e' Q Q'. injection Q as -> ->. rewrite EE in Q'. injection Q' as <-. exact L.
  - exact LD.
  - exact LOG.
  - intros j q Q QM. destruct (Nat.eq_dec j k) as [->|NJ]; [exists p'; auto|]. exists q. split; [|exact QM]. rewrite F'. cbn [f_pages f_setpages].
    rewrite upd_nth_other by congruence. exact Q.
Qed.

Lemma closing_len f f' : closing f f' -> length (f_pages f') = length (f_pages f).
Proof. intros C. pose proof (c_ns _ _ C) as N. apply (f_equal (@length nat)) in N. unfold nents in N. rewrite !map_length in N. exact N. Qed.
Lemma closing_finv f f' : closing f f' -> finv f'.
Proof. intros C. split; [apply (c_inv _ _ C)|apply (c_img _ _ C)]. Qed.

Lemma close_pages_closing junk m : forall k f, finv f -> f_ro f = false -> (k + m = length (f_pages f))%nat ->
  (forall j p, (j < k)%nat -> nth_error (f_pages f) j = Some p -> p_mod p = false) ->
  exists f', close_pages junk f (seq k m) = Some f' /\ closing f f' /\ forall j p, nth_error (f_pages f') j = Some p -> p_mod p = false.
Proof.
  induction m; intros k f FI RO L B.
  - exists f. split; [reflexivity|]. split; [apply closing_refl; exact FI|]. intros j p P. apply (B j p); [|exact P].
    assert (j < length (f_pages f))%nat by (apply nth_error_Some; congruence). lia.
  - cbn [seq close_pages]. destruct (close_page_closing junk f k FI RO ltac:(lia)) as (f1 & E & C & p' & P' & M').
    rewrite E. cbn [bind]. pose proof (closing_len _ _ C) as LC.
    assert (RO1 : f_ro f1 = false). { destruct (c_same _ _ C) as (d & lg & ps & ->). exact RO. }
    destruct (IHm (S k) f1 (closing_finv _ _ C) RO1) as (f2 & E2 & C2 & Q).
    + lia.
    + intros j p J P. destruct (Nat.eq_dec j k) as [->|]; [rewrite P' in P; injection P as <-; exact M'|].
      destruct (nth_error (f_pages f) j) as [q|] eqn:QJ.
      * destruct (c_mod _ _ C j q QJ (B j q ltac:(lia) QJ)) as (p1 & P1 & M1). rewrite P1 in P. injection P as <-. exact M1.
      * apply nth_error_None in QJ. lia.
    + exists f2. split; [exact E2|]. split; [|exact Q]. eapply closing_trans; eassumption.
Qed.

(** * The header *)
Lemma finv_rwflg f v : finv f -> finv (f_sethdr f (hset (f_hdr f) H_RWFLG v)).
Proof.
  intros [G I]. split; [|exact I]. pose proof (g_hlen16 _ _ G) as H16.
  assert (HG : forall k, k <> H_RWFLG -> hget (hset (f_hdr f) H_RWFLG v) k = hget (f_hdr f) k).
  { intros k K. rewrite hget_hset by (unfold H_RWFLG; lia). destruct (Nat.eqb_spec k H_RWFLG); [contradiction|reflexivity]. }
  assert (HL : h_lng (hset (f_hdr f) H_RWFLG v) = h_lng (f_hdr f)) by (apply h_lng_hset; unfold H_RWFLG; lia).
  assert (X : forall o, ext (nents (f_pages f)) (f_sethdr f (hset (f_hdr f) H_RWFLG v)) o = ext (nents (f_pages f)) f o).
  { intros [|k|k r]; cbn [ext f_hdr f_sethdr f_pages f_plen]; [rewrite hset_length; reflexivity|reflexivity|reflexivity]. }
  change (f_pages (f_sethdr f (hset (f_hdr f) H_RWFLG v))) with (f_pages f).
  destruct G. constructor; cbn [f_sethdr f_kp f_link f_tail f_plen f_hdr f_pages f_nxtadr f_disk f_modified]; rewrite ?hset_length, ?HL; auto;
    try (rewrite HG by discriminate; assumption).
  - apply hset_words. assumption.
  - rewrite h_lprm_hset by (unfold H_RWFLG, H_PRM; lia). assumption.
  - intros o s l. rewrite X, HG by discriminate. apply g_in.
  - intros o o' x x'. rewrite !X. apply g_apart.
  - rename g_tile into T. constructor; cbn [f_sethdr f_plen f_hdr f_pages f_disk f_modified].
    + intros y. rewrite HG by discriminate. intros Hy. destruct (t_cover _ _ T y Hy) as (o & s & l & O & B0). exists o, s, l. rewrite X. auto.
    + rewrite !HG by discriminate. apply (t_hdr _ _ T).
    + apply (t_page _ _ T).
    + apply (t_rec _ _ T).
Qed.

(** Writing the header words leaves the rest alone. *)
Lemma hdr_write f hd : finv f -> length hd = length (f_hdr f) -> 
  let f' := f_setdisk f (write_at (f_disk f) 0 hd) (f_log f ++ [(1, hd)]) in
  finv f' /\ length (f_disk f') = length (f_disk f) /\ range (f_disk f') 0 (length hd) = hd /\
  (forall j s e, ent f j s = Some e -> rec_data f' e = rec_data f e) /\
  (forall a n, (length hd <= a)%nat -> range (f_disk f') a n = range (f_disk f) a n).
Proof.
  intros [G I] L. cbv zeta. pose proof (g_size _ _ G) as SZ. unfold dsize in SZ. pose proof (g_hlen16 _ _ G) as H16.
  assert (HX : ext (nents (f_pages f)) f OHdr = Some (0, Z.of_nat (length (f_hdr f)))) by reflexivity.
  pose proof (g_in _ _ G _ _ _ HX) as HI.
  assert (LD : length (write_at (f_disk f) 0 hd) = length (f_disk f)) by (rewrite write_at_length by lia; lia).
  assert (FR : forall a n, (length hd <= a)%nat -> range (write_at (f_disk f) 0 hd) a n = range (f_disk f) a n).
  { intros a n Q. apply range_write_other; lia. }
  assert (FRO : forall o s l, ext (nents (f_pages f)) f o = Some (s, l) -> o <> OHdr ->
     range (write_at (f_disk f) 0 hd) (Z.to_nat s) (Z.to_nat l) = range (f_disk f) (Z.to_nat s) (Z.to_nat l)).
  { intros o s l XO NO. apply FR. pose proof (g_in _ _ G _ _ _ XO). pose proof (g_apart _ _ G _ _ _ _ HX XO ltac:(congruence)) as AP.
    unfold apart in AP. cbn [fst snd] in AP. lia. }
  split; [|split; [exact LD|split; [|split; [|exact FR]]]].
  - split.
    + cbn [f_pages f_setdisk]. destruct G. constructor; cbn [f_setdisk f_kp f_link f_tail f_plen f_hdr f_pages f_nxtadr f_disk f_modified]; auto.
      * unfold dsize. rewrite LD. exact SZ.
      * rename g_tile into T. constructor; [apply (t_cover _ _ T)|apply (t_hdr _ _ T)|apply (t_page _ _ T)|].
        intros j s e p E P. destruct (t_rec _ _ T _ _ _ _ E P) as [R1 R2]. split; [|exact R2]. apply rhd_same with (f_disk f); [|exact R1].
        cbn [f_disk f_setdisk]. apply FR. assert (XE : ext (nents (f_pages f)) f (ORec j s) = Some (2 * (e_addr e - 1), 2 * e_lng e)).
        { cbn [ext]. cbn [f_pages f_setdisk] in E. rewrite E. reflexivity. }
        pose proof (g_in _ _ _ XE). pose proof (g_apart _ _ _ _ HX XE ltac:(discriminate)) as AP. unfold apart in AP. cbn [fst snd] in AP. lia.
    + intros k p P S M. destruct (I k p P S M) as [O X]. split; [|exact X]. unfold on_disk in *. cbn [f_disk f_setdisk f_plen]. rewrite <- O.
      apply (FRO (OPage k)); [|discriminate]. cbn [ext]. cbn [f_pages f_setdisk] in P. rewrite P. reflexivity.
  - cbn [f_disk f_setdisk]. apply range_write_same. lia.
  - intros j s e E. unfold rec_data. cbn [f_disk f_setdisk]. apply (FRO (ORec j s)); [|discriminate]. cbn [ext]. unfold ent in E. rewrite E. reflexivity.
Qed.

Lemma finv_setmod_false f : finv f -> (forall j p, nth_error (f_pages f) j = Some p -> p_mod p = false) -> finv (f_setmod f false).
Proof.
  intros [G I] M. split.
  - cbn [f_pages f_setmod]. destruct G. constructor; try assumption. destruct g_tile as [T1 T2 T3 T4]. constructor; try assumption.
    intros j s e p E P. destruct (T4 _ _ _ _ E P) as [R1 R2]. split; [exact R1|]. intros H. destruct (R2 H) as [R3 _]. rewrite (M j p P) in R3. discriminate.
  - intros k p P S _. apply (I k p P S). left. eapply M. exact P.
Qed.

(** The whole of c_xdfcls on a file open for writing. *)
Record close_effect (f f' : fte) : Prop := {
  ce_inv : finv f';
  ce_clean : f_modified f' = false;
  ce_hdr : f_hdr f' = hset (f_hdr f) H_RWFLG 0;
  ce_disk : range (f_disk f') 0 (length (f_hdr f)) = f_hdr f';
  ce_plen : f_plen f' = f_plen f;
  ce_np : length (f_pages f') = length (f_pages f);
  ce_ent : forall j s, match ent f j s, ent f' j s with
                      | Some e, Some e' => closed_like e e'
                      | None, None => True | _, _ => False end;
  ce_data : forall j s e, ent f j s = Some e -> live e = true -> rec_data f' e = rec_data f e;
  ce_len : length (f_disk f') = length (f_disk f);
  ce_log : exists mid, f_log f' = f_log f ++ [(1, f_hdr f)] ++ mid ++ [(1, f_hdr f')] /\
     f_disk f' = apply_log (f_disk f) ([(1, f_hdr f)] ++ mid ++ [(1, f_hdr f')]) /\
     Forall (wr_above (Z.of_nat (length (f_hdr f))) (dsize (f_disk f))) mid
}.

Lemma xdfcls_spec junk f : finv f -> writable f -> exists f', xdfcls junk false f = Some f' /\ close_effect f f'.
Proof.
  intros FI [WR RO]. pose proof FI as [G I]. pose proof (g_hlen _ _ G) as HL. pose proof (g_hlen16 _ _ G) as H16. pose proof (g_size _ _ G) as SZ.
  unfold xdfcls. rewrite RO. replace (hget (f_hdr f) H_RWFLG =? RDMODE) with false by (symmetry; apply Z.eqb_neq; exact WR). cbn [negb andb]. cbv zeta.
  rewrite <- HL, Nat2Z.id, firstn_all. rewrite f_write_rw by (try assumption; unfold dsize; lia). cbn [bind]. change (Z.to_nat (1 - 1)) with 0%nat.
  destruct (hdr_write f (f_hdr f) FI eq_refl) as (F1 & L1 & R1 & D1 & FR1). cbv zeta in *. set (f1 := f_setdisk f (write_at (f_disk f) 0 (f_hdr f)) (f_log f ++ [(1, f_hdr f)])) in *.
  assert (C2 : exists f2, (if f_modified f1 then bind (close_pages junk f1 (seq 0 (Z.to_nat (hget (f_hdr f1) H_NBD)))) (fun g => Some (f_setmod g false)) else Some f1)
      = Some f2 /\ finv f2 /\ f_modified f2 = false /\ exists g, closing f1 g /\ f2 = f_setmod g false).
  { destruct (f_modified f1) eqn:M1.
    - change (f_hdr f1) with (f_hdr f). rewrite (g_nbd _ _ G), Nat2Z.id.
      destruct (close_pages_closing junk (length (f_pages f)) 0 f1 F1 RO eq_refl ltac:(intros; lia)) as (g & E & C & Q).
      rewrite E. cbn [bind]. eexists. split; [reflexivity|]. split; [apply finv_setmod_false; [apply (closing_finv _ _ C)|exact Q]|].
      split; [reflexivity|]. exists g. auto.
    - exists f1. split; [reflexivity|]. split; [exact F1|]. split; [exact M1|]. exists f1. split; [apply closing_refl; exact F1|].
      rewrite <- M1. destruct f1; reflexivity. }
  destruct C2 as (f2 & -> & F2 & M2 & g & C & EG). cbn [bind].
  destruct C as [CI CM (dd & lg & ps & CS) CN CE CD CL (mid & CG1 & CG2 & CG3) _].
  assert (H2 : f_hdr f2 = f_hdr f) by (rewrite EG, CS; reflexivity).
  rewrite H2. set (hd := hset (f_hdr f) H_RWFLG 0).
  assert (LH : length hd = length (f_hdr f)) by apply hset_length.
  assert (HLL : h_lng hd = h_lng (f_hdr f)) by (apply h_lng_hset; unfold H_RWFLG; lia).
  cbn [f_hdr f_sethdr]. rewrite HLL, <- HL, Nat2Z.id, <- LH, firstn_all.
  assert (F3 : finv (f_sethdr f2 hd)) by (unfold hd; rewrite <- H2; apply finv_rwflg; exact F2).
  rewrite f_write_rw. 2: { rewrite EG, CS. exact RO. } 2: { unfold dsize. lia. }
  change (Z.to_nat (1 - 1)) with 0%nat.
  destruct (hdr_write (f_sethdr f2 hd) hd F3 eq_refl) as (F4 & L4 & R4 & D4 & FR4). cbv zeta in *.
  eexists. split; [reflexivity|].
  set (f3 := f_setdisk (f_sethdr f2 hd) _ _) in *. rewrite LH in R4.
  assert (DD : f_disk f2 = f_disk g) by (rewrite EG; reflexivity).
  constructor.
  - exact F4.
  - exact M2.
  - reflexivity.
  - exact R4.
  - change (f_plen f3) with (f_plen f2). rewrite EG, CS. reflexivity.
  - change (f_pages f3) with (f_pages f2). rewrite EG. change (f_pages (f_setmod g false)) with (f_pages g).
    apply (f_equal (@length nat)) in CN. unfold nents in CN. rewrite !map_length in CN. exact CN.
  - intros j s. specialize (CE j s). change (ent f3 j s) with (ent f2 j s). rewrite EG. exact CE.
  - intros j s e E L. pose proof (CE j s) as Q. change (ent f1 j s) with (ent f j s) in Q. rewrite E in Q. destruct (ent g j s) as [e'|] eqn:E'; [|contradiction].
    assert (e' = e) as ->. { destruct Q as [->| ->]; [reflexivity|apply live_close; exact L]. }
    rewrite (D4 j s e). 2: { change (ent (f_sethdr f2 hd) j s) with (ent f2 j s). rewrite EG. exact E'. }
    change (rec_data (f_sethdr f2 hd) e) with (range (f_disk f2) (Z.to_nat (2 * (e_addr e - 1))) (Z.to_nat (2 * e_lng e))).
    rewrite DD. change (rec_data g e = rec_data f e). rewrite (CD j s e E L). apply (D1 j s e E).
  - rewrite L4. change (f_disk (f_sethdr f2 hd)) with (f_disk f2). rewrite DD, CL. exact L1.
  - exists mid. assert (LG : f_log f2 = f_log g) by (rewrite EG; reflexivity).
    change (f_log f3) with (f_log f2 ++ [(1, hd)]). rewrite LG, CG1. change (f_log f1) with (f_log f ++ [(1, f_hdr f)]).
    rewrite <- !app_assoc. split; [reflexivity|]. split.
    + rewrite !apply_log_app. change (apply_log (f_disk f) [(1, f_hdr f)]) with (f_disk f1). rewrite <- CG2, <- DD. reflexivity.
    + unfold dsize in *. rewrite L1 in CG3. exact CG3.
Qed.
