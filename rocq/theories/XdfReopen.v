(** c_xdfopn on a properly closed file. *)
From Coq Require Import ZArith List Lia Bool.
From Verif Require Import Bits Handles WaFile Xdf XdfOpen XdfLib XdfInv XdfDel XdfPut XdfPut2 XdfPut3 XdfPut4 XdfClose XdfClose2.
Import ListNotations.
Open Scope Z_scope.

Lemma page_of_words_id plen p m : page_ok plen p -> page_of_words plen (p_words p) m = p_setmod p m.
Proof.
  intros (A & _ & B & C). unfold page_of_words, p_words, p_setmod. f_equal.
  - rewrite firstn_app, A, Nat.sub_diag, firstn_O, app_nil_r. apply firstn_all2. lia.
  - rewrite skipn_app, A, Nat.sub_diag, (skipn_all2 (p_hd p)) by lia. cbn [skipn app]. apply chunks_concat; [exact B|].
    eapply Forall_impl; [|exact C]. cbv beta. tauto.
Qed.

(** Reading [m] pages, the first [k] being there. *)
Lemma read_pages_spec junk f (G : ginv (nents (f_pages f)) f) (OD : forall k p, nth_error (f_pages f) k = Some p -> on_disk f p) :
  forall m k g nrec wa, (k + m = length (f_pages f))%nat -> f_pages g = map (fun p => p_setmod p false) (firstn k (f_pages f)) ->
  f_disk g = f_disk f -> f_plen g = f_plen f -> f_tail g = None ->
  (forall p, nth_error (f_pages f) k = Some p -> wa = 2 * (p_addr p - 1) + 1) ->
  exists n, read_pages m junk g wa nrec = Some (Go (f_setpages g (map (fun p => p_setmod p false) (f_pages f)), n)).
Proof.
  induction m; intros k g nrec wa KM PG DK PLN TL WA.
  - exists nrec. cbn [read_pages]. f_equal. f_equal. f_equal. rewrite firstn_all2 in PG by lia. rewrite <- PG. destruct g; reflexivity.
  - destruct (nth_error (f_pages f) k) as [p|] eqn:P; [|apply nth_error_None in P; lia].
    assert (K : (k < length (f_pages f))%nat) by lia. specialize (WA p eq_refl).
    assert (LG : length (f_pages g) = k) by (rewrite PG, map_length, firstn_length; lia).
    pose proof (g_np _ _ G) as NP. cbn [read_pages]. unfold add_dir_page.
    replace (MAX_DIR_PAGES <=? length (f_pages g))%nat with false by (symmetry; apply Nat.leb_gt; lia). cbv zeta. cbn [bind].
    cbn [f_pages f_setlink f_setpages]. rewrite app_length, LG. cbn [length]. replace (k + 1 - 1)%nat with k by lia.
    rewrite nth_error_app2 by lia. rewrite LG, Nat.sub_diag. cbn [nth_error bind f_disk f_setpages f_setlink f_plen]. rewrite DK, PLN.
    assert (XP : ext (nents (f_pages f)) f (OPage k) = Some (2 * (p_addr p - 1), page_wlen (f_plen f))) by (cbn [ext]; rewrite P; reflexivity).
    pose proof (g_in _ _ G _ _ _ XP) as (X1 & X2 & X3). pose proof (g_size _ _ G) as SZ. pose proof (g_small _ _ G) as SM.
    rewrite w32_id by (unfold word_ok; lia). rewrite waread_plain by lia. cbn [bind snd].
    rewrite WA, Z.add_simpl_r. rewrite (OD k p P). pose proof (page_nth_ok _ _ _ _ G P) as POK.
    rewrite (skipn_all2 (p_words (new_page _ _ _))).
    2: { rewrite (p_words_length _ _ POK). rewrite (p_words_length (f_plen f)); [lia|]. apply new_page_ok. }
    rewrite app_nil_r, page_of_words_id by exact POK.
    set (p1 := p_setmod p false).
    assert (EU : upd (f_pages g ++ [new_page junk (f_plen f) ((f_nxtadr g - 1) / 2 + 1)]) k p1 = f_pages g ++ [p1]).
    { rewrite <- LG at 1. apply upd_app2. }
    rewrite EU. set (wa' := s32 (w32 (2 * (p_nxt p1 - 1) + 1))).
    assert (NX : (forall q, nth_error (f_pages f) (S k) = Some q -> wa' = 2 * (p_addr q - 1) + 1) /\ (((wa' =? 0) && negb (Nat.eqb m 0)) || (dsize (f_disk f) <? wa')) = false).
    { destruct (nth_error (f_pages f) (S k)) as [q|] eqn:Q.
      - pose proof (g_chain _ _ G _ _ _ P Q) as CH.
        assert (XQ : ext (nents (f_pages f)) f (OPage (S k)) = Some (2 * (p_addr q - 1), page_wlen (f_plen f))) by (cbn [ext]; rewrite Q; reflexivity).
        pose proof (g_in _ _ G _ _ _ XQ) as (Y1 & Y2 & Y3).
        assert (W : wa' = 2 * (p_addr q - 1) + 1).
        { unfold wa'. change (p_nxt p1) with (p_nxt p). rewrite CH. rewrite w32_id by (unfold word_ok; lia). unfold s32.
          replace (2 * (p_addr q - 1) + 1 <? 2 ^ 31) with true by (symmetry; apply Z.ltb_lt; lia). reflexivity. }
        split. { intros q' E; injection E as <-. exact W. }
        rewrite W. apply orb_false_intro; [apply andb_false_intro1, Z.eqb_neq|apply Z.ltb_ge]; lia.
      - assert (LK : (k = length (f_pages f) - 1)%nat) by (apply nth_error_None in Q; lia).
        split; [discriminate|]. pose proof (g_lastp _ _ G p ltac:(rewrite <- LK; exact P)) as LP.
        assert (W : wa' = -1). { unfold wa'. change (p_nxt p1) with (p_nxt p). rewrite LP. reflexivity. }
        rewrite W. apply orb_false_intro; [reflexivity|]. apply Z.ltb_ge. unfold dsize. lia. }
    destruct NX as [NX ->]. set (g2 := f_setpages _ (f_pages g ++ [p1])).
    destruct (IHm (S k) g2 (nrec + p_nent p1) wa') as (n & E); auto; try lia.
    { cbn [g2 f_pages f_setpages]. rewrite PG. replace (firstn (S k) (f_pages f)) with (firstn k (f_pages f) ++ [p]).
      - rewrite map_app. reflexivity.
      - clear -P. revert k P. induction (f_pages f) as [|x l IH]; intros [|k] P; cbn [nth_error] in P; try discriminate.
        + injection P as ->. reflexivity.
        + cbn [firstn app]. f_equal. apply IH. exact P. }
    exists n. rewrite E. f_equal. f_equal. f_equal. unfold g2, f_setpages, f_setlink. cbn.  destruct g; cbn in *. rewrite TL. reflexivity.
Qed.

Definition sign_ok (std : bool) (hd : list Z) : Prop := std = true -> hget hd 3 = STDR \/ hget hd 3 = STDS.
Definition magic_ok (hd : list Z) : Prop := hget hd 2 = XDF0 \/ hget hd 2 = XDF0_lc.

Definition opened (f : fte) (iun : Z) (ro std : bool) (kp : keypack) (mode : Z) (f' : fte) : Prop :=
  f_iun f' = iun /\ f_ro f' = ro /\ f_std f' = std /\ f_kp f' = kp /\ f_plen f' = f_plen f /\ f_ilen f' = Z.to_nat (h_laux (f_hdr f)) /\
  f_disk f' = f_disk f /\ f_log f' = [] /\ f_hdr f' = hset (f_hdr f) H_RWFLG mode /\
  f_pages f' = map (fun p => p_setmod p false) (f_pages f) /\ f_modified f' = false /\
  f_target f' = repeat 0 MAX_PRIMARY_LNG /\ f_cmask f' = repeat (2 ^ 32 - 1) MAX_PRIMARY_LNG /\ f_smask f' = repeat (2 ^ 32 - 1) MAX_PRIMARY_LNG.

Lemma h_laux_hset h k v : k <> H_AUX -> (k < length h)%nat -> h_laux (hset h k v) = h_laux h.
Proof. intros. unfold h_laux. rewrite hget_hset by assumption. destruct (Nat.eqb_spec H_AUX k); [congruence|reflexivity]. Qed.

Lemma nents_clean d : nents (map (fun p => p_setmod p false) d) = nents d.
Proof. unfold nents. rewrite map_map. reflexivity. Qed.
Lemma entry_at_clean ns d k r : entry_at ns (map (fun p => p_setmod p false) d) k r = entry_at ns d k r.
Proof.
  unfold entry_at. destruct (nth_error ns k); [|reflexivity]. rewrite nth_error_map. destruct (nth_error d k); reflexivity.
Qed.
Lemma used_clean ns d : used ns (map (fun p => p_setmod p false) d) = used ns d.
Proof. apply used_ents_ext. rewrite map_map. apply map_ext. reflexivity. Qed.

Lemma xdfopn_spec junk iun ro std kp f mode : finv f -> f_modified f = false ->
  range (f_disk f) 0 (length (f_hdr f)) = f_hdr f -> hget (f_hdr f) H_RWFLG = 0 -> magic_ok (f_hdr f) -> sign_ok std (f_hdr f) -> kp_ok kp ->
  exists f', xdfopn junk iun ro std kp (f_disk f) mode = Some (Go (hget (f_hdr f) H_NREC, f')) /\ opened f iun ro std kp mode f' /\ finv f' /\
     Forall (fun p => checksum_ok p = true) (f_pages f').
Proof.
  intros FI MD HD RW MG SG KP. pose proof FI as [G I]. pose proof (g_hlen _ _ G) as HL. pose proof (g_hlen16 _ _ G) as H16. pose proof (g_size _ _ G) as SZ.
  assert (HX : ext (nents (f_pages f)) f OHdr = Some (0, Z.of_nat (length (f_hdr f)))) by reflexivity.
  pose proof (g_in _ _ G _ _ _ HX) as HI.
  set (hd1 := hset (f_hdr f) H_RWFLG mode).
  assert (HG : forall k, k <> H_RWFLG -> hget hd1 k = hget (f_hdr f) k).
  { intros k K. unfold hd1. rewrite hget_hset by (unfold H_RWFLG; lia). destruct (Nat.eqb_spec k H_RWFLG); [contradiction|reflexivity]. }
  assert (OD : forall k p, nth_error (f_pages f) k = Some p -> on_disk f p).
  { intros k p P. apply (I k p P); [tauto|right; exact MD]. }
  set (f0 := mkfte iun ro std kp (f_plen f) (Z.to_nat (h_laux (f_hdr f))) (f_disk f) [] hd1 [] None (-1) (2 * hget (f_hdr f) H_FSIZ + 1)
                  false empty_cursor (repeat 0 MAX_PRIMARY_LNG) (repeat (2 ^ 32 - 1) MAX_PRIMARY_LNG) (repeat (2 ^ 32 - 1) MAX_PRIMARY_LNG) false).
  assert (RP : exists n, read_pages (length (f_pages f)) junk f0 (1 + Z.of_nat (length (f_hdr f))) 0 = Some (Go (f_setpages f0 (map (fun p => p_setmod p false) (f_pages f)), n))).
  { apply (read_pages_spec junk f G OD (length (f_pages f)) 0 f0); auto.
    intros p P. rewrite (g_first _ _ G p P). lia. }
  destruct RP as [n RP].
  exists (f_setpages f0 (map (fun p => p_setmod p false) (f_pages f))). split; [|split; [|split]].
  - unfold xdfopn. rewrite waread_plain by lia. cbn [bind snd]. change (Z.to_nat (1 - 1)) with 0%nat. change (Z.to_nat 4) with 4%nat.
    assert (R4 : range (f_disk f) 0 4 = firstn 4 (f_hdr f)).
    { rewrite <- HD at 1. unfold range. rewrite firstn_firstn. f_equal. lia. }
    rewrite R4. rewrite firstn_length, Nat.min_l by lia. cbn [repeat Nat.sub]. rewrite app_nil_r.
    assert (N4 : forall k, (k < 4)%nat -> nth k (firstn 4 (f_hdr f)) 0 = hget (f_hdr f) k).
    { intros k K. unfold hget. destruct (f_hdr f) as [|x0 [|x1 [|x2 [|x3 x]]]]; try (cbn [length] in H16; lia). destruct k as [|[|[|[|]]]]; try lia; reflexivity. }
    rewrite !N4 by lia. 
    replace (negb ((hget (f_hdr f) 2 =? XDF0) || (hget (f_hdr f) 2 =? XDF0_lc))) with false.
    2: { symmetry. apply negb_false_iff. apply orb_true_iff. destruct MG as [->| ->]; [left|right]; reflexivity. }
    cbv zeta. fold (h_lng (f_hdr f)). rewrite <- HL. rewrite waread_plain by lia. cbn [bind snd]. change (Z.to_nat (1 - 1)) with 0%nat. rewrite Nat2Z.id, HD, Nat.sub_diag.
    cbn [repeat]. rewrite app_nil_r. replace (length (f_hdr f) <? 16)%nat with false by (symmetry; apply Nat.ltb_ge; lia).
    replace (std && negb ((hget (f_hdr f) 3 =? STDR) || (hget (f_hdr f) 3 =? STDS))) with false.
    2: { symmetry. destruct std; [|reflexivity]. destruct (SG eq_refl) as [->| ->]; reflexivity. }
    rewrite RW. change (0 =? RDMODE) with true. cbn [negb]. rewrite andb_false_r. fold hd1.
    rewrite HG by discriminate. rewrite (g_nbd _ _ G). pose proof (g_np _ _ G) as NP.
    replace (Z.of_nat (length (f_pages f)) =? 0) with false by (symmetry; apply Z.eqb_neq; lia).
    replace (Z.of_nat MAX_DIR_PAGES <? Z.of_nat (length (f_pages f))) with false by (symmetry; apply Z.ltb_ge; lia).
    rewrite Nat2Z.id. unfold hd1 at 1 2. rewrite h_lprm_hset, h_laux_hset by (unfold H_RWFLG, H_PRM, H_AUX; lia). rewrite (g_lprm _ _ G), Nat2Z.id.
    cbn [fresh f_target f_cmask f_smask]. rewrite HG by discriminate. fold f0. rewrite RP. cbn [bind]. rewrite HG by discriminate. reflexivity.
  - unfold opened. cbn [f0 f_setpages f_iun f_ro f_std f_kp f_plen f_ilen f_disk f_log f_hdr f_pages f_modified f_target f_cmask f_smask]. auto 20.
  - split.
    + cbn [f_pages f_setpages]. rewrite nents_clean.
      assert (X : forall o, ext (nents (f_pages f)) (f_setpages f0 (map (fun p => p_setmod p false) (f_pages f))) o = ext (nents (f_pages f)) f o).
      { intros [|k|k r]; cbn [ext f_hdr f_setpages f_pages f_plen f0].
        - unfold hd1. rewrite hset_length. reflexivity.
        - rewrite nth_error_map. destruct (nth_error (f_pages f) k); reflexivity.
        - rewrite entry_at_clean. reflexivity. }
      assert (HLN : h_lng hd1 = h_lng (f_hdr f)) by (apply h_lng_hset; unfold H_RWFLG; lia).
      assert (LH : length hd1 = length (f_hdr f)) by apply hset_length.
      destruct G. constructor; cbn [f0 f_setpages f_kp f_link f_tail f_plen f_hdr f_pages f_nxtadr f_disk f_modified]; rewrite ?map_length, ?HLN, ?LH, ?used_clean; auto;
        try (rewrite HG by discriminate; assumption).
      * apply hset_words. assumption.
      * unfold hd1. rewrite h_lprm_hset by (unfold H_RWFLG, H_PRM; lia). assumption.
      * apply Forall_forall. intros x Hx. apply in_map_iff in Hx. destruct Hx as (q & <- & Hq). rewrite Forall_forall in g_pages. apply (g_pages q Hq).
      * rewrite HG by discriminate. reflexivity.
      * intros o s l. rewrite X, HG by discriminate. apply g_in.
      * intros o o' x x'. rewrite !X. apply g_apart.
      * intros k r e. rewrite entry_at_clean. apply g_ents.
      * intros p. rewrite nth_error_map. destruct (nth_error (f_pages f) 0) as [q|]; [|discriminate]. intros Q; injection Q as <-. apply (g_first q eq_refl).
      * intros k p q. rewrite !nth_error_map. destruct (nth_error (f_pages f) k) as [p0|] eqn:P0; [|discriminate].
        destruct (nth_error (f_pages f) (S k)) as [q0|] eqn:Q0; [|discriminate]. intros A B; injection A as <-; injection B as <-. apply (g_chain _ _ _ P0 Q0).
      * intros p. rewrite nth_error_map. destruct (nth_error (f_pages f) (length (f_pages f) - 1)) as [q|] eqn:QQ; [|discriminate]. cbn [option_map]. intros Q; injection Q as <-. apply (g_lastp q eq_refl).
      * rename g_tile into T. constructor; cbn [f0 f_setpages f_plen f_hdr f_pages f_disk f_modified].
        -- intros y. rewrite HG by discriminate. intros Hy. destruct (t_cover _ _ T y Hy) as (o & s & l & O & B0). exists o, s, l. rewrite X. auto.
        -- rewrite !HG by discriminate. apply (t_hdr _ _ T).
        -- apply Forall_forall. intros x Hx. apply in_map_iff in Hx. destruct Hx as (q & <- & Hq). pose proof (t_page _ _ T) as TP. rewrite Forall_forall in TP. apply (TP q Hq).
        -- intros k r e p. rewrite entry_at_clean, nth_error_map. destruct (nth_error (f_pages f) k) as [q|] eqn:Q; [|discriminate]. intros E _.
           destruct (t_rec _ _ T _ _ _ _ E Q) as [R1 R2]. split; [exact R1|]. intros H. destruct (R2 H). congruence.
    + intros k p P _ _. cbn [f_pages f_setpages] in P. rewrite nth_error_map in P. destruct (nth_error (f_pages f) k) as [q|] eqn:Q; [|discriminate].
      injection P as <-. destruct (I k q Q ltac:(tauto) (or_intror MD)) as [A B]. split; [exact A|exact B].
  - cbn [f_pages f_setpages]. apply Forall_forall. intros x Hx. apply in_map_iff in Hx. destruct Hx as (q & <- & Hq). apply In_nth_error in Hq. destruct Hq as [k Q].
    destruct (I k q Q ltac:(tauto) (or_intror MD)) as [_ B]. unfold checksum_ok. apply Z.eqb_eq. exact B.
Qed.
