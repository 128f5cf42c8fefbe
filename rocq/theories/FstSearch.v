(** Searching a standard file. *)
From Coq Require Import ZArith List Lia Bool.
From Verif Require Import Bits Handles HandlesFacts WaFile Xdf XdfLib XdfInv XdfDel XdfPut XdfPut2 XdfPut3 XdfPut4 XdfKeysThm XdfOpen XdfSearch XdfAbs XdfLoc XdfHist XdfSys XdfSys2 XdfSpec XdfThm XdfEnum XdfThm2 XdfThm3 Fst FstSpec FstFacts FstMatch.
Import ListNotations.
Open Scope Z_scope.
Open Scope opt_scope.

(** What a search leaves as it is. *)
Definition likes (f g : fte) : Prop :=
  f_pages g = f_pages f /\ f_disk g = f_disk f /\ f_hdr g = f_hdr f /\ f_kp g = f_kp f /\ f_plen g = f_plen f /\ f_ilen g = f_ilen f /\
  f_iun g = f_iun f /\ f_ro g = f_ro f /\ f_std g = f_std f.
Lemma likes_refl f : likes f f.
Proof. unfold likes. auto 10. Qed.
Lemma likes_trans f g h : likes f g -> likes g h -> likes f h.
Proof. unfold likes. intros (A1&A2&A3&A4&A5&A6&A7&A8&A9) (B1&B2&B3&B4&B5&B6&B7&B8&B9). repeat split; congruence. Qed.
(** State [s1] after searches on file [i], [f] at the start. *)
Definition after_search (s : sys) (i : nat) (f : fte) (s1 : sys) : Prop :=
  wf s1 /\ same_recs s s1 /\ s_fs s1 = s_fs s /\ others (s_w s) (s_w s1) i /\ exists g, w_file (s_w s1) i = Some g /\ likes f g.
Lemma after_search_refl s i f : wf s -> w_file (s_w s) i = Some f -> after_search s i f s.
Proof. intros W F. split; [exact W|]. split; [apply same_recs_refl|]. split; [reflexivity|]. split; [apply others_refl|]. exists f. split; [exact F|apply likes_refl]. Qed.

Lemma same_recs_trans s t u : same_recs s t -> same_recs t u -> same_recs s u.
Proof. unfold same_recs. intros A B p k r. rewrite B. apply A. Qed.
Lemma others_trans a b c i : others a b i -> others b c i -> others a c i.
Proof. intros [A1 A2] [B1 B2]. split; [congruence|]. intros j J. rewrite B2 by exact J. apply A2. exact J. Qed.

Lemma loc_after s i f s1 junk filt iun handle primk nprim msk c s2 : f_iun f = iun -> w_file (s_w s) i = Some f -> wf s -> after_search s i f s1 ->
  step (OpLoc junk filt iun handle primk nprim msk) s1 = Some (c, s2) -> after_search s i f s2.
Proof.
  intros IU F W (W1 & SR & FS & O & g & G & LG) ST. destruct (step_loc _ _ _ _ _ _ _ _ _ _ W1 ST) as [W2 SR2].
  assert (GX : file_index (s_w s1) iun = Some i). { rewrite <- IU. destruct LG as (_&_&_&_&_&_&<-&_&_). apply (file_index_of _ _ _ W1 G). }
  cbn [step] in ST. destruct (xdfloc2 _ _ _ _ _ _ _ _ _) as [[c0 w']|] eqn:X; [|discriminate]. cbn [bind] in ST. injection ST as <- <-.
  destruct (xdfloc2_moved _ _ _ _ _ _ _ _ _ _ _ _ _ GX G (fo_inv _ (wf_fok _ W1 i g G)) X) as (O2 & g' & G' & _ & (t & m & v & cc & EQ)).
  split; [exact W2|]. split; [eapply same_recs_trans; eassumption|]. split; [exact FS|]. split; [eapply others_trans; eassumption|].
  exists g'. split; [exact G'|]. eapply likes_trans; [exact LG|]. subst g'. unfold likes. auto 10.
Qed.

Lemma likes_ent f g k r : likes f g -> ent g k r = ent f k r.
Proof. intros (P & _). unfold ent. rewrite P. reflexivity. Qed.

(** The dimensions given with a handle. *)
Lemma dims_entry s p i f k r e : wf s -> s_fs s p = Opened i -> w_file (s_w s) i = Some f -> f_kp f = std_kp -> ent f k r = Some e ->
  dims (s_w s) (rec_handle i k r) = Some (let ks := keys_of (skipn 2 e) in (k_ni ks, k_nj ks, k_nk ks)).
Proof. intros W P F KP E. unfold dims. rewrite (xdfprm_entry _ _ _ _ _ _ _ W P F KP E). reflexivity. Qed.

(** Calls of c_fstinfx, continued by handle or by c_fstsui. *)
Definition fst_call (next : bool) junk filt iun q (s : sys) (h : Z) : option (Z * option (Z * Z * Z) * sys) :=
  if h =? 0 then fstinf junk filt iun q s else if next then fstsui junk filt iun s else fstinfx junk filt h iun q s.
Definition fst_call_w (next : bool) junk filt iun q (w : world) (h : Z) : option (Z * world) :=
  if next && negb (h =? 0) then xdfloc2 (S MAX_DIR_PAGES) junk filt w iun (-1) [] 0 None
  else search junk filt iun (key_words (query_keys q)) 16 (key_words (query_mask q)) w h.

Definition is_handle (s : sys) (i : nat) (f : fte) (h : Z) : Prop := exists k r e, h = rec_handle i k r /\ ent f k r = Some e.

Lemma call_step next junk filt q s p i f s1 h h' w' : wf s -> s_fs s p = Opened i -> w_file (s_w s) i = Some f -> f_kp f = std_kp ->
  after_search s i f s1 -> (h = 0 \/ 0 < h /\ is_handle s i f h) -> (0 < h' -> is_handle s i f h') ->
  fst_call_w next junk filt (f_iun f) q (s_w s1) h = Some (h', w') ->
  exists s2, s_w s2 = w' /\ after_search s i f s2 /\
    (0 < h' -> exists k r, h' = rec_handle i k r /\ ent f k r = Some (entry_words f k r) /\ fst_call next junk filt (f_iun f) q s1 h = Some (h', Some (record_dims f k r), s2)) /\
    (h' < 0 -> fst_call next junk filt (f_iun f) q s1 h = Some (h', None, s2)).
Proof.
  intros W P F KP AS HH HD C. pose proof AS as (W1 & SR & FS & O & g & G & LG).
  assert (IU : f_iun g = f_iun f) by apply LG. assert (GX : file_index (s_w s1) (f_iun f) = Some i) by (rewrite <- IU; apply (file_index_of _ _ _ W1 G)).
  pose proof (fo_inv _ (wf_fok _ W i f F)) as FI.
  set (s2 := mksys w' (s_fs s1)). exists s2. split; [reflexivity|].
  assert (STEP : exists o, step o s1 = Some (h', s2) /\ (exists ha pk n m, o = OpLoc junk filt (f_iun f) ha pk n m) /\
                 fst_call next junk filt (f_iun f) q s1 h = (' (h, s2) <- step o s1 ;; if h <? 0 then Some (h, None, s2) else d <- dims (s_w s2) h ;; Some (h, Some d, s2))).
  { unfold fst_call_w, search in C. unfold fst_call. destruct (Z.eqb_spec h 0) as [->|N].
    - rewrite andb_false_r in C. exists (fst_loc junk filt (f_iun f) (-2) q). split; [unfold fst_loc; cbn [Z.eqb Pos.eqb]; cbn [step]; rewrite C; reflexivity|]. split; [unfold fst_loc; eauto|].
      unfold fstinf, fstinfx. rewrite GX. cbn [Z.ltb Z.compare andb]. reflexivity.
    - cbn [negb] in C. rewrite andb_true_r in C. destruct next.
      + exists (fst_next junk filt (f_iun f)). split; [unfold fst_next; cbn [step]; rewrite C; reflexivity|]. split; [unfold fst_next; eauto|]. reflexivity.
      + destruct HH as [HH|[HP (k & r & e & -> & E)]]; [contradiction|]. exists (fst_loc junk filt (f_iun f) (rec_handle i k r) q).
        unfold fst_loc. rewrite (proj2 (Z.eqb_neq (rec_handle i k r) (-2))) by lia. split; [cbn [step]; rewrite C; reflexivity|]. split; [eauto|].
        unfold fstinfx. rewrite GX. assert (hidx (s_w s1) (rec_handle i k r) = i) as ->.
        { apply (rec_handle_ent s1 p i g k r e W1); [rewrite FS; exact P|exact G|rewrite (likes_ent _ _ _ _ LG); exact E]. }
        rewrite Nat.eqb_refl, andb_false_r. unfold fst_loc. rewrite (proj2 (Z.eqb_neq (rec_handle i k r) (-2))) by lia. reflexivity. }
  destruct STEP as (o & ST & (ha & pk & n & m & OE) & EQ). rewrite ST in EQ. cbn [bind] in EQ. subst o.
  assert (AS2 : after_search s i f s2) by (eapply loc_after; try eassumption; reflexivity).
  split; [exact AS2|]. split.
  - intros HP. destruct (HD HP) as (k & r & e & HE & E). exists k, r. split; [exact HE|].
    assert (EW : e = entry_words f k r). { destruct (ent_inv _ _ _ _ E) as (pg & K & R & EP). unfold entry_words. rewrite K. symmetry. apply nth_error_nth. exact EP. }
    split; [congruence|]. rewrite EQ. rewrite (proj2 (Z.ltb_ge h' 0)) by lia. destruct AS2 as (W2 & _ & FS2 & _ & g2 & G2 & LG2).
    rewrite HE. rewrite (dims_entry s2 p i g2 k r e W2); [|rewrite FS2; exact P|exact G2|rewrite <- KP; apply LG2|rewrite (likes_ent _ _ _ _ LG2); exact E].
    cbn [bind]. unfold record_dims. rewrite <- EW. reflexivity.
  - intros HN. rewrite EQ. rewrite (proj2 (Z.ltb_lt h' 0)) by exact HN. reflexivity.
Qed.

Lemma rec_handle_inj s p i f k r e k' r' e' : wf s -> s_fs s p = Opened i -> w_file (s_w s) i = Some f -> ent f k r = Some e -> ent f k' r' = Some e' ->
  rec_handle i k r = rec_handle i k' r' -> k = k' /\ r = r'.
Proof.
  intros W P F E E' H. destruct (rec_handle_ent _ _ _ _ _ _ _ W P F E) as (_ & A & B & _). destruct (rec_handle_ent _ _ _ _ _ _ _ W P F E') as (_ & A' & B' & _). rewrite H in A, B. split; congruence.
Qed.

Lemma lists_of_enum next junk filt q s p i f : wf s -> s_fs s p = Opened i -> w_file (s_w s) i = Some f -> f_kp f = std_kp ->
  forall w h l w', enumerates (fst_call_w next junk filt (f_iun f) q) w h l w' ->
  forall s1 ps, s_w s1 = w -> after_search s i f s1 -> (h = 0 \/ 0 < h /\ is_handle s i f h) ->
  l = map (fun x => rec_handle i (fst x) (snd x)) ps -> (forall k r, In (k, r) ps -> In (k, r) (positions (page_sizes f))) ->
  exists s2, lists (fst_call next junk filt (f_iun f) q) s1 h (map (fun x => (rec_handle i (fst x) (snd x), record_dims f (fst x) (snd x))) ps) s2 /\ after_search s i f s2.
Proof.
  intros W P F KP w h l w' EN. pose proof (fo_inv _ (wf_fok _ W i f F)) as FI.
  induction EN as [w h w' C|w h h' w' l w'' C HP EN IH]; intros s1 ps SW AS HH EL IN.
  - destruct ps; [|discriminate]. cbn [map].
    destruct (call_step next junk filt q s p i f s1 h ERR_NOT_FOUND w' W P F KP AS HH) as (s2 & _ & AS2 & _ & B); [unfold ERR_NOT_FOUND; lia|rewrite SW; exact C|].
    exists s2. split; [|exact AS2]. apply lists_end. apply B. unfold ERR_NOT_FOUND. lia.
  - destruct ps as [|[k r] ps]; [discriminate|]. cbn [map fst snd] in *. assert (h' = rec_handle i k r) as EH by congruence. assert (EL' : l = map (fun x => rec_handle i (fst x) (snd x)) ps) by congruence.
    pose proof (proj1 (positions_ent f k r FI) (IN k r (or_introl eq_refl))) as EK.
    assert (HD : is_handle s i f h') by (exists k, r, (entry_words f k r); auto).
    destruct (call_step next junk filt q s p i f s1 h h' w' W P F KP AS HH (fun _ => HD)) as (s2 & SW2 & AS2 & A & _); [rewrite SW; exact C|].
    destruct (A HP) as (k' & r' & E' & EK' & CS). destruct (rec_handle_inj s p i f k r _ k' r' _ W P F EK EK') as [<- <-]; [congruence|].
    destruct (IH s2 ps SW2 AS2 (or_intror (conj HP HD)) EL') as (s3 & L3 & AS3). { intros a b I. apply IN. right. exact I. }
    exists s3. split; [|exact AS3]. rewrite <- EH. eapply lists_more; [exact CS|exact HP|exact L3].
Qed.

Lemma std_nkeys f : std_file f -> nkeys f = 16%nat.
Proof. intros (_ & L & _). unfold nkeys. rewrite L. reflexivity. Qed.

Lemma matching_found s p i f filt q : wf s -> opened s p i f -> std_file f -> query_ok q -> (q_datev q = -1 \/ dates_coded f) ->
  matching f i filt (key_words (query_keys q)) (key_words (query_mask q)) = map (fun x => rec_handle i (fst x) (snd x)) (found filt q i f).
Proof.
  intros W [P F] SF QO DC. pose proof (fo_inv _ (wf_fok _ W i f F)) as FI. unfold matching, kp_matching, found. f_equal. rewrite (std_nkeys f SF).
  apply filter_ext_in. intros [k r] I. cbn [fst snd]. pose proof (proj1 (positions_ent f k r FI) I) as E. destruct (ent_shape _ _ _ _ FI E) as [LE WE].
  destruct (live_entry (entry_words f k r)) eqn:LV; [|reflexivity]. cbn [andb]. f_equal. unfold record_label.
  rewrite <- query_match; [|exact QO| |].
  - unfold keys_eq. apply forallb_ext_in. intros j _. f_equal. f_equal. f_equal. rewrite nth_skipn_d. reflexivity.
  - intros j. rewrite nth_skipn_d. apply all_words_nth. exact WE.
  - destruct DC as [DC|DC]; [left; exact DC|right]. apply (DC k r I LV).
Qed.

Lemma found_positions filt q i f k r : In (k, r) (found filt q i f) -> In (k, r) (positions (page_sizes f)).
Proof. unfold found. intros I. apply filter_In in I. apply I. Qed.

Lemma search_lists next junk filt q s p i f : wf s -> opened s p i f -> std_file f -> query_ok q -> (q_datev q = -1 \/ dates_coded f) ->
  exists s2, lists (fst_call next junk filt (f_iun f) q) s 0 (map (fun x => (rec_handle i (fst x) (snd x), record_dims f (fst x) (snd x))) (found filt q i f)) s2 /\ after_search s i f s2.
Proof.
  intros W OP SF QO DC. pose proof OP as [P F].
  destruct (search_spec s p i f junk filt (key_words (query_keys q)) 16 (key_words (query_mask q)) W P F (proj1 SF) ltac:(lia)) with (next := next) as (w & E).
  - rewrite (std_nkeys f SF). reflexivity.
  - rewrite (std_nkeys f SF). reflexivity.
  - apply key_words_words.
  - apply (lists_of_enum next junk filt q s p i f W P F (proj1 SF) _ _ _ _ E s (found filt q i f)); auto.
    + apply after_search_refl; assumption.
    + apply (matching_found s p); assumption.
    + intros k r. apply found_positions.
Qed.
