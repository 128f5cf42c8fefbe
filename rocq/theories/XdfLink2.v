(** Linked files, continued: what c_xdflnk and c_xdfunl do, enumeration and
    access through the chain. *)
From Coq Require Import ZArith List Lia Bool.
From Verif Require Import Bits Handles HandlesFacts WaFile Xdf XdfLib XdfInv XdfDel XdfPut XdfPut2 XdfPut3 XdfPut4 XdfOpen XdfClose XdfClose2 XdfReopen XdfCreate XdfSearch XdfAbs XdfCkpt XdfLoc XdfHist XdfSys XdfSys2 XdfSpec XdfThm XdfEnum XdfLink.
Import ListNotations.
Open Scope Z_scope.

Lemma file_index_same w w' u : (forall j, option_map f_iun (w_file w' j) = option_map f_iun (w_file w j)) -> file_index w' u = file_index w u.
Proof.
  intros H. unfold file_index. apply find_ext. intros j _. specialize (H j). destruct (w_file w' j), (w_file w j); cbn [option_map] in H; try discriminate; [|reflexivity].
  assert (f_iun f = f_iun f0) as -> by congruence. reflexivity.
Qed.

Lemma turned_iun f g : turned f g -> f_iun g = f_iun f.
Proof. intros (a & b & c & d & -> & _). reflexivity. Qed.

Lemma file_index_turned w w' u : all_turned w w' -> file_index w' u = file_index w u.
Proof.
  intros [_ H]. apply file_index_same. intros j. specialize (H j). destruct (w_file w j), (w_file w' j); try contradiction; [|reflexivity].
  cbn [option_map]. f_equal. apply turned_iun. exact H.
Qed.

Lemma chained_turned w w' js : all_turned w w' -> chained w js -> chained w' js.
Proof.
  intros [_ AT]. induction js as [|(j, f) js IH]; [intros; exact Logic.I|]. intros [(g & G & LK & TL & NL) C]. split; [|apply IH; exact C].
  specialize (AT j). rewrite G in AT. destruct (w_file w' j) as [h|]; [|contradiction]. exists h. split; [reflexivity|].
  split; [eapply like_turned; eassumption|]. destruct AT as (a & b & c & d & -> & _). split; [exact TL|exact NL].
Qed.

(** * c_xdflnk *)
Lemma lnk_loop_spec : forall rest i f w,
  (forall j g, In (j, g) ((i, f) :: rest) -> w_file w j = Some g /\ file_index w (f_iun g) = Some j /\ f_tail g = None) ->
  NoDup (map fst ((i, f) :: rest)) ->
  exists w', xdflnk_loop w i (map (fun jf => f_iun (snd jf)) rest) = (0, w') /\ chained w' ((i, f) :: rest) /\ w_seq w' = w_seq w /\
             (forall j, ~ In j (map fst ((i, f) :: rest)) -> w_file w' j = w_file w j) /\
             (forall j, option_map f_iun (w_file w' j) = option_map f_iun (w_file w j)) /\
             (exists t l, w_file w' i = Some (f_setlink f t l)).
Proof.
  induction rest as [|(k, f2) rest IH]; intros i f w ALL ND.
  - exists w. split; [reflexivity|]. destruct (ALL i f (or_introl eq_refl)) as (F & _ & T). split.
    + split; [|exact Logic.I]. exists f. split; [exact F|]. split; [apply like_refl|]. split; [exact T|]. intros N. contradiction.
    + split; [reflexivity|]. split; [reflexivity|]. split; [reflexivity|]. exists (f_tail f), (f_link f). rewrite F. destruct f; reflexivity.
  - cbn [map snd xdflnk_loop]. destruct (ALL i f (or_introl eq_refl)) as (F & _ & _). destruct (ALL k f2 (or_intror (or_introl eq_refl))) as (F2 & X2 & _).
    rewrite X2, F. set (fl := f_setlink f (Some k) (Z.of_nat k)). set (w1 := setf w i (Some fl)).
    cbn [map fst] in ND. inversion ND as [|? ? NI ND']; subst.
    assert (SI : forall j, option_map f_iun (w_file w1 j) = option_map f_iun (w_file w j)).
    { intros j. unfold w1. destruct (Nat.eq_dec j i) as [-> |N]; [rewrite setf_same, F; reflexivity|rewrite setf_other by exact N; reflexivity]. }
    destruct (IH k f2 w1) as (w' & L & C & S & O & I & _).
    + intros j g IN. destruct (ALL j g (or_intror IN)) as (A & B & D). split; [|split; [|exact D]].
      * unfold w1. rewrite setf_other; [exact A|]. intros ->. apply NI. apply (in_map fst) in IN. exact IN.
      * rewrite <- B. apply file_index_same. exact SI.
    + exact ND'.
    + exists w'. split; [exact L|]. assert (WI : w_file w' i = Some fl). { rewrite O by exact NI. unfold w1. apply setf_same. }
      split.
      { split; [|exact C]. exists fl. split; [exact WI|]. split; [apply like_link, like_refl|]. split; [reflexivity|]. intros _. cbn [fl f_link f_setlink]. lia. }
      split; [exact S|]. split.
      { intros j N. cbn [map fst] in N. rewrite O. 2: { intros IN. apply N. right. exact IN. } unfold w1. apply setf_other. intros ->. apply N. left. reflexivity. }
      split; [intros j; rewrite I; apply SI|]. exists (Some k), (Z.of_nat k). exact WI.
Qed.

(** * c_xdfunl *)
Lemma unl_spec : forall js w, (forall j f, In (j, f) js -> exists g, w_file w j = Some g /\ like f g /\ file_index w (f_iun f) = Some j) -> NoDup (map fst js) ->
  exists w', xdfunl w (map (fun jf => f_iun (snd jf)) js) = (0, w') /\ w_seq w' = w_seq w /\ (forall j, ~ In j (map fst js) -> w_file w' j = w_file w j) /\
             (forall j, In j (map fst js) -> exists g, w_file w j = Some g /\ w_file w' j = Some (f_setlink g None (-1))).
Proof.
  induction js as [|(i, f) js IH]; intros w ALL ND.
  - exists w. split; [reflexivity|]. split; [reflexivity|]. split; [reflexivity|]. intros j [].
  - cbn [map snd xdfunl]. destruct (ALL i f (or_introl eq_refl)) as (g & G & LK & X). rewrite X, G. set (w1 := setf w i (Some (f_setlink g None (-1)))).
    cbn [map fst] in ND. inversion ND as [|? ? NI ND']; subst.
    assert (SI : forall j, option_map f_iun (w_file w1 j) = option_map f_iun (w_file w j)).
    { intros j. unfold w1. destruct (Nat.eq_dec j i) as [-> |N]; [rewrite setf_same, G; reflexivity|rewrite setf_other by exact N; reflexivity]. }
    destruct (IH w1) as (w' & L & S & O & I).
    + intros j h IN. destruct (ALL j h (or_intror IN)) as (g2 & A & B & D). exists g2. split; [|split; [exact B|]].
      * unfold w1. rewrite setf_other; [exact A|]. intros ->. apply NI. apply (in_map fst) in IN. exact IN.
      * rewrite <- D. apply file_index_same. exact SI.
    + exact ND'.
    + exists w'. split; [exact L|]. split; [exact S|]. split.
      * intros j N. cbn [map fst] in N. rewrite O. 2: { intros IN. apply N. right. exact IN. } unfold w1. apply setf_other. intros ->. apply N. left. reflexivity.
      * intros j [<- |IN].
        { exists g. split; [exact G|]. cbn [fst]. rewrite O by exact NI. apply setf_same. }
        destruct (I j IN) as (h & A & B). exists h. split; [|exact B]. unfold w1 in A. rewrite setf_other in A; [exact A|]. intros ->. contradiction.
Qed.

(** * Access *)
Lemma pgs_app a b : pgs (a ++ b) = pgs a ++ pgs b.
Proof. induction a as [|x a IH]; [reflexivity|]. cbn [app]. rewrite !pgs_cons, IH. apply app_assoc. Qed.

Lemma locate_chain w i f rest g : chained w ((i, f) :: rest) -> Forall (fun jf => f_pages (snd jf) <> []) ((i, f) :: rest) -> w_file w i = Some g ->
  forall K pp p, nth_error (pgs ((i, f) :: rest)) K = Some (pp, p) -> locate w i g K = Some (Go pp).
Proof.
  intros C NE G K pp p H. pose proof C as [(g' & G' & LK & _ & NL) _]. assert (g' = g) as -> by congruence.
  unfold locate. rewrite (like_pages _ _ LK). pose proof (own_length (i, f)) as OL. cbn [snd] in OL.
  destruct (Nat.ltb_spec K (length (f_pages f))) as [L|L].
  - rewrite pgs_cons, nth_error_app1 in H by lia. apply own_inv in H. destruct H as [-> _]. reflexivity.
  - assert (R : rest <> []). { intros ->. rewrite pgs_cons, nth_error_app2 in H by lia. destruct (K - length (own (i, f)))%nat; discriminate. }
    rewrite (proj2 (Z.eqb_neq _ _)) by (apply NL; exact R).
    inversion NE as [|? ? NE1 _]; subst. cbn [snd] in NE1. assert (LP : (1 <= length (f_pages f))%nat) by (destruct (f_pages f); [contradiction|cbn [length]; lia]).
    destruct (nth_error (f_pages f) (length (f_pages f) - 1)) as [q|] eqn:Q; [|apply nth_error_None in Q; lia].
    assert (N1 : nth_error (pgs ((i, f) :: rest)) (length (f_pages f) - 1) = Some ((i, (length (f_pages f) - 1)%nat), q)).
    { rewrite pgs_cons, nth_error_app1 by lia. apply own_nth. exact Q. }
    rewrite (walk_chain _ _ C NE _ _ _ _ N1).
    + replace (length (f_pages f) - 1 + S (K - length (f_pages f)))%nat with K by lia. rewrite H. reflexivity.
    + replace (length (f_pages f) - 1 + S (K - length (f_pages f)))%nat with K by lia. apply nth_error_Some. congruence.
Qed.

Lemma hnd_dec w i k r : w_seq w = false -> (i < MAX_XDF_FILES)%nat -> (k < 4096)%nat -> (r < 512)%nat ->
  hidx w (rec_handle i k r) = i /\ hpage (rec_handle i k r) = k /\ hrec (rec_handle i k r) = r /\ 0 <= rec_handle i k r < 2 ^ 31.
Proof.
  intros SQ I K R. unfold MAX_XDF_FILES in I. unfold hidx, hpage, hrec, rec_handle. rewrite SQ.
  rewrite rnd_index_any, rnd_page, rnd_record by lia. rewrite !Nat2Z.id. repeat split; try apply rnd_range; lia.
Qed.

Section Access.
Variables (w0 w : world) (i : nat) (f0 : fte) (rest a b : list (nat * fte)) (j : nat) (f : fte) (k r : nat).
Hypothesis SPLIT : (i, f0) :: rest = a ++ (j, f) :: b.
Hypothesis CH : chained w ((i, f0) :: rest).
Hypothesis NE : Forall (fun jf => f_pages (snd jf) <> []) ((i, f0) :: rest).
Hypothesis SQ0 : w_seq w0 = false.
Hypothesis SQ : w_seq w = false.
Hypothesis IR : (i < MAX_XDF_FILES)%nat.
Hypothesis JR : (j < MAX_XDF_FILES)%nat.
Hypothesis F0 : w_file w0 j = Some f.
Hypothesis KL : (k < length (f_pages f))%nat.
Hypothesis RL : (r < 512)%nat.
Let K := (length (pgs a) + k)%nat.
Hypothesis K12 : (K < 4096)%nat.

Lemma page_there : exists p, nth_error (f_pages f) k = Some p /\ nth_error (pgs ((i, f0) :: rest)) K = Some ((j, k), p).
Proof.
  destruct (nth_error (f_pages f) k) as [p|] eqn:P; [|apply nth_error_None in P; lia]. exists p. split; [reflexivity|].
  rewrite SPLIT, pgs_app, pgs_cons. unfold K. rewrite nth_error_app2 by lia. replace (length (pgs a) + k - length (pgs a))%nat with k by lia.
  pose proof (own_length (j, f)) as OL. cbn [snd] in OL. rewrite nth_error_app1 by lia. apply own_nth. exact P.
Qed.

Lemma file_there : exists g, w_file w j = Some g /\ like f g.
Proof.
  assert (IN : In (j, f) ((i, f0) :: rest)) by (rewrite SPLIT; apply in_or_app; right; left; reflexivity).
  revert CH IN. generalize ((i, f0) :: rest). clear. induction l as [|(x, h) l IH]; [intros _ []|]. intros [(g & G & LK & _) C] [E|IN].
  - exists g. assert (x = j /\ h = f) as [-> ->] by (split; congruence). auto.
  - apply IH; assumption.
Qed.

Lemma first_there : exists g, w_file w i = Some g /\ like f0 g.
Proof. destruct CH as [(g & G & LK & _) _]. exists g. auto. Qed.

Lemma get_chain buf : xdfget w (rec_handle i K r) buf = xdfget w0 (rec_handle j k r) buf.
Proof.
  destruct page_there as (p & P & N). destruct file_there as (g & G & LK). destruct first_there as (gi & GI & LKI).
  assert (k4 : (k < 4096)%nat) by (unfold K in K12; lia).
  destruct (hnd_dec w i K r SQ IR K12 RL) as (A1 & A2 & A3 & _). destruct (hnd_dec w0 j k r SQ0 JR k4 RL) as (B1 & B2 & B3 & _).
  unfold xdfget. cbv zeta. rewrite A1, A2, A3, B1, B2, B3, GI, F0. rewrite (locate_chain _ _ _ _ _ CH NE GI _ _ _ N).
  unfold locate. rewrite (proj2 (Nat.ltb_lt _ _) KL). cbn [fst]. rewrite G, F0. cbn [bind].
  unfold entry_of, get_page. cbn [fst snd]. rewrite G, F0. cbn [bind]. rewrite (like_pages _ _ LK), P. cbn [bind].
  destruct LK as (t & l & x1 & x2 & x3 & x4 & -> & _). cbn [f_setcur f_settgt f_setlink f_plen f_ilen f_disk f_iun]. reflexivity.
Qed.

Lemma prm_chain : f_plen f = f_plen f0 -> f_kp f = std_kp -> f_kp f0 = std_kp -> std_nw (f_hdr f) = std_nw (f_hdr f0) -> xdfprm w (rec_handle i K r) = xdfprm w0 (rec_handle j k r).
Proof.
  intros PL KP KP0 NW. destruct page_there as (p & P & N). destruct file_there as (g & G & LK). destruct first_there as (gi & GI & LKI).
  assert (k4 : (k < 4096)%nat) by (unfold K in K12; lia).
  destruct (hnd_dec w i K r SQ IR K12 RL) as (A1 & A2 & A3 & _). destruct (hnd_dec w0 j k r SQ0 JR k4 RL) as (B1 & B2 & B3 & _).
  unfold xdfprm. cbv zeta. rewrite A1, A2, A3, B1, B2, B3, GI, F0. rewrite (locate_chain _ _ _ _ _ CH NE GI _ _ _ N).
  unfold locate. rewrite (proj2 (Nat.ltb_lt _ _) KL).
  unfold entry_of, get_page. cbn [fst snd]. rewrite G, F0. cbn [bind]. rewrite (like_pages _ _ LK), P. cbn [bind].
  destruct LK as (t & l & x1 & x2 & x3 & x4 & -> & _). destruct LKI as (t' & l' & y1 & y2 & y3 & y4 & -> & _).
  cbn [f_setcur f_settgt f_setlink f_plen f_ilen f_disk f_iun f_kp f_hdr]. rewrite PL, !Nat.eqb_refl, KP, KP0. cbn [negb kp_read std_kp].
  unfold std_read. rewrite NW. reflexivity.
Qed.
End Access.

(** * Enumeration *)
Lemma xdfloc2_next n junk filt w iun i g : file_index w iun = Some i -> w_file w i = Some g -> f_vt g = true ->
  forall pp k r, f_cur g = mkcur (Some pp) (Some (pp, r)) (Z.of_nat k) (Z.of_nat r) ->
  xdfloc2 n junk filt w iun (-1) [] 0 None = next_match n filt (setf w i (Some g)) i.
Proof.
  intros FX F VT pp k r CU. unfold xdfloc2. rewrite FX, F. cbn [bind]. cbv zeta. change (0 <? -1) with false. change (-1 <? -1) with false. change (-1 =? -1) with true. cbn [andb].
  rewrite CU. cbn [Xdf.c_ent c_no c_pg c_rec]. rewrite (proj2 (Z.eqb_neq (Z.of_nat k) (-1))) by lia. change (0 =? 0) with true. change (-1 =? 0) with false. cbv iota. cbn [bind].
  rewrite VT. cbn [negb]. do 3 f_equal. rewrite <- CU. destruct g; reflexivity.
Qed.

Lemma xdfloc2_first n junk filt w iun i g primk nprim msk g1 : file_index w iun = Some i -> w_file w i = Some g -> f_pages g <> [] ->
  aimed junk g primk nprim msk g1 -> f_vt g1 = true ->
  xdfloc2 n junk filt w iun 0 primk nprim msk = next_match n filt (setf w i (Some (f_setcur g1 (mkcur (Some (i, 0%nat)) (Some ((i, 0%nat), 0%nat)) 0 0)))) i.
Proof.
  intros FX F NP AM VT. unfold xdfloc2. rewrite FX, F. cbn [bind]. cbv zeta. fold (mask_of junk primk nprim msk).
  assert (TG : (if nprim =? 0 then Some g else bind (kp_write (f_kp g) (f_hdr g) (f_target g) primk (f_cmask g) (mask_of junk primk nprim msk))
     (fun tm => Some (f_settgt g (fst tm) (map (fun k => if (k <? 2 * f_plen g)%nat then Z.land (nth k (snd tm) 0) (nth k (f_smask g) 0) else nth k (snd tm) 0) (seq 0 (length (snd tm)))) true))) = Some g1).
  { unfold aimed in AM. destruct (nprim =? 0); [congruence|]. destruct AM as (t & m & K & ->). rewrite K. reflexivity. }
  cbn [Z.ltb Z.compare andb Z.eqb negb]. rewrite TG. cbn [bind].
  rewrite (proj2 (Z.ltb_lt _ _)). 2: { destruct (f_pages g); [contradiction|cbn [length]; lia]. }
  cbn [bind]. rewrite VT. reflexivity.
Qed.

Lemma setf_id w i g : w_file w i = Some g -> forall j, w_file (setf w i (Some g)) j = w_file w j.
Proof. intros F j. destruct (Nat.eq_dec j i) as [-> |N]; [rewrite setf_same; symmetry; exact F|apply setf_other; exact N]. Qed.

Lemma setf_turned w i g h : w_file w i = Some g -> turned g h -> all_turned w (setf w i (Some h)).
Proof.
  intros F T. split; [reflexivity|]. intros j. destruct (Nat.eq_dec j i) as [-> |N].
  - rewrite setf_same, F. exact T.
  - rewrite setf_other by exact N. destruct (w_file w j); [apply turned_refl|exact Logic.I].
Qed.
Lemma all_turned_trans a b c : all_turned a b -> all_turned b c -> all_turned a c.
Proof.
  intros [S1 A] [S2 B]. split; [congruence|]. intros j. specialize (A j). specialize (B j). destruct (w_file a j), (w_file b j), (w_file c j); try contradiction; try exact Logic.I.
  eapply turned_trans; eassumption.
Qed.

(** The matching records of the chain. *)
Definition joined (f : fte) (js : list (nat * fte)) : fte := f_setpages f (concat (map (fun jf => f_pages (snd jf)) js)).

Lemma joined_sizes f js : page_sizes (joined f js) = lsizes js.
Proof. unfold page_sizes, joined, lsizes. cbn [f_pages f_setpages]. rewrite <- pgs_pages, map_map. reflexivity. Qed.

Lemma joined_entry f js k pp p r : nth_error (pgs js) k = Some (pp, p) -> entry_words (joined f js) k r = nth r (p_ents p) [].
Proof. intros H. unfold entry_words, joined. cbn [f_pages f_setpages]. rewrite <- pgs_pages, nth_error_map, H. reflexivity. Qed.

(** Any page of the chain belongs to a well-formed file. *)
Lemma page_in js k pp p : nth_error (pgs js) k = Some (pp, p) -> exists f, In (fst pp, f) js /\ nth_error (f_pages f) (snd pp) = Some p.
Proof.
  revert k. induction js as [|(j, f) js IH]; intros k N; [destruct k; discriminate|]. rewrite pgs_cons in N.
  destruct (Nat.lt_ge_cases k (length (own (j, f)))) as [L|L].
  - rewrite nth_error_app1 in N by exact L. apply own_inv in N. destruct N as [-> P]. exists f. split; [left; reflexivity|exact P].
  - rewrite nth_error_app2 in N by exact L. destruct (IH _ N) as (g & A & B). exists g. split; [right; exact A|exact B].
Qed.

Section Enum.
Variables (n : nat) (junk : nat -> Z) (filt : Z -> bool) (i : nat) (f0 : fte) (rest : list (nat * fte)) (primk : list Z) (nprim : Z) (msk : list Z) (MT : list Z -> bool).
Let js := (i, f0) :: rest.
Let iun := f_iun f0.
Hypothesis FA : Forall (fun jf => finv (snd jf) /\ f_plen (snd jf) = f_plen f0) js.
Hypothesis IR : (1 <= i < MAX_XDF_FILES)%nat.
Hypothesis FUEL : (length (pgs js) <= n)%nat.
Hypothesis FITS : (length (pgs js) <= 4096)%nat.

Let H (s : nat * nat) : bool := live_entry (entry_words (joined f0 js) (fst s) (snd s)) && MT (entry_words (joined f0 js) (fst s) (snd s)) && filt (rec_handle i (fst s) (snd s)).
Let call (w : world) (h : Z) := if h =? 0 then xdfloc2 n junk filt w iun 0 primk nprim (Some msk) else xdfloc2 n junk filt w iun (-1) [] 0 None.

Lemma NEp : Forall (fun jf => f_pages (snd jf) <> []) js.
Proof.
  eapply Forall_impl; [|exact FA]. cbv beta. intros (j, g) ([G I] & _) E. pose proof (g_np _ _ G) as NP. cbn [snd] in *. rewrite E in NP. cbn in NP. lia.
Qed.

Lemma lhit_spec g k0 r0 s : f_plen g = f_plen f0 -> aims_to f0 MT g -> In s (after (lsizes js) k0 r0) -> lhit js filt i g s = H s.
Proof.
  intros PL AG IN. destruct s as [k r]. apply after_in in IN. destruct IN as (m & N & R). unfold lsizes in N. rewrite nth_error_map in N.
  destruct (nth_error (pgs js) k) as [(pp, p)|] eqn:P; [|discriminate]. cbn [option_map snd] in N. destruct (page_in _ _ _ _ P) as (f & IN & PP).
  pose proof FA as FA'. rewrite Forall_forall in FA'. destruct (FA' _ IN) as [FI PLF]. cbn [snd] in *. pose proof FI as [G I].
  assert (NN : nth_error (nents (f_pages f)) (snd pp) = Some m) by (unfold nents; rewrite nth_error_map, PP; exact N).
  pose proof (ent_words f (snd pp) r m FI NN R) as E. destruct (ent_shape _ _ _ _ FI E) as [LE WE].
  set (e := entry_words f (snd pp) r) in *.
  assert (EJ : entry_words (joined f0 js) k r = e). { rewrite (joined_entry _ _ _ _ _ _ P). unfold e, entry_words. rewrite PP. reflexivity. }
  assert (EN : nth_error (p_ents p) r = Some e).
  { unfold ent, entry_at in E. rewrite NN, PP in E. rewrite (proj2 (Nat.ltb_lt _ _) R) in E. exact E. }
  unfold lhit, H. cbn [fst snd]. rewrite P, EN, EJ. unfold entry_matches. f_equal. f_equal.
  - destruct (g_ents _ _ G _ _ _ E) as (T & _). unfold live_entry. destruct T as [T|[T|T]].
    + rewrite (proj2 (Z.ltb_lt _ _)), (proj2 (Z.leb_le 1 _)), (proj2 (Z.leb_le _ 125)) by lia. reflexivity.
    + rewrite T. reflexivity.
    + rewrite T. reflexivity.
  - destruct AG as [_ ME]. rewrite PL. apply ME; [congruence|exact WE].
Qed.

Lemma hnd_pos k r m : nth_error (lsizes js) k = Some m -> (r < m)%nat -> 0 < hnd i (k, r).
Proof.
  intros N R. unfold lsizes in N. rewrite nth_error_map in N. destruct (nth_error (pgs js) k) as [(pp, p)|] eqn:P; [|discriminate]. cbn [option_map snd] in N.
  destruct (page_in _ _ _ _ P) as (f & IN & PP). pose proof FA as FA'. rewrite Forall_forall in FA'. destruct (FA' _ IN) as [FI _]. cbn [snd] in *. pose proof FI as [G I].
  pose proof (nent_bound _ _ _ G PP) as NB. assert (k < length (pgs js))%nat by (apply nth_error_Some; congruence).
  assert (Z.to_nat (p_nent p) = m) by congruence. unfold EPP in *. unfold hnd. cbn [fst snd]. unfold MAX_XDF_FILES in IR. rewrite make_rnd_sum by lia. lia.
Qed.

(** One call of next_match. *)
Lemma step_chain w g k r pp p : chained w js -> w_file w i = Some g -> f_plen g = f_plen f0 -> aims_to f0 MT g -> nth_error (pgs js) k = Some (pp, p) ->
  f_cur g = mkcur (Some pp) (Some (pp, r)) (Z.of_nat k) (Z.of_nat r) ->
  exists c, next_match n filt w i = Some (fst c, setf w i (Some (f_setcur g (snd c)))) /\ lfound js i (find H (after (lsizes js) k r)) c.
Proof.
  intros C F PL AG P CU. assert (FA2 : Forall (fun jf => finv (snd jf) /\ f_plen (snd jf) = f_plen g) js).
  { eapply Forall_impl; [|exact FA]. cbv beta. intros x [A B]. split; [exact A|congruence]. }
  destruct (next_match_chain filt w i g js n k r pp p C FA2 F CU P FUEL) as (c & X & L). exists c. split; [exact X|].
  rewrite (find_ext (lhit js filt i g) H) in L by (intros s IN; eapply lhit_spec; eassumption). exact L.
Qed.

Lemma enum_more_chain : forall m w g k r pp p h, (length (after (lsizes js) k r) <= m)%nat -> chained w js -> file_index w iun = Some i -> w_file w i = Some g -> f_plen g = f_plen f0 -> aims_to f0 MT g ->
  nth_error (pgs js) k = Some (pp, p) -> f_cur g = mkcur (Some pp) (Some (pp, r)) (Z.of_nat k) (Z.of_nat r) -> h <> 0 ->
  exists w', enumerates call w h (map (hnd i) (filter H (after (lsizes js) k r))) w'.
Proof.
  induction m; intros w g k r pp p h LM C FX F PL AG P CU HZ.
  all: assert (KL : (k < length (lsizes js))%nat) by (unfold lsizes; rewrite map_length; apply nth_error_Some; congruence).
  all: pose proof (xdfloc2_next n junk filt w iun i g FX F (proj1 AG) pp k r CU) as XN.
  all: assert (AT : all_turned w (setf w i (Some g))) by (eapply setf_turned; [exact F|apply turned_refl]).
  all: destruct (step_chain (setf w i (Some g)) g k r pp p (chained_turned _ _ _ AT C) (setf_same _ _ _) PL AG P CU) as (c & NM & LF).
  all: assert (CL : call w h = Some (fst c, setf (setf w i (Some g)) i (Some (f_setcur g (snd c))))) by (unfold call; rewrite (proj2 (Z.eqb_neq _ _) HZ), XN; exact NM).
  - assert (E : after (lsizes js) k r = []) by (destruct (after (lsizes js) k r); [reflexivity|cbn [length] in LM; lia]).
    rewrite E in *. cbn [find lfound filter map] in *. rewrite LF in CL. eexists. apply enum_end. exact CL.
  - pose proof (after_find H (lsizes js) (S m) k r LM KL) as AF.
    destruct (find H (after (lsizes js) k r)) as [[k' r']|] eqn:FD.
    + destruct AF as (A & B & HT & m' & N & R). rewrite A. cbn [map]. destruct LF as (qq & q & Q & ->). cbn [fst snd] in *.
      set (g2 := f_setcur g _) in *. set (w2 := setf (setf w i (Some g)) i (Some g2)) in *.
      assert (AT2 : all_turned w w2).
      { eapply all_turned_trans; [exact AT|]. eapply setf_turned; [apply setf_same|]. apply turned_cur, turned_refl. }
      destruct (IHm w2 g2 k' (S r') qq q (hnd i (k', r'))) as (w3 & E3).
      * lia.
      * eapply chained_turned; eassumption.
      * rewrite (file_index_turned _ _ _ AT2). exact FX.
      * apply setf_same.
      * exact PL.
      * exact AG.
      * exact Q.
      * reflexivity.
      * pose proof (hnd_pos _ _ _ N R). lia.
      * exists w3. eapply enum_more; [exact CL|eapply hnd_pos; eassumption|exact E3].
    + rewrite AF. cbn [map lfound] in *. rewrite LF in CL. eexists. apply enum_end. exact CL.
Qed.

Lemma enum_chain w g g1 : chained w js -> file_index w iun = Some i -> w_file w i = Some g -> f_plen g = f_plen f0 -> aimed junk g primk nprim (Some msk) g1 -> aims_to f0 MT g1 ->
  exists w', enumerates call w 0 (map (hnd i) (filter H (after (lsizes js) 0 0))) w'.
Proof.
  intros C FX F PL AM AG. pose proof NEp as NE. inversion NE as [|? ? NE1 _]; subst. cbn [snd] in NE1.
  assert (GP : f_pages g = f_pages f0). { destruct C as [(g' & G' & LK & _) _]. assert (g' = g) as -> by congruence. apply like_pages. exact LK. }
  assert (T1 : turned g g1).
  { unfold aimed in AM. destruct (nprim =? 0); [subst; apply turned_refl|]. destruct AM as (t & m & KW & ->). exists t, (new_mask g m), true, (f_cur g). split; [destruct g; reflexivity|].
    intros [KP _]. destruct (KP _ _ _ _ _ _ _ KW) as (A & B & _). split; [exact A|]. unfold new_mask. rewrite map_length, seq_length. exact B. }
  assert (PL1 : f_plen g1 = f_plen f0) by (destruct T1 as (t1 & t2 & t3 & t4 & -> & _); exact PL).
  set (cu := mkcur (Some (i, 0%nat)) (Some ((i, 0%nat), 0%nat)) 0 0). set (g2 := f_setcur g1 cu). set (w2 := setf w i (Some g2)).
  assert (AT : all_turned w w2). { eapply setf_turned; [exact F|]. apply turned_cur. exact T1. }
  destruct (nth_error (f_pages f0) 0) as [p|] eqn:P0. 2: { apply nth_error_None in P0. destruct (f_pages f0); [contradiction|cbn [length] in P0; lia]. }
  assert (P : nth_error (pgs js) 0 = Some ((i, 0%nat), p)).
  { unfold js. rewrite pgs_cons, nth_error_app1. { apply own_nth. exact P0. } rewrite own_length. cbn [snd]. apply nth_error_Some. congruence. }
  destruct (step_chain w2 g2 0 0 (i, 0%nat) p (chained_turned _ _ _ AT C) (setf_same _ _ _) PL1 AG P eq_refl) as (c & NM & LF).
  assert (CL : call w 0 = Some (fst c, setf w2 i (Some (f_setcur g2 (snd c))))).
  { unfold call. change (0 =? 0) with true. cbv iota. rewrite (xdfloc2_first n junk filt w iun i g primk nprim (Some msk) g1 FX F); [exact NM|rewrite GP; exact NE1|exact AM|apply AG]. }
  assert (KL : (0 < length (lsizes js))%nat) by (unfold lsizes; rewrite map_length; apply nth_error_Some; congruence).
  pose proof (after_find H (lsizes js) _ 0 0 (le_n _) KL) as AF.
  destruct (find H (after (lsizes js) 0 0)) as [[k' r']|] eqn:FD.
  - destruct AF as (A & B & HT & m' & N & R). rewrite A. cbn [map]. destruct LF as (qq & q & Q & ->). cbn [fst snd] in *.
    set (g3 := f_setcur g2 _) in *. set (w3 := setf w2 i (Some g3)) in *.
    assert (AT3 : all_turned w w3).
    { eapply all_turned_trans; [exact AT|]. eapply setf_turned; [apply setf_same|]. apply turned_cur, turned_refl. }
    destruct (enum_more_chain _ w3 g3 k' (S r') qq q (hnd i (k', r')) (le_n _)) as (w4 & E4).
    + eapply chained_turned; eassumption.
    + rewrite (file_index_turned _ _ _ AT3). exact FX.
    + apply setf_same.
    + exact PL1.
    + exact AG.
    + exact Q.
    + reflexivity.
    + pose proof (hnd_pos _ _ _ N R). lia.
    + exists w4. eapply enum_more; [exact CL|eapply hnd_pos; eassumption|exact E4].
  - rewrite AF. cbn [map lfound] in *. rewrite LF in CL. eexists. apply enum_end. exact CL.
Qed.
End Enum.
