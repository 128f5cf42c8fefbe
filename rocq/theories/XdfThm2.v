(** Keys, statistics, extents, write protection. *)
From Coq Require Import ZArith List Lia Bool.
From Verif Require Import Bits Handles HandlesFacts WaFile Xdf XdfLib XdfInv XdfDel XdfPut XdfPut2 XdfPut3 XdfPut4 XdfOpen XdfClose XdfClose2 XdfReopen XdfCreate XdfSearch XdfAbs XdfCkpt XdfLoc XdfHist XdfSys XdfSys2 XdfSpec XdfThm XdfEnum XdfSta.
Import ListNotations.
Open Scope Z_scope.

(** * Keys *)
Definition keys_of (f : fte) (e : list Z) : list Z := firstn (2 * (f_plen f - 1)) (skipn 2 e).

Lemma xdfprm_entry s p i f k r e : wf s -> s_fs s p = Opened i -> w_file (s_w s) i = Some f -> f_kp f = std_kp -> ent f k r = Some e ->
  xdfprm (s_w s) (rec_handle i k r) = Some (Go (e_addr e, e_lng e, e_idtyp e, skipn 2 e)).
Proof.
  intros W P F KP E. pose proof (fo_inv _ (wf_fok _ W i f F)) as FI. pose proof FI as [G I]. destruct (rec_handle_ent _ _ _ _ _ _ _ W P F E) as (H1 & H2 & H3 & _).
  destruct (ent_inv _ _ _ _ E) as (pg & K & R & EP). unfold xdfprm. rewrite H1, F, H2, H3. rewrite (locate_own _ _ _ _ _ G).
  rewrite (proj2 (Nat.ltb_lt _ _)) by (apply nth_error_Some; congruence). rewrite (entry_of_own _ _ _ _ _ _ F K), (proj2 (Z.ltb_ge _ _)) by lia. rewrite EP.
  rewrite KP. cbn [kp_read std_kp]. unfold std_read. rewrite (std_nw_plen _ FI). destruct (entry_shape _ _ _ _ _ G E) as [LE _]. pose proof (g_plen _ _ G) as PL.
  unfold nkeys, MAX_PRIMARY_LNG. rewrite !(proj2 (Nat.leb_le _ _)) by lia. cbn [andb bind].
  rewrite (firstn_all2 (n := 2 * (f_plen f - 1)) (skipn 2 e)) by (rewrite skipn_length; lia). reflexivity.
Qed.

(** * Statistics *)
Lemma used_map f : forall ps k, (forall j p, nth_error ps j = Some p -> nth_error (f_pages f) (k + j) = Some p /\ (Z.to_nat (p_nent p) <= length (p_ents p))%nat) ->
  used (nents ps) ps = map (fun s => entry_words f (fst s) (snd s)) (slots_from k (nents ps)).
Proof.
  induction ps as [|p ps IH]; intros k H; [reflexivity|]. cbn [nents map used slots_from]. rewrite map_app. f_equal.
  - destruct (H 0%nat p eq_refl) as [P L]. rewrite Nat.add_0_r in P. rewrite map_map. cbn [fst snd]. unfold entry_words. rewrite P.
    clear -L. set (n := Z.to_nat (p_nent p)) in *. clearbody n. generalize dependent (p_ents p). intros l L.
    apply nth_error_ext. intros j. rewrite nth_firstn, nth_error_map. destruct (Nat.ltb_spec j n) as [J|J].
    + rewrite nth_error_nth' with (d := 0%nat) by (rewrite seq_length; exact J). rewrite seq_nth by exact J. cbn [option_map Nat.add].
      apply nth_error_nth'. lia.
    + rewrite (proj2 (nth_error_None _ _)); [reflexivity|]. rewrite seq_length. exact J.
  - apply (IH (S k)). intros j q Q. destruct (H (S j) q Q) as [A B]. split; [|exact B]. rewrite <- A. f_equal. lia.
Qed.

Lemma used_slots f : finv f -> used (nents (f_pages f)) (f_pages f) = map (fun s => entry_words f (fst s) (snd s)) (positions (page_sizes f)).
Proof.
  intros [G I]. rewrite <- slots_positions. apply (used_map f (f_pages f) 0%nat). intros j p P. split; [exact P|].
  destruct (page_nth_ok _ _ _ _ G P) as (_ & _ & LE & _). pose proof (nent_bound _ _ _ G P). unfold EPP in LE. lia.
Qed.

Lemma count_filter {A} (P : list Z -> bool) (g : A -> list Z) l : count P (map g l) = Z.of_nat (length (filter (fun x => P (g x)) l)).
Proof. unfold count. f_equal. induction l; [reflexivity|]. cbn [map filter]. destruct (P (g a)); cbn [length]; congruence. Qed.

Lemma stats_of f : finv f -> nth 11 (stat_words (f_hdr f)) 0 = n_live f /\ nth 2 (stat_words (f_hdr f)) 0 = n_entries f /\ nth 3 (stat_words (f_hdr f)) 0 = Z.of_nat (length (f_pages f)).
Proof.
  intros FI. pose proof FI as [G I]. cbn [stat_words nth]. split; [|split; [|apply (g_nbd _ _ G)]].
  - rewrite (g_nrec _ _ G), (used_slots _ FI). apply count_filter.
  - rewrite (g_nxtn _ _ G), (used_slots _ FI), map_length. reflexivity.
Qed.

(** * Extents *)
Definition owner_of (x : part) : owner := match x with Header => OHdr | Page k => OPage k | Body k r => ORec k r end.
Lemma owner_inj x y : owner_of x = owner_of y -> x = y.
Proof. destruct x, y; cbn; congruence. Qed.
Lemma occupies_ext f x a n : finv f -> occupies f x a n -> ext (nents (f_pages f)) f (owner_of x) = Some (a, n).
Proof.
  intros FI. pose proof FI as [G I]. destruct x; cbn [occupies owner_of ext].
  - intros [-> ->]. reflexivity.
  - intros (p & P & -> & ->). rewrite P. cbn [option_map]. rewrite (p_words_length _ _ (page_nth_ok _ _ _ _ G P)). rewrite Z2Nat.id; [reflexivity|unfold page_wlen; lia].
  - intros (p & e & P & R & E & -> & ->). fold (ent f k r). rewrite (ent_some f k r p e FI P R E). reflexivity.
Qed.

(** * Write protection *)
Definition protected (f : fte) : Prop := hget (f_hdr f) H_RWFLG = RDMODE \/ f_ro f = true.
Lemma protected_not f : protected f -> ~ writable f.
Proof. intros P [A B]. destruct P; [contradiction|congruence]. Qed.

(** The slot of an open file keeps its content as long as no call writes it. *)
Lemma step_protected s o c s1 p i f : wf s -> ok_op s o -> step o s = Some (c, s1) -> s_fs s p = Opened i -> w_file (s_w s) i = Some f -> protected f ->
  match o with OpClose _ iun => f_iun f = iun -> s_fs s1 p = Shut (f_disk f) | _ => True end /\
  (match o with OpClose _ iun => f_iun f <> iun | _ => True end ->
   s_fs s1 p = Opened i /\ exists f', w_file (s_w s1) i = Some f' /\ f_disk f' = f_disk f /\ f_log f' = f_log f /\ f_hdr f' = f_hdr f /\ f_pages f' = f_pages f /\ protected f').
Proof.
  intros W OK ST P F PR. pose proof (protected_not _ PR) as NW.
  assert (SAME : forall x, s_fs x p = Opened i -> w_file (s_w x) i = Some f ->
    s_fs x p = Opened i /\ exists f', w_file (s_w x) i = Some f' /\ f_disk f' = f_disk f /\ f_log f' = f_log f /\ f_hdr f' = f_hdr f /\ f_pages f' = f_pages f /\ protected f') by eauto 10.
  destruct o as [junk q iun std kp pri aux sign|junk q iun ro std kp mode|junk iun handle buf|h|junk filt iun handle primk nprim msk|junk iun|junk iun]; cbn [step] in ST.
  - split; [exact Logic.I|]. intros _.
    destruct (s_fs s q) as [|d|j] eqn:Q; [| |discriminate]; destruct (open_slot (s_w s) iun) as [[e|j]|] eqn:OS; try discriminate; cbn [bind] in ST.
    1, 3: injection ST as <- <-; apply SAME; assumption.
    all: destruct (xdfopn_create _ _ _ _ _ _ _ _ _) as [[c0 g]|]; [|discriminate]; cbn [bind] in ST; injection ST as <- <-;
         destruct (open_slot_spec _ _ _ OS) as (N & _); apply SAME; cbn [s_fs s_w];
         [unfold setfs; destruct (Nat.eqb_spec p q) as [->|]; [congruence|exact P]|rewrite setf_other; [exact F|intros ->; congruence]].
  - split; [exact Logic.I|]. intros _. destruct (s_fs s q) as [|d|j] eqn:Q; try discriminate. destruct (open_slot (s_w s) iun) as [[e|j]|] eqn:OS; try discriminate; cbn [bind] in ST.
    + injection ST as <- <-; apply SAME; assumption.
    + destruct (xdfopn _ _ _ _ _ _ _) as [[e|[n g]]|]; try discriminate. cbn [bind] in ST. injection ST as <- <-. destruct (open_slot_spec _ _ _ OS) as (N & _).
      apply SAME; cbn [s_fs s_w]; [unfold setfs; destruct (Nat.eqb_spec p q) as [->|]; [congruence|exact P]|rewrite setf_other; [exact F|intros ->; congruence]].
  - split; [exact Logic.I|]. intros _. destruct (xdfput junk (s_w s) iun handle buf) as [[[c0 w'] b']|] eqn:X; [|discriminate]. cbn [bind] in ST. injection ST as <- <-.
    destruct (file_index (s_w s) iun) as [j|] eqn:FX.
    2: { destruct (xdfput_nofile _ _ _ _ _ _ _ _ FX X) as (_ & -> & _). apply SAME; assumption. }
    destruct (file_index_own _ _ _ FX) as (g & FJ & IU & _). destruct (Nat.eq_dec j i) as [->|N].
    + assert (g = f) as -> by congruence. destruct (xdfput_ro _ _ _ _ _ _ _ _ _ _ FX F NW X) as (_ & -> & _). apply SAME; assumption.
    + destruct OK as (BO & RM). destruct (RM j g FX FJ) as [R1 R2].
      pose proof (xdfput_spec junk (s_w s) iun handle buf j g FX FJ (fo_inv _ (wf_fok _ W j g FJ)) BO R1 R2) as PS. rewrite X in PS.
      destruct PS as ([_ O] & _). apply SAME; [exact P|]. cbn [s_w]. rewrite O by congruence. exact F.
  - split; [exact Logic.I|]. intros _. destruct (w_file (s_w s) (hidx (s_w s) h)) as [g|] eqn:FH.
    2: { unfold xdfdel in ST. rewrite FH in ST. cbn [bind] in ST. injection ST as <- <-. apply SAME; assumption. }
    destruct (xdfdel_spec (s_w s) h g FH (fo_inv _ (wf_fok _ W _ g FH)) (OK g FH)) as (w' & X & E). rewrite X in ST. cbn [bind] in ST. injection ST as <- <-.
    destruct (del_code g (hpage h) (hrec h) =? 0) eqn:DC.
    + destruct E as ([_ O] & _). destruct (Nat.eq_dec (hidx (s_w s) h) i) as [HI|N].
      * exfalso. rewrite HI in FH. assert (g = f) as -> by congruence. apply Z.eqb_eq in DC. unfold del_code in DC.
        replace (no_del f) with true in DC; [discriminate|]. unfold no_del. destruct PR as [-> | ->]; [reflexivity|]. rewrite orb_true_r. reflexivity.
      * apply SAME; [exact P|]. cbn [s_w]. rewrite O by congruence. exact F.
    + subst w'. apply SAME; assumption.
  - split; [exact Logic.I|]. intros _. destruct (xdfloc2 _ _ _ _ _ _ _ _ _) as [[c0 w']|] eqn:X; [|discriminate]. cbn [bind] in ST. injection ST as <- <-.
    destruct (file_index (s_w s) iun) as [j|] eqn:FX.
    2: { unfold xdfloc2 in X. rewrite FX in X. injection X as <- <-. apply SAME; assumption. }
    destruct (file_index_own _ _ _ FX) as (g & FJ & IU & _).
    destruct (xdfloc2_moved _ _ _ _ _ _ _ _ _ _ _ _ _ FX FJ (fo_inv _ (wf_fok _ W j g FJ)) X) as ([_ O] & f' & F' & Q & (t & m & v & cc & EQ)).
    destruct (Nat.eq_dec j i) as [->|N].
    + assert (g = f) as -> by congruence. split; [exact P|]. exists f'. cbn [s_w]. subst f'. auto 10.
    + apply SAME; [exact P|]. cbn [s_w]. rewrite O by congruence. exact F.
  - split; [exact Logic.I|]. intros _. destruct (file_index (s_w s) iun) as [j|] eqn:FX; [|injection ST as <- <-; apply SAME; assumption].
    destruct (file_index_own _ _ _ FX) as (g & FJ & IU & _). rewrite FJ in ST. cbn [bind] in ST.
    destruct (xdfcls junk true g) as [g'|] eqn:X; [|discriminate]. cbn [bind] in ST. injection ST as <- <-. destruct (Nat.eq_dec j i) as [->|N].
    + assert (g = f) as -> by congruence. rewrite (xdfcls_readonly _ _ _ NW) in X by (apply (fo_ro _ (wf_fok _ W i f F) NW)). injection X as <-.
      apply SAME; [exact P|]. apply setf_same.
    + apply SAME; [exact P|]. cbn [s_w]. rewrite setf_other by congruence. exact F.
  - pose proof (file_index_of _ _ _ W F) as FX0. destruct (file_index (s_w s) iun) as [j|] eqn:FX.
    2: { injection ST as <- <-. split; [intros E; congruence|]. intros _. apply SAME; assumption. }
    destruct (file_index_own _ _ _ FX) as (g & FJ & IU & _). rewrite FJ in ST. cbn [bind] in ST.
    destruct (xdfcls junk false g) as [g'|] eqn:X; [|discriminate]. cbn [bind] in ST. injection ST as <- <-. cbn [s_fs s_w]. rewrite P. split.
    + intros E. assert (j = i) as -> by congruence. assert (g = f) as -> by congruence. rewrite Nat.eqb_refl.
      rewrite (xdfcls_readonly _ _ _ NW) in X by (apply (fo_ro _ (wf_fok _ W i f F) NW)). injection X as <-. reflexivity.
    + intros NE. assert (NJ : i <> j) by (intros ->; congruence). rewrite (proj2 (Nat.eqb_neq _ _) NJ). split; [reflexivity|]. rewrite setf_other by exact NJ. eauto 10.
Qed.
