(** Facts about c_fsteff, c_fstnbrv and c_fst_edit_dir_plus. *)
From Coq Require Import ZArith List Lia Bool.
From Verif Require Import Bits BitIO SpecPack Handles WaFile Xdf XdfLib XdfInv XdfDel XdfPut XdfPut2 XdfPut3 XdfPut4 XdfKeysThm XdfOpen XdfSearch XdfAbs XdfHist XdfSys XdfSys2 XdfSpec XdfThm XdfThm2 XdfThm3 XdfRstrThm Dates DatesSpec DatesCal DatesFacts DatesConv DatesModes DatesThm Fst FstSpec FstPack FstFacts FstDates FstMatch FstSearch FstThm FstThm2 FstEff.
Import ListNotations.
Open Scope Z_scope.
Open Scope opt_scope.

(** ** Replacing an entry by one of the same type, length and address *)
Definition ent_file (f : fte) (k r : nat) (p : page) (e' : list Z) : fte :=
  f_setmod (f_setpages f (upd (f_pages f) k (p_setmod (p_setent p r e') true))) true.

Lemma ent_ginv ns f k r p e e' : ginv ns f -> nth_error (f_pages f) k = Some p -> entry_at ns (f_pages f) k r = Some e ->
  e_idtyp e' = e_idtyp e -> e_lng e' = e_lng e -> e_addr e' = e_addr e -> length e' = length e -> all_words e' -> ginv ns (ent_file f k r p e').
Proof.
  intros G P E T1 T2 T3 LE WE.
  set (p' := p_setmod (p_setent p r e') true).
  destruct (entry_shape _ _ _ _ _ G E) as [EL EW].
  assert (PE : p_ents p' = upd (p_ents p) r e') by reflexivity.
  assert (X : forall o, ext ns (ent_file f k r p e') o = ext ns f o).
  { intros o. apply (ext_upd_entry ns f k r p p' e e'); auto. }
  destruct (used_upd ns _ k r e p E P) as (A & B & U & U'). specialize (U' p' e' PE).
  pose proof (g_ents _ _ G _ _ _ E) as (EO & LO & AO).
  constructor; cbn [ent_file f_setmod f_setpages f_kp f_link f_tail f_plen f_hdr f_pages f_nxtadr f_disk f_modified]; fold p'; rewrite ?upd_length; try apply G.
  - apply Forall_upd; [apply (g_pages _ _ G)|]. apply page_ok_setmod, page_ok_setent; [apply (page_nth_ok _ _ _ _ G P)| |exact WE]. congruence.
  - intros o s l. rewrite X. apply (g_in _ _ G).
  - intros o o' x x'. rewrite !X. apply (g_apart _ _ G).
  - intros j s x. rewrite (entry_at_upd ns _ k r p p' e' P PE). destruct (Nat.eqb j k && Nat.eqb s r).
    + rewrite E. intros Q. injection Q as <-. unfold entry_ok. rewrite T1, T2, T3. auto.
    + apply (g_ents _ _ G).
  - rewrite (g_nrec _ _ G), U, U'. rewrite !count_app, !count_cons. unfold live. rewrite T1. reflexivity.
  - rewrite (g_nxtn _ _ G), U, U'. rewrite !app_length. reflexivity.
  - intros q. rewrite upd_nth. destruct (Nat.eqb_spec 0 k) as [<-|]; cbn [andb]; [|apply (g_first _ _ G)].
    destruct (0 <? length (f_pages f))%nat; [|apply (g_first _ _ G)]. intros Q. injection Q as <-. apply (g_first _ _ G p P).
  - intros j a b. rewrite !upd_nth. intros Qa Qb.
    assert (K : (k <? length (f_pages f))%nat = true). { apply Nat.ltb_lt. apply nth_error_Some. congruence. }
    rewrite K, andb_true_r in Qa, Qb.
    assert (exists a0, nth_error (f_pages f) j = Some a0 /\ p_nxt a = p_nxt a0) as (a0 & Ha & Na).
    { destruct (Nat.eqb_spec j k) as [->|]; [injection Qa as <-; exists p; auto|exists a; auto]. }
    assert (exists b0, nth_error (f_pages f) (S j) = Some b0 /\ p_addr b = p_addr b0) as (b0 & Hb & Nb).
    { destruct (Nat.eqb_spec (S j) k) as [<-|]; [injection Qb as <-; exists p; auto|exists b; auto]. }
    rewrite Na, Nb. apply (g_chain _ _ G j); assumption.
  - intros q. rewrite upd_nth.
    destruct (Nat.eqb_spec (length (f_pages f) - 1) k) as [Q|]; cbn [andb]; [|apply (g_lastp _ _ G)].
    destruct (k <? length (f_pages f))%nat; [|apply (g_lastp _ _ G)]. intros R. injection R as <-.
    apply (g_lastp _ _ G p). rewrite Q. exact P.
  - pose proof (g_tile _ _ G) as T. constructor.
    + intros x Hx. destruct (t_cover _ _ T x Hx) as (o & s & l & O & IN). exists o, s, l. rewrite X. auto.
    + apply (t_hdr _ _ T).
    + cbn [ent_file f_setmod f_setpages f_pages f_plen]. apply Forall_upd; [apply (t_page _ _ T)|]. apply (tile_page _ _ _ _ T P).
    + cbn [ent_file f_setmod f_setpages f_pages f_disk f_modified]. fold p'. intros j s x q. rewrite (entry_at_upd ns _ k r p p' e' P PE).
      rewrite upd_nth. replace (k <? length (f_pages f))%nat with true by (symmetry; apply Nat.ltb_lt; apply nth_error_Some; congruence). rewrite andb_true_r.
      destruct (Nat.eqb_spec j k) as [->|J]; cbn [andb].
      * intros EX Q. injection Q as <-. destruct (Nat.eqb s r).
        -- rewrite E in EX. injection EX as <-. split; [|auto]. destruct (t_rec _ _ T _ _ _ _ E P) as [(t & R1 & R2 & R3 & R4) _]. exists t. unfold live in *. rewrite T1, T2, T3. auto.
        -- split; [apply (t_rec _ _ T _ _ _ _ EX P)|auto].
      * intros EX Q. destruct (t_rec _ _ T _ _ _ _ EX Q) as [R1 R2]. split; [exact R1|]. intros H. split; [apply R2; exact H|reflexivity].
Qed.

Lemma ent_gimg sk f k r p e' : gimg sk f -> nth_error (f_pages f) k = Some p -> gimg sk (ent_file f k r p e').
Proof.
  intros G P j q Hj S M. destruct M as [M|M]; [|discriminate].
  cbn [ent_file f_setmod f_setpages f_pages] in Hj.
  rewrite upd_nth in Hj. destruct (Nat.eqb_spec j k) as [->|]; cbn [andb] in Hj.
  - destruct (k <? length (f_pages f))%nat eqn:Q; [injection Hj as <-; discriminate|].
    apply Nat.ltb_ge in Q. apply nth_error_None in Q. congruence.
  - apply (G j q Hj S). left. exact M.
Qed.

Lemma ent_eff f k r p e e' : finv f -> nth_error (f_pages f) k = Some p -> ent f k r = Some e ->
  e_idtyp e' = e_idtyp e -> e_lng e' = e_lng e -> e_addr e' = e_addr e -> length e' = length e -> all_words e' ->
  finv (ent_file f k r p e') /\ stat f (ent_file f k r p e') /\ nents (f_pages (ent_file f k r p e')) = nents (f_pages f) /\
  (forall j s, ent (ent_file f k r p e') j s = if eq2 j s k r then Some e' else ent f j s) /\
  (forall j s, abs (ent_file f k r p e') j s = if eq2 j s k r then Some (if live e then Some (e', rec_data f e) else None) else abs f j s).
Proof.
  intros FI P E T1 T2 T3 LE WE. pose proof FI as [G I]. set (p' := p_setmod (p_setent p r e') true).
  assert (NP : nents (upd (f_pages f) k p') = nents (f_pages f)) by (apply (nents_upd_same _ _ p); auto).
  assert (EN : forall j s, ent (ent_file f k r p e') j s = if eq2 j s k r then Some e' else ent f j s).
  { intros j s. unfold ent. cbn [ent_file f_setmod f_setpages f_pages]. fold p'. rewrite NP. rewrite (entry_at_upd _ _ k r p p' e' P eq_refl). fold (eq2 j s k r). fold (ent f k r). rewrite E. reflexivity. }
  split; [split|split; [|split; [exact NP|split; [exact EN|]]]].
  - cbn [ent_file f_setmod f_setpages f_pages]. fold p'. rewrite NP. apply (ent_ginv _ _ _ _ _ e); assumption.
  - apply ent_gimg; assumption.
  - st. apply hkeep_refl.
  - intros j s. unfold abs. rewrite EN. destruct (eq2 j s k r); [|reflexivity]. unfold live. rewrite T1. destruct (_ && _); [|reflexivity].
    unfold rec_data. rewrite T2, T3. reflexivity.
Qed.

(** ** The edited entry *)
Lemma edit_entry_length x e : length e = 18%nat -> length (edit_entry x e) = 18%nat.
Proof. intros L. unfold edit_entry. rewrite app_length, firstn_length, key_words_length. lia. Qed.
Lemma edit_entry_keeps x e : length e = 18%nat -> e_idtyp (edit_entry x e) = e_idtyp e /\ e_lng (edit_entry x e) = e_lng e /\ e_addr (edit_entry x e) = e_addr e.
Proof. intros L. destruct e as [|a [|b e]]; try discriminate L. repeat split. Qed.
Lemma edit_entry_skip x e : length e = 18%nat -> skipn 2 (edit_entry x e) = key_words (edit_keys x (keys_of (skipn 2 e))).
Proof. intros L. destruct e as [|a [|b e]]; try discriminate L. reflexivity. Qed.
Lemma edit_entry_words x e : all_words e -> all_words (edit_entry x e).
Proof. intros W. unfold edit_entry. apply Forall_app. split; [|apply key_words_words]. unfold all_words in *. rewrite Forall_forall in *. intros v V. apply W. rewrite <- (firstn_skipn 2 e). apply in_or_app. left. exact V. Qed.
Opaque edit_entry.

(** ** One edit *)
Lemma blank_repeat l : forallb (Z.eqb 32) l = true <-> l = repeat 32 (length l).
Proof.
  induction l as [|a l IH]; cbn [forallb length repeat]; [tauto|]. rewrite andb_true_iff, Z.eqb_eq, IH. split; [intros (<- & E); f_equal; exact E|]. intros E. injection E as E1 E2. auto.
Qed.
Lemma blanks_blank n t : (if list_eq_dec Z.eq_dec (padded n t) (repeat 32 n) then true else false) = blank (blank_filled n t).
Proof.
  rewrite blank_filled_padded. pose proof (blank_filled_length n t) as L. unfold blank. destruct (list_eq_dec _ _ _) as [E|N]; symmetry.
  - apply blank_repeat. rewrite L. exact E.
  - apply not_true_iff_false. rewrite blank_repeat, L. exact N.
Qed.

Lemma keys_of_small ws : norm (keys_of ws) = keys_of ws.
Proof.
  unfold norm, keys_of. cbn [k_deet k_nbits k_ni k_gtyp k_nj k_datyp k_nk k_ubc k_npas k_pad7 k_ig4 k_ig2a k_ig1 k_ig2b k_ig3 k_ig2c k_etik15 k_pad1 k_etik6a k_pad2 k_etikbc k_typvar k_pad3 k_nomvar k_pad4 k_ip1 k_levtyp k_ip2 k_pad5 k_ip3 k_pad6 k_date].
  rewrite !(fun w s n => Z.mod_small (getf w s n) (2 ^ n)) by (apply getf_range; lia). reflexivity.
Qed.

Ltac kproj := cbn [k_deet k_nbits k_ni k_gtyp k_nj k_datyp k_nk k_ubc k_npas k_pad7 k_ig4 k_ig2a k_ig1 k_ig2b k_ig3 k_ig2c k_etik15 k_pad1 k_etik6a k_pad2 k_etikbc k_typvar k_pad3 k_nomvar k_pad4 k_ip1 k_levtyp k_ip2 k_pad5 k_ip3 k_pad6 k_date].
Ltac dproj := cbn [d_dateo d_deet d_npas d_ni d_nj d_nk d_nbits d_datyp d_ip1 d_ip2 d_ip3 d_typvar d_nomvar d_etiket d_grtyp d_ig1 d_ig2 d_ig3 d_ig4 d_datev].

Lemma num_mod v old n : -1 <= v < 2 ^ n -> old mod 2 ^ n = old -> (if v =? -1 then old else v) mod 2 ^ n = new_number v old.
Proof. intros V O. unfold new_number. destruct (Z.eqb_spec v (-1)); [exact O|]. apply Z.mod_small. lia. Qed.
Lemma txt_mod n t old : Forall printable t -> old mod 64 ^ Z.of_nat n = old ->
  unsix ((if (if list_eq_dec Z.eq_dec (padded n t) (repeat 32 n) then true else false) : bool then old else six (padded n t) 0 n) mod 64 ^ Z.of_nat n) n = new_text n t (unsix old n).
Proof. intros T O. rewrite blanks_blank. unfold new_text. destruct (blank _); [rewrite O; reflexivity|]. apply text_back. exact T. Qed.
Lemma incdat_back o v t : stampable o -> stampable v -> valid_at o v t -> incdat_out (incdat_sec (stamp_of v) (- t)) = stamp_of o.
Proof. intros SO SV VA. destruct (valid_reaches o v t SO SV VA) as [_ R]. rewrite (incdat_reaches v o (- t) SV SO R). reflexivity. Qed.

Lemma edit_cracks x ws d : edit_ok x -> crack (keys_of ws) = Some d -> new_number (x_deet x) (d_deet d) * new_number (x_npas x) (d_npas d) < 2 ^ 31 ->
  exists d', crack (keys_of (key_words (edit_keys x (keys_of ws)))) = Some d' /\ edited x d d' /\ label_of d' = entry_label (key_words (edit_keys x (keys_of ws))).
Proof.
  intros (XD & X1 & X2 & (X3 & X4 & X5) & (X6 & X7 & X8 & X9) & T1 & T2 & T3 & T4) CR OV.
  unfold entry_label. rewrite keys_round. pose proof (keys_of_small ws) as SM. set (k := keys_of ws) in *. clearbody k.
  unfold crack in CR. destruct (2 ^ 31 <=? k_deet k * k_npas k) eqn:O1; [discriminate|].
  assert (E : d = mkdesc (if k_deet k * k_npas k =? 0 then int32 (decimal_date (k_date k)) else incdat_out (incdat_sec (int32 (decimal_date (k_date k))) (- (k_deet k * k_npas k)))) (k_deet k) (k_npas k) (k_ni k) (k_nj k) (k_nk k) (k_nbits k) (k_datyp k)
               (k_ip1 k) (k_ip2 k) (k_ip3 k) (unsix (k_typvar k) 2) (unsix (k_nomvar k) 4)
               (unsix (k_etik15 k) 5 ++ unsix (k_etik6a k) 5 ++ unsix (k_etikbc k) 2) [k_gtyp k]
               (k_ig1 k) (Z.lor (Z.lor (Z.shiftl (k_ig2a k) 16) (Z.shiftl (k_ig2b k) 8)) (k_ig2c k)) (k_ig3 k) (k_ig4 k) (int32 (decimal_date (k_date k)))) by congruence.
  clear CR. rewrite E in OV. cbn [d_deet d_npas] in OV.
  set (k' := norm (edit_keys x k)).
  assert (F1 : k_deet k' = new_number (x_deet x) (k_deet k)) by (apply (num_mod _ _ 24); [lia|apply (f_equal k_deet SM)]).
  assert (F2 : k_npas k' = new_number (x_npas x) (k_npas k)) by (apply (num_mod _ _ 26); [lia|apply (f_equal k_npas SM)]).
  assert (F3 : k_date k' = if x_date x =? -1 then k_date k else octal_date (x_date x)).
  { unfold k', norm, edit_keys. cbv zeta. kproj. destruct (x_date x =? -1); [apply (f_equal k_date SM)|]. apply Z.mod_small. apply octal_range. }
  assert (DV : int32 (decimal_date (k_date k')) = new_number (x_date x) (int32 (decimal_date (k_date k)))).
  { rewrite F3. unfold new_number. destruct (Z.eqb_spec (x_date x) (-1)); [reflexivity|]. destruct XD as [XD|[R M]]; [lia|]. rewrite (octal_decimal _ M), (int32_w32 _ R). reflexivity. }
  unfold crack. rewrite F1, F2. rewrite (proj2 (Z.leb_gt _ _)) by lia. set (t := new_number (x_deet x) (k_deet k) * new_number (x_npas x) (k_npas k)) in *.
  eexists. split; [reflexivity|]. split; [|reflexivity]. unfold edited. dproj. rewrite E. dproj. fold t.
  split; [unfold k', norm, edit_keys; cbv zeta; kproj; rewrite (f_equal k_ni SM : _ mod _ = _), (f_equal k_nj SM : _ mod _ = _), (f_equal k_nk SM : _ mod _ = _); reflexivity|].
  split; [unfold k', norm, edit_keys; cbv zeta; kproj; rewrite (f_equal k_nbits SM : _ mod _ = _), (f_equal k_datyp SM : _ mod _ = _); reflexivity|].
  split; [reflexivity|]. split; [reflexivity|].
  split. { repeat split; apply (num_mod _ _ 28); try lia; [apply (f_equal k_ip1 SM)|apply (f_equal k_ip2 SM)|apply (f_equal k_ip3 SM)]. }
  split.
  { split; [apply (num_mod _ _ 24); [lia|apply (f_equal k_ig1 SM)]|]. split; [|split; (apply (num_mod _ _ 24); [lia|apply (f_equal k_ig3 SM) || apply (f_equal k_ig4 SM)])].
    unfold k', norm, edit_keys. cbv zeta. kproj. unfold new_number. destruct (Z.eqb_spec (x_ig2 x) (-1)).
    - rewrite (f_equal k_ig2a SM : _ mod _ = _), (f_equal k_ig2b SM : _ mod _ = _), (f_equal k_ig2c SM : _ mod _ = _). reflexivity.
    - apply ig2_back. lia. }
  split; [apply (txt_mod 2); [exact T1|apply (f_equal k_typvar SM)]|].
  split; [apply (txt_mod 4); [exact T2|apply (f_equal k_nomvar SM)]|].
  split.
  { unfold k', norm, edit_keys. cbv zeta. kproj. rewrite blanks_blank. unfold new_text. destruct (blank _); [|apply (etiket_back (x_etiket x) T3)].
    rewrite (f_equal k_etik15 SM : _ mod _ = _), (f_equal k_etik6a SM : _ mod _ = _), (f_equal k_etikbc SM : _ mod _ = _). reflexivity. }
  split.
  { unfold k', norm, edit_keys. cbv zeta. kproj. rewrite blank_filled_padded. unfold blank_filled. cbn [seq map nth blank forallb]. rewrite andb_true_r, Z.eqb_sym.
    destruct (Z.eqb_spec 32 (nth 0 (x_grtyp x) 32)); [rewrite (f_equal k_gtyp SM : _ mod _ = _); reflexivity|].
    assert (P : printable (nth 0 (x_grtyp x) 32)). { destruct (x_grtyp x) as [|c l]; [unfold printable; cbn; lia|]. inversion T4; subst. assumption. }
    unfold printable in P. rewrite Z.mod_small by lia. reflexivity. }
  split; [exact DV|]. rewrite DV. split; [|split].
  - intros XE. unfold new_number at 1. rewrite XE. cbn [Z.eqb]. intros ->. reflexivity.
  - intros ->. reflexivity.
  - intros o v TP SV SO VA. rewrite (proj2 (Z.eqb_neq _ _)) by lia. apply stamps_of in SV. destruct SV as [SV ->]. apply stamps_of. split; [exact SO|]. apply incdat_back; assumption.
Qed.

Lemma edit_step s h x c s1 : wf s -> ok_call s (Edit h x) -> fst_edit h x s = Some (c, s1) -> wf s1 /\
  if c =? 0 then exists p f pg e, opened s p (hidx (s_w s) h) f /\ nth_error (f_pages f) (hpage h) = Some pg /\ ent f (hpage h) (hrec h) = Some e /\ length e = 18%nat /\ f_std f = true /\ writable f /\
    s1 = mksys (setf (s_w s) (hidx (s_w s) h) (Some (ent_file f (hpage h) (hrec h) pg (edit_entry x e)))) (s_fs s) /\
    crack (keys_of (skipn 2 (edit_entry x e))) <> None /\
    forall q j t, sabs s1 q j t = if Nat.eqb q p && eq2 j t (hpage h) (hrec h) then Some (if live e then Some (edit_entry x e, rec_data f e) else None) else sabs s q j t
  else s1 = s.
Proof.
  intros W (XO & OK). unfold fst_edit. set (i := hidx (s_w s) h) in *. destruct (w_file (s_w s) i) as [f|] eqn:F; [|discriminate]. cbn [bind].
  destruct (OK f eq_refl) as (WR & pg & P & RN). destruct (f_std f) eqn:SD; cbn [negb]; [|intros H; injection H as <- <-; split; [exact W|reflexivity]].
  destruct (_ <? _)%nat; [intros H; injection H as <- <-; split; [exact W|reflexivity]|]. rewrite P. cbn [bind].
  destruct (nth_error (p_ents pg) (hrec h)) as [e|] eqn:E; [|discriminate]. cbn [bind]. destruct (Nat.eqb_spec (length e) 18) as [LE|]; cbn [negb]; [|discriminate].
  destruct (crack _) as [d|] eqn:CR; [|discriminate]. cbn [bind]. intros H. injection H as <- <-. cbn [Z.eqb].
  pose proof (wf_fok _ W i f F) as FK. pose proof (fo_inv _ FK) as FI. pose proof (ent_some _ _ _ _ _ FI P RN E) as EE.
  destruct (edit_entry_keeps x e LE) as (K1 & K2 & K3). pose proof (edit_entry_length x e LE) as L'. destruct (entry_shape _ _ _ _ _ (proj1 FI) EE) as [EL EW].
  destruct (ent_eff f (hpage h) (hrec h) pg e (edit_entry x e) FI P EE K1 K2 K3 ltac:(congruence) (edit_entry_words x e EW)) as (FI' & ST & NE & EN & AB).
  fold (ent_file f (hpage h) (hrec h) pg (edit_entry x e)). set (f' := ent_file f (hpage h) (hrec h) pg (edit_entry x e)) in *.
  assert (OT : others (s_w s) (setf (s_w s) i (Some f')) i) by (split; [reflexivity|intros j N; apply setf_other; exact N]).
  assert (FK' : fok f') by (apply (fok_stat f f' FK ST FI'); intros N; contradiction).
  destruct (wf_at _ _ _ W F) as (p & PO & PU). split.
  - apply (wf_replace s _ i f f' W F OT (setf_same _ _ _)); [apply ST|exact FK'].
  - exists p, f, pg, e. split; [split; assumption|]. split; [reflexivity || exact P|]. split; [exact EE|]. split; [exact LE|]. split; [exact SD|]. split; [exact WR|]. split; [reflexivity|]. split; [congruence|].
    intros q j t. rewrite (sabs_replace _ _ _ _ _ OT (setf_same _ _ _)). destruct (Nat.eqb_spec q p) as [->|N]; cbn [andb].
    + rewrite PO, Nat.eqb_refl, AB. destruct (eq2 j t _ _); [reflexivity|]. rewrite (sabs_open _ _ _ _ PO F). reflexivity.
    + destruct (s_fs s q) as [| |j0] eqn:Q; try reflexivity. destruct (Nat.eqb_spec j0 i) as [->|]; [|reflexivity]. exfalso. apply N. apply PU. exact Q.
Qed.

(** ** Histories *)
Lemma do_wf s a c s1 : wf s -> ok_call s a -> do a s = Some (c, s1) -> wf s1.
Proof. intros W OK D. destruct a as [o|h x]; [apply (step_spec _ _ _ _ W OK D)|apply (edit_step _ _ _ _ _ W OK D)]. Qed.
Lemma calls_wf A s l s1 : calls A s l s1 -> wf s -> wf s1.
Proof. induction 1; intros W; [exact W|]. apply IHcalls. eapply do_wf; eassumption. Qed.
Lemma reached_wf s : reached s -> wf s.
Proof. intros (l & C). eapply calls_wf; [exact C|apply init_wf]. Qed.
Lemma calls_app A s l s1 l' s2 : calls A s l s1 -> calls A s1 l' s2 -> calls A s (l ++ l') s2.
Proof. induction 1; intros C; [exact C|]. cbn [app]. econstructor; eauto. Qed.
Lemma calls_any A s l s1 : calls A s l s1 -> calls all_calls s l s1.
Proof. induction 1; [constructor|]. econstructor; eauto. exact Logic.I. Qed.
Lemma reached_calls A s l s1 : reached s -> calls A s l s1 -> reached s1.
Proof. intros (l0 & C0) C. exists (l0 ++ l). eapply calls_app; [exact C0|]. eapply calls_any, C. Qed.
Lemma hist_calls (A : sys -> op -> Prop) (B : sys -> call -> Prop) s l s1 : hist A s l s1 -> (forall s o, A s o -> B s (Call o)) -> calls B s (map (fun x => (Call (fst x), snd x)) l) s1.
Proof. intros H I. induction H; [constructor|]. cbn [map fst snd]. econstructor; [exact H|apply I; exact H0|exact H1|exact IHhist]. Qed.
Lemma reach_reached s : reach s -> reached s.
Proof. intros (l & H). eexists. eapply hist_calls; [exact H|]. intros; exact Logic.I. Qed.

Lemma do_frame s a c s1 p k r y : wf s -> ok_call s a -> do a s = Some (c, s1) -> leaves p k r s a -> sabs s p k r = Some y -> sabs s1 p k r = Some y.
Proof.
  intros W OK D L X. destruct a as [o|h x]; [exact (step_frame _ _ _ _ _ _ _ _ W OK D L X)|].
  destruct (edit_step _ _ _ _ _ W OK D) as [_ E]. destruct (c =? 0); [|rewrite E; exact X].
  destruct E as (q & f & pg & e & [Q F] & _ & _ & _ & _ & _ & _ & _ & EQ). rewrite EQ. destruct (Nat.eqb_spec p q) as [->|]; [|exact X]. cbn [andb].
  destruct (eq2_spec k r (hpage h) (hrec h)) as [T|]; [|exact X]. exfalso. apply L. split; [exact Q|]. split; congruence.
Qed.
Lemma calls_frame s l s1 p k r y : wf s -> calls (leaves p k r) s l s1 -> sabs s p k r = Some y -> sabs s1 p k r = Some y.
Proof. intros W C. revert W. induction C; intros W X; [exact X|]. apply IHC; [eapply do_wf; eassumption|]. eapply do_frame; eassumption. Qed.
Lemma do_dead s a c s1 p k r : wf s -> ok_call s a -> do a s = Some (c, s1) -> keeps p s a -> sabs s p k r = Some None -> sabs s1 p k r = Some None.
Proof.
  intros W OK D L X. destruct a as [o|h x]; [exact (step_dead _ _ _ _ _ _ _ W OK D L X)|].
  destruct (edit_step _ _ _ _ _ W OK D) as [_ E]. destruct (c =? 0); [|rewrite E; exact X].
  destruct E as (q & f & pg & e & [Q F] & _ & EE & _ & _ & _ & _ & _ & EQ). rewrite EQ. destruct (Nat.eqb_spec p q) as [->|]; [|exact X]. cbn [andb].
  destruct (eq2_spec k r (hpage h) (hrec h)) as [T|]; [|exact X]. rewrite (sabs_open _ _ _ _ Q F) in X. unfold abs in X. injection T as -> ->. rewrite EE in X. destruct (live e); [discriminate|reflexivity].
Qed.
Lemma calls_dead s l s1 p k r : wf s -> calls (keeps p) s l s1 -> sabs s p k r = Some None -> sabs s1 p k r = Some None.
Proof. intros W C. revert W. induction C; intros W X; [exact X|]. apply IHC; [eapply do_wf; eassumption|]. eapply do_dead; eassumption. Qed.

(** ** What is found *)
Lemma found_filter filt q i f f1 (P : nat * nat -> bool) : page_sizes f1 = page_sizes f ->
  (forall x, In x (found filt q i f1) <-> In x (found filt q i f) /\ P x = true) -> found filt q i f1 = filter P (found filt q i f).
Proof.
  intros PS H. set (hit := fun (g : fte) (x : nat * nat) => live_entry (entry_words g (fst x) (snd x)) && wanted q (record_label g (fst x) (snd x)) && filt (rec_handle i (fst x) (snd x))).
  change (found filt q i f1) with (filter (hit f1) (positions (page_sizes f1))) in *. change (found filt q i f) with (filter (hit f) (positions (page_sizes f))) in *. rewrite PS in *.
  set (a := hit f1) in *. set (b := hit f) in *.
  assert (K : forall x, In x (positions (page_sizes f)) -> a x = b x && P x).
  { intros x IN. specialize (H x). rewrite !filter_In in H. apply eq_true_iff_eq. rewrite andb_true_iff. tauto. }
  clearbody a b. clear H PS. revert K. generalize (positions (page_sizes f)) as ps. induction ps as [|x l IH]; intros K; [reflexivity|]. cbn [filter]. rewrite (K x) by (left; reflexivity).
  rewrite IH by (intros; apply K; right; assumption). destruct (b x); cbn [andb filter]; [|reflexivity]. destruct (P x); reflexivity.
Qed.

(** ** Reading *)
Lemma nth_ent f k r p e : finv f -> nth_error (f_pages f) k = Some p -> ent f k r = Some e -> (p_nent p <? Z.of_nat r) = false /\ nth_error (p_ents p) r = Some e.
Proof.
  intros FI P E. apply entry_at_page in E. destruct E as (n & p' & N & P' & R & Q). assert (p' = p) as -> by congruence. split; [|exact Q].
  unfold nents in N. rewrite (map_nth_error (fun p => Z.to_nat (p_nent p)) _ _ P) in N. apply Z.ltb_ge. injection N as <-. lia.
Qed.
Lemma ent_located w i f k r e : w_file w i = Some f -> finv f -> ent f k r = Some e -> locate w i f k = Some (Go (i, k)) /\ entry_of w f (i, k) r = Some (Go e).
Proof.
  intros F FI E. pose proof E as E'. apply entry_at_page in E'. destruct E' as (n & p & _ & P & _ & _). destruct (nth_ent _ _ _ _ _ FI P E) as [R Q].
  rewrite (locate_own _ _ _ _ _ (proj1 FI)). rewrite (proj2 (Nat.ltb_lt _ _)) by (apply nth_error_Some; congruence). split; [reflexivity|]. rewrite (entry_of_own _ _ _ _ _ _ F P), R, Q. reflexivity.
Qed.
Lemma fstluk_same w w' h f f' e e' : w_file w (hidx w h) = Some f -> w_file w' (hidx w' h) = Some f' -> finv f -> finv f' -> stat f f' -> f_disk f' = f_disk f ->
  ent f (hpage h) (hrec h) = Some e -> ent f' (hpage h) (hrec h) = Some e' -> e_idtyp e' = e_idtyp e -> e_lng e' = e_lng e -> e_addr e' = e_addr e ->
  (exists ks ks', xdfprm w h = Some (Go (e_addr e, e_lng e, e_idtyp e, ks)) /\ xdfprm w' h = Some (Go (e_addr e, e_lng e, e_idtyp e, ks')) /\
     (k_ni (keys_of ks'), k_nj (keys_of ks'), k_nk (keys_of ks'), k_nbits (keys_of ks'), k_datyp (keys_of ks')) = (k_ni (keys_of ks), k_nj (keys_of ks), k_nk (keys_of ks), k_nbits (keys_of ks), k_datyp (keys_of ks))) ->
  forall orc junk dst, fstluk orc junk w' h dst = fstluk orc junk w h dst.
Proof.
  intros F F' FI FI' ST D E E' T1 T2 T3 (ks & ks' & X & X' & K) orc junk dst. unfold fstluk. rewrite X, X'. cbn [bind].
  assert (k_ni (keys_of ks') = k_ni (keys_of ks) /\ k_nj (keys_of ks') = k_nj (keys_of ks) /\ k_nk (keys_of ks') = k_nk (keys_of ks) /\ k_nbits (keys_of ks') = k_nbits (keys_of ks) /\ k_datyp (keys_of ks') = k_datyp (keys_of ks)) as (-> & -> & -> & -> & ->) by (repeat split; congruence).
  destruct (ent_located _ _ _ _ _ _ F FI E) as [A B]. destruct (ent_located _ _ _ _ _ _ F' FI' E') as [A' B'].
  assert (PL : f_plen f' = f_plen f) by apply ST. assert (IU : f_iun f' = f_iun f) by apply ST. assert (IL : f_ilen f' = f_ilen f) by (destruct ST as (_&_&_&_&_&S&_); congruence).
  assert (G : forall b, xdfget w' h b = xdfget w h b).
  { intros b. unfold xdfget. rewrite F, F', A, A'. cbn [fst bind]. rewrite F, F'. cbn [bind]. rewrite B, B', T1, T2, T3, PL, IU, IL, D. reflexivity. }
  assert (AX : aux_words w' h = aux_words w h).
  { unfold aux_words. rewrite F, F'. cbn [bind]. rewrite A, A'. cbn [fst bind]. rewrite F, F'. cbn [bind]. rewrite B, B'. cbn [bind]. rewrite T3, PL, IL, D. reflexivity. }
  rewrite AX. rewrite G. reflexivity.
Qed.

(** The record of handle [rec_handle i k r]. *)
Lemma std_prm s p i f k r e : wf s -> opened s p i f -> f_kp f = std_kp -> ent f k r = Some e ->
  fstprm (s_w s) (rec_handle i k r) = match crack (keys_of (skipn 2 e)) with Some d => Some (Go d) | None => None end.
Proof. intros W [P F] KP E. unfold fstprm. rewrite (xdfprm_entry _ _ _ _ _ _ _ W P F KP E). cbn [bind]. destruct (crack _); reflexivity. Qed.
Lemma every_wanted l : wanted every_record l = true.
Proof. reflexivity. Qed.
Lemma found_every s p i f k r : wf s -> opened s p i f -> In (k, r) (found no_filter every_record i f) <-> exists e ws, sabs s p k r = Some (Some (e, ws)).
Proof.
  intros W OP. rewrite (found_abs _ _ _ _ _ _ _ _ W OP). split; [intros (e & ws & X & _); eauto|]. intros (e & ws & X). exists e, ws. split; [exact X|]. split; reflexivity.
Qed.

(** ** Counting *)
Lemma count_found s p i f : wf s -> opened s p i f -> fstnbrv (f_iun f) s = Some (Z.of_nat (length (found no_filter every_record i f))).
Proof.
  intros W [P F]. unfold fstnbrv. rewrite (file_index_of _ _ _ W F). cbn [bind]. rewrite F. cbn [bind]. pose proof (fo_inv _ (wf_fok _ W i f F)) as FI. f_equal.
  assert (EQ : found no_filter every_record i f = filter (fun s0 => live_entry (entry_words f (fst s0) (snd s0))) (positions (page_sizes f))).
  { apply filter_ext. intros x. change (wanted every_record (record_label f (fst x) (snd x))) with true. change (no_filter _) with true. rewrite !andb_true_r. reflexivity. }
  rewrite EQ. assert (LB : 0 <= hget (f_hdr f) H_NREC < 2 ^ 31). { rewrite (g_nrec _ _ (proj1 FI)). pose proof (count_le live (used (nents (f_pages f)) (f_pages f))). pose proof (ginv_used_le _ _ (proj1 FI)). lia. }
  fold (n_live f). rewrite <- (n_live_hdr f FI). rewrite <- (w32_id (hget (f_hdr f) H_NREC)) at 1 by (unfold word_ok; lia). apply int32_w32. lia.
Qed.
Lemma erase_length k r (l : list (nat * nat)) : NoDup l -> In (k, r) l -> Z.of_nat (length (filter (fun x => negb ((fst x =? k)%nat && (snd x =? r)%nat)) l)) = Z.pred (Z.of_nat (length l)).
Proof.
  intros ND IN. induction l as [|[j t] l IH]; [destruct IN|]. inversion ND as [|a b NI ND']; subst. cbn [filter fst snd].
  destruct ((j =? k)%nat && (t =? r)%nat) eqn:B; cbn [negb].
  - apply andb_prop in B. destruct B as [B1 B2]. apply Nat.eqb_eq in B1, B2. subst. cbn [length]. assert (filter (fun x => negb ((fst x =? k)%nat && (snd x =? r)%nat)) l = l) as ->; [|lia].
    clear - NI. induction l as [|[a b] l IH]; [reflexivity|]. cbn [filter fst snd]. destruct ((a =? k)%nat && (b =? r)%nat) eqn:B.
    + apply andb_prop in B. destruct B as [B1 B2]. apply Nat.eqb_eq in B1, B2. subst. exfalso. apply NI. left. reflexivity.
    + cbn [negb]. rewrite IH; [reflexivity|]. intros X. apply NI. right. exact X.
  - destruct IN as [X|X]; [injection X as -> ->; rewrite !Nat.eqb_refl in B; discriminate|]. cbn [length]. rewrite !Nat2Z.inj_succ. rewrite IH by assumption. lia.
Qed.
