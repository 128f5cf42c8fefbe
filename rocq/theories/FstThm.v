(** Writing a record of a standard file. *)
From Coq Require Import ZArith List Lia Bool.
From Verif Require Import Bits BitIO SpecPack CompactInt CompactIntMain Handles HandlesFacts WaFile Xdf XdfLib XdfInv XdfDel XdfPut XdfPut2 XdfPut3 XdfPut4 XdfKeysThm XdfOpen XdfSearch XdfAbs XdfLoc XdfHist XdfSys XdfSys2 XdfSpec XdfThm XdfEnum XdfThm2 XdfThm3 Dates DatesSpec Fst FstSpec FstPack FstFacts FstDates FstMatch FstSearch.
Import ListNotations.
Open Scope Z_scope.
Open Scope opt_scope.

Lemma in_range_facts a : in_range a = true ->
  1 <= a_ni a <= 0xFFFFFF /\ 1 <= a_nj a <= 0xFFFFFF /\ 1 <= Z.max 1 (a_nk a) <= 0xFFFFF /\ 0 <= a_deet a <= 0xFFFFFF /\ 0 <= a_npas a <= 0xFFFFFF /\
  1 <= ask_nbits (a_npak a) <= 64 /\ 0 <= a_ig1 a <= 0xFFFFFF /\ 0 <= a_ig2 a <= 0xFFFFFF /\ 0 <= a_ig3 a <= 0xFFFFFF /\ 0 <= a_ig4 a <= 0xFFFFFF /\
  0 <= a_ip1 a <= 0xFFFFFFF /\ 0 <= a_ip2 a <= 0xFFFFFFF /\ 0 <= a_ip3 a <= 0xFFFFFFF.
Proof. unfold in_range. cbv zeta. rewrite !andb_true_iff, !Z.leb_le. tauto. Qed.

(** ** The packed field *)
Record packed := mkpk { p_type : Z; p_nw : Z; p_dat : list Z }.
Record packs (orc : oracle) (a : fargs) (fld : list Z) (x : packed) : Prop := {
  pa_good : exists datyp, good orc datyp (width a) (Z.to_nat (a_ni a)) (Z.to_nat (a_nj a)) (Z.to_nat (Z.max 1 (a_nk a))) (field_words a) fld (kind a) (p_type x) (p_nw x) (p_dat x) /\
    compressed datyp = zips a /\ (zips a = true -> datyp = 128 + kind a);
  pa_kind : In (kind a) [0; 1; 2; 4; 5; 6];
  pa_bits : field_size a * width a + 63 < 2 ^ 31 /\ (kind a = 6 \/ zips a = true -> field_size a * 16 + 63 < 2 ^ 31)
}.
Lemma packs_words orc a fld x : packs orc a fld x -> length (p_dat x) = (Z.to_nat (field_words a) + 128)%nat /\ all_words (p_dat x) /\ 2 <= p_nw x <= field_words a /\ exists h, p_nw x = 2 * h.
Proof. intros [(datyp & [G1 G2 G3 G4 G5 G6] & _) _ _]. auto. Qed.
Lemma packs_type orc a fld x : packs orc a fld x -> p_type x = kind a \/ zips a = true /\ p_type x = 128 + kind a.
Proof. intros [(datyp & [G1 G2 G3 G4 G5 G6] & C & D) _ _]. destruct G5 as [E|[E1 E2]]; [left; exact E|right]. rewrite C in E1. rewrite E2. auto. Qed.
Lemma size_nat a : in_range a = true -> Z.of_nat (Z.to_nat (a_ni a) * Z.to_nat (a_nj a) * Z.to_nat (Z.max 1 (a_nk a))) = field_size a /\
  (Z.to_nat (a_ni a) * Z.to_nat (a_nj a) * Z.to_nat (Z.max 1 (a_nk a)))%nat = Z.to_nat (field_size a).
Proof. intros IR. destruct (in_range_facts a IR) as (R1 & R2 & R3 & _). assert (E : Z.of_nat (Z.to_nat (a_ni a) * Z.to_nat (a_nj a) * Z.to_nat (Z.max 1 (a_nk a))) = field_size a) by (unfold field_size; rewrite !Nat2Z.inj_mul, !Z2Nat.id by lia; reflexivity). split; [exact E|]. rewrite <- E, Nat2Z.id. reflexivity. Qed.
Lemma kept_list datyp b t : kept_type datyp b = Some t -> In t [0; 1; 2; 4; 5; 6].
Proof.
  unfold kept_type. destruct (_ || _); [intros H; injection H as <-; cbn; tauto|]. destruct (32 <? b); [discriminate|]. repeat (match goal with |- context[if ?c then _ else _] => destruct c; [intros H; injection H as <-; cbn; tauto|] end). discriminate.
Qed.
Lemma kind_6 a : 0 <= a_datyp a < 256 -> kind a = 6 -> a_datyp a = 6 \/ 128 < a_datyp a.
Proof.
  intros D. unfold kind, stored_type. cbv zeta. destruct (plain _); [discriminate|]. destruct (_ || _); [discriminate|]. destruct (_ && _); [discriminate|]. intros E. Z.div_mod_to_equations; lia.
Qed.
Lemma field_packs orc junk a fld datyp nb nw dt nw' dat : in_range a = true -> 0 <= a_datyp a < 256 -> field_ok a fld -> choose (a_npak a) (a_datyp a) = (0, datyp, nb) ->
  data_words datyp (field_size a) nb = Some nw ->
  pack_field orc junk datyp nb (Z.to_nat (a_ni a)) (Z.to_nat (a_nj a)) (Z.to_nat (Z.max 1 (a_nk a))) nw fld (repeat 0 (Z.to_nat nw + 128)) = Some (dt, nw', dat) ->
  nb = width a /\ packs orc a fld (mkpk dt nw' dat) /\ (a_datyp a = 6 \/ 128 < a_datyp a \/ width a = valid_bits (a_npak a) (a_datyp a) /\ field_words a = 2 * ((field_size a * width a + 120 + 63) / 64)).
Proof.
  intros IR D (FW & FL & FR) CH DW P. destruct (in_range_facts a IR) as (R1 & R2 & R3 & _ & _ & RB & _). destruct (size_nat a IR) as [SN1 SN2].
  destruct (pack_kept _ _ _ _ _ _ _ _ _ _ _ P) as (t & KT). pose proof (kept_list _ _ _ KT) as KL. destruct (choose_kept a datyp nb t D RB CH KT) as (E1 & E2 & E3 & E4 & E5 & E6 & E7).
  assert (WB : 1 <= width a <= 64). { rewrite ask_asked in RB. unfold width, stored_bits. destruct (_ || _); lia. }
  subst t nb. assert (FS : 1 <= field_size a) by (unfold field_size; nia).
  assert (ZW : zips a = true -> width a <= 16). { unfold zips. rewrite !andb_true_iff. intros [_ X]. apply Z.leb_le in X. exact X. }
  assert (DF : nw = field_words a /\ field_size a * width a + 63 < 2 ^ 31 /\ (kind a = 6 \/ zips a = true -> field_size a * 16 + 63 < 2 ^ 31) /\
     (kind a <> 6 -> zips a = false -> field_words a = 2 * ((field_size a * width a + 120 + 63) / 64))).
  { unfold data_words in DW. unfold field_words. cbv zeta. destruct (Z.eqb_spec (kind a) 6) as [K6|K6].
    - rewrite (proj2 E5 K6) in DW, E7. specialize (E7 eq_refl). cbn [Z.eqb Pos.eqb] in DW. destruct (Z.leb_spec (2 ^ 31) ((12 + 4 * ((field_size a + 1) / 2)) * 8 + 63)) as [|L]; [discriminate|].
      assert (L2 : field_size a * 16 + 63 < 2 ^ 31) by (clear - L FS; Z.div_mod_to_equations; lia). split; [|split; [nia|split; [intros _; exact L2|intros X; congruence]]].
      rewrite (Z.mul_comm 8). congruence.
    - rewrite (proj2 (Z.eqb_neq datyp 6)) in DW by tauto. destruct (zips a) eqn:ZA.
      + specialize (E4 eq_refl). specialize (ZW eq_refl). unfold compressed in E3. apply orb_true_iff in E3. rewrite !Z.eqb_eq in E3.
        destruct E3 as [E3|E3]; rewrite E3 in DW; cbn [Z.eqb Pos.eqb] in DW; rewrite Z.max_r in DW by exact ZW.
        * assert (K1 : kind a = 1) by lia. rewrite K1. cbn [Z.eqb Pos.eqb]. destruct (Z.leb_spec (2 ^ 31) (field_size a * 16 + 128 + 32 + 63)) as [|L]; [discriminate|]. split; [|split; [nia|split; [intros _; lia|intros _ X; congruence]]].
          replace (16 * field_size a + 160) with (field_size a * 16 + 128 + 32) by lia. congruence.
        * assert (K2 : kind a = 2) by lia. rewrite K2. cbn [Z.eqb Pos.eqb]. destruct (Z.leb_spec (2 ^ 31) (field_size a * 16 + 32 + 63)) as [|L]; [discriminate|]. split; [|split; [nia|split; [intros _; lia|intros _ X; congruence]]].
          replace (16 * field_size a + 32) with (field_size a * 16 + 32) by lia. congruence.
      + unfold compressed in E3. apply orb_false_iff in E3. destruct E3 as [E31 E32]. rewrite E31, E32 in DW. destruct (Z.leb_spec (2 ^ 31) (field_size a * width a + 120 + 63)) as [|L]; [discriminate|].
        split; [congruence|]. split; [lia|]. split; [intros [X|X]; congruence|reflexivity]. }
  destruct DF as (-> & B1 & B2 & FWE). split; [reflexivity|]. split.
  - constructor; [|exact KL|auto]. exists datyp. split; [|auto]. cbn [p_type p_nw p_dat].
    refine (pack_good orc junk datyp (width a) _ _ _ (field_words a) fld (kind a) dt nw' dat WB _ _ _ FW _ _ KT E7 _ _ P); [lia|lia|lia|rewrite SN2; lia|rewrite SN2; exact FR|intros C; apply ZW; congruence|rewrite SN1; exact DW].
  - destruct E6 as [E6|[E6|E6]]; [auto|auto|]. destruct (Z.eq_dec (kind a) 6) as [K6|K6]; [destruct (kind_6 a D K6); auto|]. destruct (zips a) eqn:ZA; [|auto].
    right. left. unfold zips in ZA. rewrite !andb_true_iff, orb_true_iff, !Z.eqb_eq in ZA. lia.
Qed.

(** ** The buffer *)
Record buffer_of (orc : oracle) (iun : Z) (a : fargs) (fld : list Z) (buf : buffer) (x : packed) : Prop := {
  bo_ok : buf_ok buf;
  bo_words : b_nbits buf / 32 = 20 + p_nw x;
  bo_data : b_data buf = [mk_hd 1 (2 ^ 24 - 1); 2 ^ 32 - 1] ++ key_words (entry_keys a (p_type x) (width a)) ++ [0; 0] ++ p_dat x;
  bo_packs : packs orc a fld x
}.
Lemma fst_buffer_ok orc junk iun a fld buf : in_range a = true ->
  0 <= a_datyp a < 256 -> field_ok a fld ->
  field_size a * valid_bits (a_npak a) (a_datyp a) / 32 <= MAX_RECORD_LENGTH -> (a_datyp a = 6 \/ 128 < a_datyp a -> 20 + field_words a < 2 ^ 25) ->
  fst_buffer orc junk iun 9 1 a fld = Some buf -> exists x, buffer_of orc iun a fld buf x.
Proof.
  intros IR DT FO B2 SP FB.
  unfold fst_buffer in FB. destruct (choose (a_npak a) (a_datyp a)) as [[m dt] nb] eqn:CH. destruct (Z.eqb_spec m 0) as [M|]; [|discriminate]. subst m. cbn [negb] in FB. cbv zeta in FB. fold (field_size a) in FB.
  destruct (data_words dt (field_size a) nb) as [nw|] eqn:DW; [|discriminate]. cbn [bind] in FB.
  destruct (pack_field _ _ _ _ _ _ _ _ _ _) as [[[dt' nw'] dat]|] eqn:P; [|discriminate]. cbn [bind] in FB.
  destruct (field_packs _ _ _ _ _ _ _ _ _ _ IR DT FO CH DW P) as (-> & PK & FWE). destruct (packs_words _ _ _ _ PK) as (LD & WD & NW & _). cbn [p_dat p_nw] in LD, WD, NW.
  assert (FWB : 20 + field_words a < 2 ^ 25).
  { destruct FWE as [E|[E|[E1 E2]]]; [auto|auto|]. rewrite E2. rewrite <- E1 in B2. unfold MAX_RECORD_LENGTH in B2. set (x := field_size a * width a) in *. clearbody x. clear - B2. Z.div_mod_to_equations; lia. }
  change (2 * (9 + 1))%nat with 20%nat in FB. change ((18 <=? 20)%nat && (20 <=? 20)%nat) with true in FB. cbn [negb] in FB. change (Z.of_nat 20) with 20 in FB. change (repeat 0 (20 - 18)) with [0; 0] in FB. change (2 * Z.of_nat 9) with 18 in FB.
  assert (EB : buf = mkbuf (10 + 20 + nw') ((20 + nw') * 32) 20 0 iun 18
     ([mk_hd 1 (2 ^ 24 - 1); 2 ^ 32 - 1] ++ key_words (entry_keys a dt' (width a)) ++ [0; 0] ++ dat)) by (symmetry; inversion FB; reflexivity). clear FB.
  exists (mkpk dt' nw' dat). constructor; cbn [p_type p_nw p_dat].
  - subst buf. unfold buf_ok. cbn [b_data b_nbits]. split; [|split; [|split]].
    + apply Forall_app. split; [repeat apply Forall_cons; try apply Forall_nil; vm_compute; split; congruence|]. apply Forall_app. split; [apply key_words_words|]. apply Forall_app. split; [|exact WD].
      repeat apply Forall_cons; try apply Forall_nil; vm_compute; split; congruence.
    + rewrite Z.div_mul by lia. lia.
    + rewrite Z.div_mul by lia. rewrite !app_length, key_words_length, LD. cbn [length]. lia.
    + cbn [app nth]. vm_compute. split; congruence.
  - subst buf. cbn [b_nbits]. apply Z.div_mul. lia.
  - subst buf. reflexivity.
  - exact PK.
Qed.

(** ** The parameters read back *)
Lemma ig2_back v : 0 <= v <= 0xFFFFFF ->
  Z.lor (Z.lor (Z.shiftl (Z.shiftr v 16 mod 2 ^ 8) 16) (Z.shiftl (Z.shiftr v 8 mod 2 ^ 8) 8)) (Z.land v 0xff mod 2 ^ 8) = v.
Proof.
  intros V. apply Z.bits_inj'. intros n N. rewrite !Z.lor_spec, !Z.shiftl_spec by lia.
  rewrite <- !Z.land_ones by lia. change 0xff with (Z.ones 8).
  assert (T : forall x k, Z.testbit (Z.land x (Z.ones 8)) k = Z.testbit x k && ((0 <=? k) && (k <? 8))).
  { intros x k. rewrite Z.land_spec. destruct (Z.leb_spec 0 k) as [K|K]; [|rewrite (Z.testbit_neg_r x) by lia; reflexivity].
    f_equal. destruct (Z.ltb_spec k 8); [apply Z.ones_spec_low; lia|apply Z.ones_spec_high; lia]. }
  rewrite !T.
  assert (S : forall k, 0 <= n - k -> Z.testbit (Z.shiftr v k) (n - k) = Z.testbit v n) by (intros k K; rewrite Z.shiftr_spec by lia; f_equal; lia).
  destruct (Z_lt_le_dec n 8) as [C|C].
  - replace (0 <=? n - 16) with false by (symmetry; apply Z.leb_gt; lia). replace (0 <=? n - 8) with false by (symmetry; apply Z.leb_gt; lia).
    replace (0 <=? n) with true by (symmetry; apply Z.leb_le; lia). replace (n <? 8) with true by (symmetry; apply Z.ltb_lt; lia). cbn [andb]. rewrite !andb_false_r, !andb_true_r. reflexivity.
  - replace (n <? 8) with false by (symmetry; apply Z.ltb_ge; lia). rewrite !andb_false_r, orb_false_r. destruct (Z_lt_le_dec n 16) as [D|D].
    + replace (0 <=? n - 16) with false by (symmetry; apply Z.leb_gt; lia). rewrite andb_false_r. cbn [orb].
      replace (0 <=? n - 8) with true by (symmetry; apply Z.leb_le; lia). replace (n - 8 <? 8) with true by (symmetry; apply Z.ltb_lt; lia). rewrite andb_true_r. apply S. lia.
    + replace (n - 8 <? 8) with false by (symmetry; apply Z.ltb_ge; lia). rewrite !andb_false_r, orb_false_r. rewrite S by lia.
      destruct (Z_lt_le_dec n 24) as [E|E].
      * replace (0 <=? n - 16) with true by (symmetry; apply Z.leb_le; lia). replace (n - 16 <? 8) with true by (symmetry; apply Z.ltb_lt; lia). apply andb_true_r.
      * replace (n - 16 <? 8) with false by (symmetry; apply Z.ltb_ge; lia). rewrite !andb_false_r. symmetry. destruct (Z.eq_dec v 0) as [->|V0]; [apply Z.bits_0|].
        apply Z.bits_above_log2; [lia|]. apply Z.log2_lt_pow2; [lia|]. apply Z.lt_le_trans with (2 ^ 24); [lia|apply Z.pow_le_mono_r; lia].
Qed.
Lemma text_back t n : Forall printable t -> unsix (six (padded n t) 0 n mod 64 ^ Z.of_nat n) n = kept n t.
Proof.
  intros T. assert (R : 0 <= six (padded n t) 0 n mod 64 ^ Z.of_nat n < 64 ^ Z.of_nat n) by (apply Z.mod_pos_bound; lia).
  symmetry. apply (proj1 (text_match t n _ T R)). reflexivity.
Qed.
Lemma etiket_back t : Forall printable t -> let et := padded 12 t in
  unsix (six et 0 5 mod 2 ^ 30) 5 ++ unsix (six et 5 5 mod 2 ^ 30) 5 ++ unsix (six et 10 2 mod 2 ^ 12) 2 = kept 12 t.
Proof.
  intros T et. symmetry. apply (proj1 (etiket_match t (six et 0 5 mod 2 ^ 30) (six et 5 5 mod 2 ^ 30) (six et 10 2 mod 2 ^ 12) T ltac:(apply Z.mod_pos_bound; lia) ltac:(apply Z.mod_pos_bound; lia) ltac:(apply Z.mod_pos_bound; lia))). auto.
Qed.
Lemma crack_entry a t : in_range a = true -> args_ok a -> 0 <= t < 256 -> (t = kind a \/ zips a = true /\ t = 128 + kind a) ->
  exists d, crack (keys_of (key_words (entry_keys a t (width a)))) = Some d /\ d_datyp d = t /\ describes a d /\
    label_of d = entry_label (key_words (entry_keys a t (width a))).
Proof.
  intros IR (_ & (TT & TN & TE & TG) & DN & DO) TY TK. destruct (in_range_facts a IR) as (R1 & R2 & R3 & R4 & R5 & RB & R6 & R7 & R8 & R9 & R10 & R11 & R12). rewrite ask_asked in RB. assert (WB : 1 <= width a <= 64) by (unfold width, stored_bits; destruct (_ || _); lia).
  set (ws := key_words (entry_keys a t (width a))).
  assert (KE : keys_of ws = norm (entry_keys a t (width a))) by apply keys_round.
  pose proof (dates_ok (a_date a) (a_deet a) (a_npas a) ltac:(lia) DO) as DK. cbv zeta in DK.
  unfold crack, entry_label. rewrite KE. unfold norm, entry_keys. cbv zeta.
  cbn [k_deet k_nbits k_ni k_gtyp k_nj k_datyp k_nk k_ubc k_npas k_pad7 k_ig4 k_ig2a k_ig1 k_ig2b k_ig3 k_ig2c k_etik15 k_pad1 k_etik6a k_pad2 k_etikbc k_typvar k_pad3 k_nomvar k_pad4 k_ip1 k_levtyp k_ip2 k_pad5 k_ip3 k_pad6 k_date].
  rewrite (Z.mod_small (a_deet a)), (Z.mod_small (a_npas a)) by lia. rewrite (proj2 (Z.leb_gt _ _)) by lia.
  rewrite (Z.mod_small (octal_date _)) by apply octal_range. eexists. split; [reflexivity|]. split; [cbn [d_datyp]; apply Z.mod_small; lia|]. split; [|reflexivity].
  unfold describes. cbn [d_dateo d_deet d_npas d_ni d_nj d_nk d_nbits d_datyp d_ip1 d_ip2 d_ip3 d_typvar d_nomvar d_etiket d_grtyp d_ig1 d_ig2 d_ig3 d_ig4 d_datev].
  rewrite (ig2_back (a_ig2 a) R7). rewrite !(Z.mod_small (a_ni a)), !(Z.mod_small (a_nj a)), !(Z.mod_small (Z.max 1 (a_nk a))), !(Z.mod_small (width a)), !(Z.mod_small t), !(Z.mod_small (a_ip1 a)), !(Z.mod_small (a_ip2 a)),
    !(Z.mod_small (a_ip3 a)), !(Z.mod_small (a_ig1 a)), !(Z.mod_small (a_ig3 a)), !(Z.mod_small (a_ig4 a)) by lia.
  rewrite (text_back (a_typvar a) 2 TT : unsix (_ mod 2 ^ 12) 2 = _), (text_back (a_nomvar a) 4 TN : unsix (_ mod 2 ^ 24) 4 = _), (etiket_back (a_etiket a) TE).
  assert (G : [nth 0 (padded 1 (a_grtyp a)) 0 mod 2 ^ 8] = blank_filled 1 (a_grtyp a)); [|rewrite G; split; [auto|]; split; [auto|]; split; [auto|]; split; [auto|]; split; [auto|]; split; [auto|exact DK]].
  rewrite blank_filled_padded. unfold blank_filled. cbn [seq map nth].
  assert (P : printable (nth 0 (a_grtyp a) 32)). { destruct (a_grtyp a) as [|c l]; [unfold printable; cbn; lia|]. inversion TG; subst. assumption. }
  unfold printable in P. rewrite Z.mod_small by lia. reflexivity.
Qed.

(** ** c_fstecr *)
Lemma step_put_fs s junk iun h buf c s1 : step (OpPut junk iun h buf) s = Some (c, s1) -> s_fs s1 = s_fs s.
Proof. cbn [step]. destruct (xdfput _ _ _ _ _) as [[[c0 w'] b']|]; [|discriminate]. cbn [bind]. intros H. injection H as _ <-. reflexivity. Qed.

Definition all_records : Z -> bool := fun _ => true.
Definition rewritten (a : fargs) (rewrit : bool) (i : nat) (f : fte) : option (nat * nat) := if rewrit then hd_error (found all_records (same_record a) i f) else None.

Lemma same_record_ok a : in_range a = true -> text_ok a -> query_ok (same_record a).
Proof.
  intros IR (T1 & T2 & T3 & _). destruct (in_range_facts a IR) as (_ & _ & _ & _ & _ & _ & _ & _ & _ & _ & R1 & R2 & R3).
  unfold query_ok, same_record. cbn [q_datev q_etiket q_ip1 q_ip2 q_ip3 q_typvar q_nomvar]. repeat split; try lia; assumption.
Qed.

Lemma fstecr_put orc junk iun a fld rewrit s s1 p i f : wf s -> opened s p i f -> std_file f -> f_iun f = iun -> args_ok a -> field_ok a fld -> space f a ->
  fstecr orc junk iun a fld rewrit s = Some (0, s1) ->
  in_range a = true /\ f_std f = true /\ f_ro f = false /\
  exists buf x handle s0, buffer_of orc iun a fld buf x /\ after_search s i f s0 /\ step (OpPut junk iun handle buf) s0 = Some (0, s1) /\ ok_op s0 (OpPut junk iun handle buf) /\
    handle = match rewritten a rewrit i f with Some (k, r) => rec_handle i k r | None => 0 end /\ (rewritten a rewrit i f <> None -> 0 < handle) /\
    (exists l, hist any s l s0).
Proof.
  intros W OP SF IU AO FO SP FE. pose proof OP as [P F]. unfold fstecr in FE. rewrite <- IU in FE. rewrite (file_index_of _ _ _ W F) in FE. rewrite F in FE. cbn [bind] in FE.
  destruct (f_std f) eqn:FS; [|discriminate]. cbn [negb] in FE. destruct (f_ro f) eqn:RO; [discriminate|]. destruct (in_range a) eqn:IR; [|discriminate]. cbn [negb] in FE.
  split; [reflexivity|]. split; [reflexivity|]. split; [reflexivity|].
  fold (field_size a) in FE. cbv zeta in FE.
  destruct (Z.leb_spec (2 ^ 31) (field_size a * valid_bits (a_npak a) (a_datyp a))) as [|B1]; [discriminate|]. destruct (Z.ltb_spec MAX_RECORD_LENGTH (field_size a * valid_bits (a_npak a) (a_datyp a) / 32)) as [|B2]; [discriminate|].
  destruct (fst_buffer _ _ _ _ _ _ _) as [buf|] eqn:FB; [|discriminate]. cbn [bind] in FE. destruct SF as (KP & PL & IL). rewrite PL, IL in FB.
  destruct SP as [SP SP2]. destruct (fst_buffer_ok orc junk (f_iun f) a fld buf IR (proj1 AO) FO B2 SP2 FB) as (x & BO). rewrite IU in *.
  assert (SF : std_file f) by (split; auto).
  assert (TEXT : text_ok a) by apply AO.
  (* the search *)
  assert (SRCH : exists handle s0, after_search s i f s0 /\ step (OpPut junk iun handle buf) s0 = Some (0, s1) /\
     handle = match rewritten a rewrit i f with Some (k, r) => rec_handle i k r | None => 0 end /\ (rewritten a rewrit i f <> None -> 0 < handle) /\ exists l, hist any s l s0).
  { destruct rewrit; cycle 1.
    - cbn [bind] in FE. exists 0, s. split; [apply after_search_refl; assumption|]. split; [exact FE|]. split; [reflexivity|]. split; [intros X; exfalso; apply X; reflexivity|]. exists []. constructor.
    - fold (same_record a) in FE. change (fun _ : Z => true) with all_records in FE.
      destruct (search_lists true junk all_records (same_record a) s p i f W OP SF (same_record_ok a IR TEXT) (or_introl eq_refl)) as (s2 & L & _). rewrite IU in L.
      unfold rewritten. destruct (found all_records (same_record a) i f) as [|[k r] rest] eqn:FD; cbn [map hd_error fst snd] in *.
      + inversion L as [s0 h s' C E1 E2 E3|]; subst. unfold fst_call in C. cbn [Z.eqb] in C. rewrite C in FE. cbn [bind] in FE. cbn [Z.ltb Z.compare ERR_NOT_FOUND] in FE.
        exists 0, s2. split; [|split; [exact FE|split; [reflexivity|split; [intros X; exfalso; apply X; reflexivity|]]]].
        * unfold fstinf, fstinfx in C. rewrite (file_index_of _ _ _ W F) in C. cbn [Z.ltb Z.compare andb] in C. unfold fst_loc in C. cbn [Z.eqb Pos.eqb] in C.
          destruct (step _ s) as [[h s3]|] eqn:ST in C; [|discriminate]. cbn [bind] in C.
          assert (s3 = s2) as <-. { destruct (h <? 0); [congruence|]. destruct (dims _ _); [|discriminate]. cbn [bind] in C. discriminate. }
          eapply loc_after; [reflexivity|exact F|exact W|apply after_search_refl; assumption|exact ST].
        * unfold fstinf, fstinfx in C. rewrite (file_index_of _ _ _ W F) in C. cbn [Z.ltb Z.compare andb] in C. unfold fst_loc in C. cbn [Z.eqb Pos.eqb] in C.
          destruct (step _ s) as [[h s3]|] eqn:ST in C; [|discriminate]. cbn [bind] in C.
          assert (s3 = s2) as <-. { destruct (h <? 0); [congruence|]. destruct (dims _ _); [|discriminate]. cbn [bind] in C. discriminate. }
          eexists. eapply hist_cons; [|exact Logic.I|exact ST|constructor]; exact Logic.I.
      + inversion L as [|s0 h h' d s' l s'' C HP L' E1 E2 E3 E4]; subst. unfold fst_call in C. cbn [Z.eqb] in C. rewrite C in FE. cbn [bind] in FE. rewrite (proj2 (Z.ltb_ge _ 0)) in FE by lia.
        exists (rec_handle i k r), s'. unfold fstinf, fstinfx in C. rewrite (file_index_of _ _ _ W F) in C. cbn [Z.ltb Z.compare andb] in C. unfold fst_loc in C. cbn [Z.eqb Pos.eqb] in C.
        destruct (step _ s) as [[h s3]|] eqn:ST in C; [|discriminate]. cbn [bind] in C.
        assert (s3 = s') as ->. { destruct (h <? 0); [congruence|]. destruct (dims _ _); [|discriminate]. cbn [bind] in C. congruence. }
        split; [eapply loc_after; [reflexivity|exact F|exact W|apply after_search_refl; assumption|exact ST]|]. split; [exact FE|]. split; [reflexivity|]. split; [intros _; exact HP|].
        eexists. eapply hist_cons; [|exact Logic.I|exact ST|constructor]; exact Logic.I. }
  destruct SRCH as (handle & s0 & AS & ST & HE & HR & HI). exists buf, x, handle, s0. split; [exact BO|]. split; [exact AS|]. split; [exact ST|].
  split; [|auto]. split; [apply BO|]. intros i0 f0 FX0 F0.
  destruct AS as (W0 & _ & FS0 & _ & g & G & LG). destruct (file_index_own _ _ _ FX0) as (f0' & F0' & IU0 & _). assert (f0' = f0) as -> by congruence.
  assert (i0 = i) as ->. { apply (wf_iun _ W0 i0 i f0 g F0 G). rewrite IU0. destruct LG as (_&_&_&_&_&_&->&_&_). congruence. }
  assert (f0 = g) as -> by congruence. split.
  - rewrite (bo_words _ _ _ _ _ _ BO). unfold room, fsize. destruct LG as (LP&LD&LH&LK&LPL&_). unfold room, fsize in SP. rewrite LPL, LH. destruct (packs_words _ _ _ _ (bo_packs _ _ _ _ _ _ BO)) as (_ & _ & NW & _). lia.
  - intros HZ _. rewrite HE in HZ |- *. destruct (rewritten a rewrit i f) as [[k r]|] eqn:RW; [|contradiction].
    assert (IN : In (k, r) (positions (page_sizes f))).
    { unfold rewritten in RW. destruct rewrit; [|discriminate]. apply (found_positions all_records (same_record a) i). destruct (found _ _ _ _); [discriminate|]. cbn in RW. injection RW as ->. left. reflexivity. }
    pose proof (proj1 (positions_ent f k r (fo_inv _ (wf_fok _ W i f F))) IN) as E.
    destruct (rec_handle_ent _ _ _ _ _ _ _ W P F E) as (H1 & H2 & H3 & H4). rewrite Z.abs_eq by lia. intros pg PG. rewrite H2, H3 in *. destruct LG as (LP & _). rewrite LP in PG.
    destruct (ent_inv _ _ _ _ E) as (pg' & PG' & R & _). assert (pg' = pg) as -> by congruence. lia.
Qed.
