(** Reading back a record of a standard file. *)
From Coq Require Import ZArith List Lia Bool.
From Verif Require Import Bits BitIO SpecPack CompactInt CompactIntMain CompactIntMain3 Handles WaFile Xdf XdfLib XdfInv XdfDel XdfPut XdfPut2 XdfPut3 XdfPut4 XdfKeysThm XdfOpen XdfSearch XdfAbs XdfHist XdfSys XdfSys2 XdfSpec XdfThm XdfThm2 XdfThm3 Fst FstSpec FstPack FstFacts FstSearch FstThm FstThm2.
Import ListNotations.
Open Scope Z_scope.
Open Scope opt_scope.

Lemma range_sub d i n a m : (a + m <= n)%nat -> range d (i + a) m = firstn m (skipn a (range d i n)).
Proof.
  intros H. unfold range. rewrite skipn_firstn_comm. rewrite firstn_firstn. rewrite Nat.min_l by lia. f_equal.
  revert d. induction i as [|i IH]; intros d; [reflexivity|]. destruct d as [|x d]; cbn [skipn Nat.add]; [destruct a; reflexivity|apply IH].
Qed.

(** c_xdfget without the keys. *)
Lemma xdfget_nokeys w h f e ws buf : w_file w (hidx w h) = Some f -> finv f -> abs f (hpage h) (hrec h) = Some (Some (e, ws)) ->
  b_nbits buf = 2 ^ 32 - 1 -> s32 (b_nwords buf) < 0 -> 2 * e_lng e <= - s32 (b_nwords buf) -> (Z.to_nat (2 * e_lng e) <= length (b_data buf))%nat ->
  2 * Z.of_nat (f_plen f + f_ilen f) < 2 * e_lng e ->
  exists b, xdfget w h buf = Some (0, b) /\ exists rest, b_data b = skipn (2 * (f_plen f + f_ilen f)) ws ++ rest /\
    length (b_data b) = length (b_data buf) /\ (all_words (b_data buf) -> all_words rest).
Proof.
  intros F FI A NB NW T1 T3 OFF. pose proof FI as [G I]. apply abs_live in A. destruct A as (E & L & D).
  destruct (ent_inv _ _ _ _ E) as (p & P & R & EP). destruct (rec_ext_bound _ _ _ _ _ G E) as (X1 & X2 & X3).
  pose proof (g_size _ _ G) as SZ. fold (fsize f) in SZ.
  assert (LW : length ws = Z.to_nat (2 * e_lng e)).
  { rewrite <- D. unfold rec_data, range. rewrite firstn_length, skipn_length. unfold dsize in SZ. lia. }
  unfold xdfget. rewrite F, (locate_own _ _ _ _ _ G).
  rewrite (proj2 (Nat.ltb_lt _ _)) by (apply nth_error_Some; congruence). cbn [fst]. rewrite F. cbn [bind].
  rewrite (entry_of_own _ _ _ _ _ _ F P), (proj2 (Z.ltb_ge _ _)) by lia. rewrite EP.
  destruct (live_facts e L) as [-> ->]. cbv zeta.
  rewrite (proj2 (Z.ltb_lt (s32 (b_nwords buf)) 0)) by exact NW. rewrite NB, Z.eqb_refl. cbn [andb negb].
  rewrite (proj2 (Z.ltb_ge (Z.abs (s32 (b_nwords buf)) + 1) (2 * e_lng e))) by lia. rewrite (proj2 (Nat.ltb_ge _ _)) by exact T3.
  set (o := 2 * Z.of_nat (f_plen f + f_ilen f)) in *. assert (OP : 0 <= o) by (unfold o; lia).
  rewrite (waread_plain (f_disk f)) by lia. cbn [bind fst snd]. rewrite Z.eqb_refl. eexists. split; [reflexivity|]. cbn [b_data].
  replace (Z.to_nat (2 * (e_addr e - 1) + 1 + o - 1)) with (Z.to_nat (2 * (e_addr e - 1)) + Z.to_nat o)%nat by lia.
  rewrite (range_sub (f_disk f) _ (Z.to_nat (2 * e_lng e))) by lia. fold (rec_data f e). rewrite D.
  rewrite firstn_all2 by (rewrite skipn_length; lia). replace (Z.to_nat o) with (2 * (f_plen f + f_ilen f))%nat by (unfold o; lia). eexists. split; [reflexivity|]. split; [rewrite ?app_length, ?skipn_length, ?app_length, ?repeat_length, ?skipn_length; lia|].
  intros AW. assert (SK : forall n (l : list Z), all_words l -> all_words (skipn n l)).
  { intros n l AL. apply Forall_forall. intros x X. unfold all_words in AL. rewrite Forall_forall in AL. apply AL. rewrite <- (firstn_skipn n l). apply in_or_app. right. exact X. }
  apply SK. apply Forall_app. split; [|apply SK, AW]. apply Forall_forall. intros x X. apply repeat_spec in X. subst x. split; [apply Z.le_refl|reflexivity].
Qed.
Lemma aux_words_at w h f e ws : w_file w (hidx w h) = Some f -> finv f -> abs f (hpage h) (hrec h) = Some (Some (e, ws)) ->
  f_plen f = 9%nat -> f_ilen f = 1%nat -> 20 <= 2 * e_lng e -> aux_words w h = Some (firstn 2 (skipn 18 ws)).
Proof.
  intros F FI A PL IL LN. pose proof FI as [G I]. apply abs_live in A. destruct A as (E & L & D).
  destruct (ent_inv _ _ _ _ E) as (p & P & R & EP). destruct (rec_ext_bound _ _ _ _ _ G E) as (X1 & X2 & X3).
  pose proof (g_size _ _ G) as SZ. fold (fsize f) in SZ.
  unfold aux_words. rewrite F. cbn [bind]. rewrite (locate_own _ _ _ _ _ G).
  rewrite (proj2 (Nat.ltb_lt _ _)) by (apply nth_error_Some; congruence). cbn [fst]. rewrite F. cbn [bind].
  rewrite (entry_of_own _ _ _ _ _ _ F P), (proj2 (Z.ltb_ge _ _)) by lia. rewrite EP. cbn [bind]. rewrite PL, IL. change (2 * Z.of_nat 9) with 18. change (2 * Z.of_nat 1) with 2.
  rewrite (waread_plain (f_disk f)) by lia. cbn [bind]. replace (Z.to_nat (2 * (e_addr e - 1) + 1 + 18 - 1)) with (Z.to_nat (2 * (e_addr e - 1)) + 18)%nat by lia. change (Z.to_nat 2) with 2%nat.
  rewrite (range_sub (f_disk f) _ (Z.to_nat (2 * e_lng e))) by lia. fold (rec_data f e). rewrite D. reflexivity.
Qed.

Lemma zips_kind a : zips a = true -> kind a = 1 \/ kind a = 2.
Proof.
  unfold zips, kind, stored_type. destruct (plain _); [discriminate|]. cbn [negb andb]. rewrite andb_true_iff, orb_true_iff, !Z.eqb_eq. intros [[-> | ->] _]; [left|right]; reflexivity.
Qed.
Lemma legible_good a fld d datyp x : (p_type x = kind a \/ zips a = true /\ p_type x = 128 + kind a) -> In (kind a) [0; 1; 2; 4; 5; 6] -> compressed datyp = zips a -> (zips a = true -> datyp = 128 + kind a) ->
  in_range a = true -> legible a fld d -> d_datyp d = p_type x -> legible_as datyp (p_type x) (width a) (Z.to_nat (field_size a)) (Z.to_nat (Z.max 1 (a_nk a))) fld.
Proof.
  intros PT K C D IR [L1 L2] DT. cbn [In] in K. split.
  - intros E. assert (ZA : zips a = true) by (destruct PT as [PT|[PT _]]; [lia|exact PT]). destruct (L1 ZA ltac:(lia) ltac:(lia)) as [A B]. split; [exact A|]. rewrite Z.max_l by exact B. reflexivity.
  - intros ->. assert (ZA : zips a = true) by (rewrite <- C; reflexivity). specialize (D ZA). destruct (L2 ZA ltac:(lia)) as (A & B & V). split; [lia|]. split; [rewrite Z.max_l by exact B; reflexivity|exact V].
Qed.

Lemma luk_of_written orc a fld rewrit s p i f s1 k r e x d : in_range a = true -> field_ok a fld -> field_fits a fld -> written orc a fld rewrit s p i f s1 k r e x -> d_datyp d = p_type x -> legible a fld d ->
  forall junk' l s2 j g dst, hist (spares p k r) s1 l s2 -> opened s2 p j g -> std_file g -> dst_ok a dst ->
    exists dst', fstluk orc junk' (s_w s2) (rec_handle j k r) dst = Some (rec_handle j k r, Some (a_ni a, a_nj a, Z.max 1 (a_nk a)), dst') /\ reads_field a fld dst dst'.
Proof.
  intros IR FO FF WR DT LE junk' l s2 j g dst H OP2 (KG & PL & IL) [DO1 DO2]. destruct (written_later _ _ _ _ _ _ _ _ _ _ _ _ _ _ _ _ _ WR H OP2) as (W2 & E & S2). destruct OP2 as [P2 G].
  destruct (in_range_facts a IR) as (R1 & R2 & R3 & R4 & R5 & RB & _). rewrite ask_asked in RB. destruct (size_nat a IR) as [SN1 SN2].
  assert (WB : 1 <= width a <= 64) by (unfold width, stored_bits; destruct (_ || _); lia).
  destruct (wr_new _ _ _ _ _ _ _ _ _ _ _ _ _ WR) as (hd & addr & SA). rewrite <- S2 in SA. rewrite (sabs_open _ _ _ _ P2 G) in SA.
  pose proof (fo_inv _ (wf_fok _ W2 j g G)) as FI. destruct (rec_handle_ent _ _ _ _ _ _ _ W2 P2 G E) as (H1 & H2 & H3 & H4).
  pose proof (wr_lng _ _ _ _ _ _ _ _ _ _ _ _ _ WR) as LN. pose proof (wr_packs _ _ _ _ _ _ _ _ _ _ _ _ _ WR) as PK.
  destruct (packs_words _ _ _ _ PK) as (LD & WD & NW & _). pose proof (packs_type _ _ _ _ PK) as PT. destruct PK as [(datyp & GD & CD & ZD) KI [B1 B2]].
  assert (KL : length (args_keys a (p_type x)) = 16%nat) by apply key_words_length.
  set (ws := hd :: addr :: args_keys a (p_type x) ++ [0; 0] ++ firstn (Z.to_nat (p_nw x)) (p_dat x)) in *.
  assert (LB : 2 * e_lng e < 2 ^ 25) by (pose proof (w_lng_range (nth 0 e 0)) as X; fold (e_lng e) in X; lia).
  assert (SW : skipn 20 ws = firstn (Z.to_nat (p_nw x)) (p_dat x)).
  { change (skipn 20 ws) with (skipn 18 (args_keys a (p_type x) ++ [0; 0] ++ firstn (Z.to_nat (p_nw x)) (p_dat x))). rewrite skipn_app, KL. rewrite skipn_all2 by lia. reflexivity. }
  assert (SX : firstn 2 (skipn 18 ws) = [0; 0]).
  { change (skipn 18 ws) with (skipn 16 (args_keys a (p_type x) ++ [0; 0] ++ firstn (Z.to_nat (p_nw x)) (p_dat x))). rewrite skipn_app, KL. rewrite skipn_all2 by lia. reflexivity. }
  assert (T8 : In (p_type x) [0; 1; 2; 4; 5; 6; 129; 130]).
  { destruct PT as [-> |[ZA ->]]; [cbn [In] in *; tauto|]. destruct (zips_kind a ZA) as [-> | ->]; cbn; tauto. }
  assert (TL : Z.land (p_type x) 64 = 0 /\ Z.land (p_type x) 0xBF = p_type x /\ 0 <= p_type x < 256 /\ (p_type x =? 133) = false /\ (p_type x =? 134) = false).
  { cbn [In] in T8. repeat (destruct T8 as [<-|T8]; [repeat split; reflexivity || lia|]). destruct T8. }
  destruct TL as (TL1 & TL2 & TL3 & TL4 & TL5).
  assert (FSZ : 1 <= field_size a) by (unfold field_size; nia).
  assert (T6 : p_type x = 6 -> kind a = 6) by (destruct PT as [PT|[ZA PT]]; cbn [In] in KI; lia). assert (TZ : 128 < p_type x -> zips a = true) by (destruct PT as [PT|[ZA PT]]; [cbn [In] in KI; lia|auto]).
  set (lw := luk_words (p_type x) (field_size a) (2 * e_lng e)).
  assert (LWB : 20 + p_nw x <= lw + 2).
  { unfold lw, luk_words. destruct (Z.eqb_spec (p_type x) 6) as [C6|C6]; [|destruct (Z.ltb_spec 128 (p_type x)) as [CZ|CZ]; [|lia]].
    - specialize (T6 C6). unfold field_words in NW. rewrite T6 in NW. cbn [Z.eqb Pos.eqb] in NW. clear - NW FSZ. set (n := field_size a) in *. clearbody n. Z.div_mod_to_equations; lia.
    - specialize (TZ CZ). unfold field_words in NW. rewrite TZ in NW. destruct (zips_kind a TZ) as [K|K]; rewrite K in NW; cbn [Z.eqb Pos.eqb] in NW; clear - NW FSZ; set (n := field_size a) in *; clearbody n; Z.div_mod_to_equations; lia. }
  unfold fstluk. rewrite (xdfprm_entry _ _ _ _ _ _ _ W2 P2 G KG E). cbn [bind]. cbv zeta. rewrite (wr_entry _ _ _ _ _ _ _ _ _ _ _ _ _ WR).
  assert (KE : keys_of (args_keys a (p_type x)) = norm (entry_keys a (p_type x) (width a))) by apply keys_round. rewrite KE. unfold norm, entry_keys. cbv zeta. cbn [k_ni k_nj k_nk k_nbits k_datyp].
  rewrite !(Z.mod_small (a_ni a)), !(Z.mod_small (a_nj a)), !(Z.mod_small (Z.max 1 (a_nk a))), !(Z.mod_small (width a)), !(Z.mod_small (p_type x)) by lia.
  fold (field_size a). rewrite TL1, TL2, TL4, TL5. cbn [Z.eqb negb orb]. fold lw.
  assert (OV : (2 ^ 31 <=? (if (p_type x =? 6) || (128 <? p_type x) then field_size a * 16 + 63 else field_size a * width a)) = false).
  { apply Z.leb_gt. destruct ((p_type x =? 6) || (128 <? p_type x)) eqn:C; [|lia]. apply B2. apply orb_true_iff in C. rewrite Z.eqb_eq, Z.ltb_lt in C. tauto. }
  rewrite OV. cbn [orb].
  destruct (xdfget_nokeys (s_w s2) (rec_handle j k r) g e ws (mkbuf (w32 (- (2 * e_lng e + 10))) (2 ^ 32 - 1) 0 0 0 0 (repeat 0 (Z.to_nat lw + 2)))) as (bb & GB & rest & BD & BL & BW).
  { rewrite H1. exact G. } { exact FI. } { rewrite H2, H3. exact SA. } { reflexivity. }
  { cbn [b_nwords]. unfold w32, s32. rewrite <- (Z.mod_unique_pos (- (2 * e_lng e + 10)) (2 ^ 32) (-1) (2 ^ 32 - (2 * e_lng e + 10))) by lia. rewrite (proj2 (Z.ltb_ge _ _)) by lia. lia. }
  { cbn [b_nwords]. unfold w32, s32. rewrite <- (Z.mod_unique_pos (- (2 * e_lng e + 10)) (2 ^ 32) (-1) (2 ^ 32 - (2 * e_lng e + 10))) by lia. rewrite (proj2 (Z.ltb_ge _ _)) by lia. lia. }
  { cbn [b_data]. rewrite repeat_length. lia. } { rewrite PL, IL. lia. }
  rewrite PL, IL in BD. change (2 * (9 + 1))%nat with 20%nat in BD. rewrite SW in BD. cbn [b_data] in BL, BW. rewrite repeat_length in BL.
  assert (WS : words_ok (b_data bb)).
  { rewrite BD. apply words_app; [apply words_firstn; exact WD|]. apply BW. apply words_zeros. }
  assert (LFN : length (firstn (Z.to_nat (p_nw x)) (p_dat x)) = Z.to_nat (p_nw x)) by (rewrite firstn_length; lia).
  assert (FE : firstn (Z.to_nat (p_nw x)) (b_data bb) = firstn (Z.to_nat (p_nw x)) (p_dat x)) by (rewrite BD, firstn_app, LFN, Nat.sub_diag, firstn_O, app_nil_r, firstn_firstn, Nat.min_id; reflexivity).
  pose proof (g_read _ _ _ _ _ _ _ _ _ _ _ _ GD) as GR. cbv zeta in GR. rewrite SN1, SN2 in GR.
  destruct (GR junk' (b_data bb) dst WS FE ltac:(rewrite BL, <- LN; reflexivity) DO1 DO2 FF (legible_good a fld d datyp x PT KI CD ZD IR LE DT)) as (dst' & UN & RF).
  rewrite GB. cbn [bind Z.ltb Z.compare].
  rewrite (aux_words_at (s_w s2) (rec_handle j k r) g e ws); [|rewrite H1; exact G|exact FI|rewrite H2, H3; exact SA|exact PL|exact IL|lia]. rewrite SX. cbn [bind length Nat.leb negb nth Z.eqb andb].
  rewrite UN. cbn [bind]. exists dst'. split; [reflexivity|]. unfold reads_field, reads_as in *. rewrite Z2Nat.id in RF by lia. exact RF.
Qed.
