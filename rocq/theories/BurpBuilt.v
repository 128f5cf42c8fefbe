(** Every report built by the functions has the layout, the blocks and the
    header that it should. *)
From Coq Require Import ZArith List Lia Bool.
From Verif Require Import Bits BitIO CompactInt SpecPack Handles WaFile Xdf XdfLib XdfEnum XdfKeys XdfKeysFacts XdfKeysThm XdfBuf XdfBufSpec XdfBufFacts Fst Burp Burp2 BurpKeys BurpFile BurpBuf BurpSpec BurpUse BurpPack BurpInv BurpEdit BurpEdit2 BurpEdit3 BurpHead.
Import ListNotations.
Open Scope Z_scope.
Open Scope opt_scope.

Lemma write_keys_words f mask d keys nk info ni d2 : as_generic (f_kp f) (prim_fields (f_hdr f)) -> write_keys f mask d keys nk info ni = Some d2 -> all_words d -> all_words d2.
Proof.
  intros KP H W. unfold write_keys in H. rewrite (proj1 (KP _ eq_refl)) in H.
  destruct (if 0 <? nk then _ else _) as [d1|] eqn:E1; [|discriminate]. cbn [bind] in H.
  assert (W1 : all_words d1).
  { destruct (0 <? nk); [|congruence]. destruct (gen_write _ _ _ _ _) as [[dd mm]|] eqn:GW; [|discriminate]. cbn [bind fst] in E1. assert (dd = d1) as <- by congruence.
    destruct (gen_write_inv _ _ _ _ _ _ _ GW) as (L1 & _ & m0 & b & m1 & _ & B & _ & -> & _). apply all_words_app. split; [apply all_words_firstn; exact W|].
    eapply each_key_words; [|exact B|apply all_words_skipn; exact W]. intros. apply set_field_word. assumption. }
  destruct (0 <? ni); [|congruence]. destruct (_ <? _)%nat; [discriminate|]. destruct (info_write _ _ _) as [x|] eqn:EI; [|discriminate]. cbn [bind] in H. assert (d2 = firstn (2 * f_plen f) d1 ++ x) as -> by congruence.
  apply all_words_app. split; [apply all_words_firstn; exact W1|]. eapply each_key_words; [|exact EI|apply all_words_skipn; exact W1]. intros. apply set_field_word. assumption.
Qed.

Lemma head_keys_length h : length (head_keys h) = 18%nat.
Proof. unfold head_keys. rewrite app_length, map_length. fold (nine (rh_stnid h)). rewrite nine_length. reflexivity. Qed.
Lemma update_keys_length h : length (update_keys h) = 18%nat.
Proof. unfold update_keys. rewrite app_length, !map_length. fold (nine (rh_stnid h)). rewrite nine_length. reflexivity. Qed.

Lemma burp_write_total f mask d keys info : burp_file f -> length keys = 18%nat -> length info = 5%nat -> (10 <= length d)%nat -> exists d2, write_keys f mask d keys 18 info 5 = Some d2.
Proof.
  intros BF LK LI LD. pose proof (burp_as_generic f BF) as AG. destruct BF as (KP & PL & IL & PF & IF). unfold write_keys. rewrite (proj1 (AG _ eq_refl)). change (0 <? 18) with true. change (0 <? 5) with true. cbv iota.
  unfold gen_write. rewrite PF. rewrite (proj2 (Nat.ltb_ge _ _)) by lia. rewrite (proj2 (Nat.ltb_ge (length (map mask _)) _)) by (rewrite map_length, seq_length; unfold MAX_PRIMARY_LNG; lia). cbn [orb].
  set (m := skipn 2 (map mask (seq 0 MAX_PRIMARY_LNG))). assert (LM : (6 <= length m)%nat) by (unfold m; rewrite skipn_length, map_length, seq_length; unfold MAX_PRIMARY_LNG; lia).
  assert (CM : exists m0, clear_mask burp_fields m = Some m0 /\ length m0 = length m).
  { unfold clear_mask, burp_fields. cbn [last fd_w]. rewrite (proj2 (Nat.ltb_lt _ _)) by lia. cbn [orb]. eexists. split; [reflexivity|]. rewrite map_length, seq_length. reflexivity. }
  destruct CM as (m0 & -> & LM0). cbn [bind]. pose proof prim_w as PW. rewrite Forall_forall in PW.
  destruct (each_key_total set_field burp_fields keys (skipn 2 d)) as (b & EB). { rewrite LK. reflexivity. } { apply Forall_forall. intros x X. pose proof (PW x X). cbn beta in *. rewrite skipn_length. lia. }
  rewrite EB. cbn [bind]. destruct (each_key_total (fun f w _ => set_mask f w) burp_fields keys m0) as (b2 & ->). { rewrite LK. reflexivity. } { apply Forall_forall. intros x X. pose proof (PW x X). cbn beta in *. lia. }
  cbn [bind fst]. pose proof (each_key_length _ _ _ _ _ EB) as LB. rewrite skipn_length in LB. rewrite PL. rewrite (proj2 (Nat.ltb_ge _ _)) by (rewrite app_length, firstn_length; lia).
  unfold info_write. rewrite IF. destruct (each_key_total set_field burp_info info (skipn (2 * 4) (firstn 2 d ++ b))) as (x & ->). { rewrite LI. reflexivity. }
  { pose proof info_w as IW. rewrite Forall_forall in IW. apply Forall_forall. intros x X. pose proof (IW x X). cbn beta in *. rewrite skipn_length, app_length, firstn_length. lia. }
  cbn [bind]. eexists. reflexivity.
Qed.

Lemma burp_write_spec f mask d keys info d2 : burp_file f -> (10 <= length d)%nat -> write_keys f mask d keys 18 info 5 = Some d2 ->
  length d2 = length d /\ (all_words d -> all_words d2) /\
  nth 0 d2 0 = nth 0 d 0 /\
  map (key_in d2) burp_fields = map (fun fk => after_write (fst fk) (snd fk) (key_in d (fst fk))) (combine burp_fields keys) /\
  map (info_in 4 d2) burp_info = map (fun fk => after_write (fst fk) (snd fk) (info_in 4 d (fst fk))) (combine burp_info info) /\
  (all_words d -> skipn 10 d2 = skipn 10 d).
Proof.
  intros BF LD WK. pose proof (burp_as_generic f BF) as AG. pose proof BF as (KP & PL & IL & PF & IF).
  destruct (write_keys_spec f mask d keys 18 info 5 d2 AG) as (E1 & E2 & E3 & E4 & E5); [lia|unfold nkeys; rewrite PF, PL; apply burp_layout|rewrite IF, IL; apply burp_info_layout|lia|exact WK|].
  rewrite PF in E3, E5. rewrite IF, PL in E4. rewrite IF, PL in E5. cbn [new_keys] in E3, E4. change (0 <? 18) with true in E3. change (0 <? 5) with true in E4. cbn [new_keys] in E3, E4.
  split; [exact E1|]. split; [intros W; apply (write_keys_words _ _ _ _ _ _ _ _ AG WK W)|]. split; [rewrite <- (nth_firstn_d 2 d2) by lia; rewrite E2; apply nth_firstn_d; lia|]. split; [exact E3|]. split; [exact E4|].
  intros W. pose proof (write_keys_words _ _ _ _ _ _ _ _ AG WK W) as W2. apply (nth_ext _ _ 0 0); [rewrite !skipn_length; lia|]. intros j J. rewrite !XdfKeysThm.nth_skipn_d.
  apply Z.bits_inj'. intros b B. destruct (Z.lt_ge_cases b 32) as [B2|B2].
  - apply E5; [lia| |].
    + intros i x k _ I _ _ [Q _]. pose proof prim_w as PW. rewrite Forall_forall in PW. pose proof (PW x (nth_error_In _ _ I)). cbn beta in *. lia.
    + intros i x k _ I _ _ [Q _]. pose proof info_w as PW. rewrite Forall_forall in PW. pose proof (PW x (nth_error_In _ _ I)). cbn beta in *. lia.
  - assert (HB : forall l, all_words l -> Z.testbit (nth (10 + j) l 0) b = false).
    { intros l WL. pose proof (all_words_nth l (10 + j) WL) as [X Y]. destruct (Z.eq_dec (nth (10 + j) l 0) 0) as [->|N]; [apply Z.testbit_0_l|]. apply Z.bits_above_log2; [lia|]. apply Z.log2_lt_pow2; [lia|]. apply Z.lt_le_trans with (2 ^ 32); [exact Y|apply Z.pow_le_mono_r; lia]. }
    rewrite (HB _ W2), (HB _ W). reflexivity.
Qed.

Lemma split10 (d : list Z) : (10 <= length d)%nat -> d = firstn 10 d ++ skipn 10 d /\ length (firstn 10 d) = 10%nat.
Proof. intros L. split; [symmetry; apply firstn_skipn|rewrite firstn_length; lia]. Qed.
Lemma get_zero x : get_field x 0 = 0.
Proof. unfold get_field. rewrite Z.shiftr_0_l. apply Z.land_0_l. Qed.

(** ** New reports *)
Theorem ini_good orc w mask iun buf h i f : file_index w iun = Some i -> w_file w i = Some f -> burp_file f -> fresh buf ->
  exists r K, mrbini w mask iun buf h = Some (0, r) /\ good orc K r [] /\ khead K h /\ length (b_data (r_b r)) = length (b_data buf).
Proof.
  intros FX F BF [NW LD]. unfold mrbini, xdfini. rewrite FX, F. cbn [bind].
  assert (S : s32 (b_nwords buf) = b_nwords buf) by (unfold s32; rewrite (proj2 (Z.ltb_lt _ _)) by lia; reflexivity). rewrite S.
  set (n := (Z.to_nat (b_nwords buf) - BUF_HDR)%nat). assert (EN : n = length (b_data buf)) by (unfold n, BUF_HDR; lia). rewrite EN, Nat.ltb_irrefl. rewrite (proj2 (Nat.ltb_ge _ _)) by (unfold BUF_HDR; lia). cbn [orb]. rewrite <- EN.
  change (1 <? 1) with false. change (126 <? 1) with false. cbn [orb]. cbv zeta. set (d0 := repeat 0 n ++ skipn n (b_data buf)). assert (E0 : d0 = repeat 0 n) by (unfold d0; rewrite EN, skipn_all, app_nil_r; reflexivity).
  assert (L0 : length d0 = n) by (rewrite E0; apply repeat_length). assert (N11 : (11 <= n)%nat) by (unfold n, BUF_HDR; lia). rewrite (proj2 (Nat.ltb_ge _ _)) by lia.
  set (d1 := upd d0 0 (mk_hd 1 (w_lng (nth 0 d0 0)))). assert (L1 : length d1 = n) by (unfold d1; rewrite upd_length; exact L0).
  assert (Z1 : forall j, (1 <= j)%nat -> nth j d1 0 = 0). { intros j J. unfold d1. rewrite upd_nthd, (proj2 (Nat.eqb_neq j 0)) by lia. cbn [andb]. rewrite E0. destruct (Nat.lt_ge_cases j n); [apply nth_repeat|apply nth_overflow; rewrite repeat_length; lia]. }
  assert (W1 : all_words d1). { unfold d1. apply upd_words; [rewrite E0; apply Forall_forall; intros x X; apply repeat_spec in X; subst x; unfold word_ok; lia|]. unfold mk_hd, word_ok. pose proof (Z.mod_pos_bound (w_lng (nth 0 d0 0)) (2 ^ 24) ltac:(lia)). change (1 mod 256) with 1. lia. }
  destruct (burp_write_total f mask d1 (head_keys h) (head_info h) BF (head_keys_length h) eq_refl ltac:(lia)) as (d2 & WK). rewrite WK. cbn [bind fst snd].
  destruct (burp_write_spec f mask d1 _ _ d2 BF ltac:(lia) WK) as (L2 & W2 & H0 & K2 & I2 & _). specialize (W2 W1). destruct (split10 d2 ltac:(lia)) as [SP LK]. set (K := firstn 10 d2) in *.
  destruct BF as (_ & PL & IL & _). rewrite PL, IL. exists (mkrep (mkbuf (b_nwords buf) 320 10 0 iun 8 d2) 0 0), K. split; [reflexivity|]. split; [|split].
  - constructor; cbn [r_b b_data b_didx b_ridx b_nbits b_nwords r_nblk r_buf9 length].
    + exists (skipn 10 d2). split; [exact SP|]. intros Q. pose proof (f_equal (@length Z) Q) as Q2. rewrite skipn_length in Q2. cbn [length] in Q2. lia.
    + exact LK.
    + exact W2.
    + exact Logic.I.
    + reflexivity.
    + reflexivity.
    + reflexivity.
    + reflexivity.
    + reflexivity.
    + lia.
    + cbn. lia.
    + lia.
  - assert (T0 : w_idtyp (nth 0 K 0) = 1).
    { unfold K. rewrite nth_firstn_d by lia. rewrite H0. unfold d1. rewrite upd_nthd, Nat.eqb_refl, (proj2 (Nat.ltb_lt _ _)) by lia. cbn [andb]. rewrite hd_idtyp. reflexivity. }
    split; [|split; [|exact T0]].
    + rewrite <- (map_prefix K (skipn 10 d2) _ prim_w LK), <- SP, K2. apply map_ext_in. intros [x k] X. apply in_combine_l in X. cbn [fst snd]. f_equal. unfold key_in. rewrite Z1 by lia. apply get_zero.
    + rewrite <- (imap_prefix K (skipn 10 d2) _ tl_info_w LK), <- SP. unfold burp_info in I2. cbn [map head_info combine] in I2. unfold burp_info. cbn [tl map].
      assert (IZ : forall x, info_in 4 d1 x = 0) by (intros x; unfold info_in; rewrite Z1 by lia; apply get_zero). cbn [fst snd] in I2. rewrite !IZ in I2. unfold written, head_info. cbn [tl map combine fst snd]. congruence.
  - cbn [r_b b_data]. lia.
Qed.

(** ** The header changed *)
Lemma new_keys_other fs : forall keys u old, (length fs <= length keys)%nat -> (length fs <= length u)%nat -> map old fs = written fs keys ->
  map (fun fk => after_write (fst fk) (snd fk) (old (fst fk))) (combine fs u) = written fs (map (fun p => if snd p =? 2 ^ 32 - 1 then fst p else snd p) (combine keys u)).
Proof.
  induction fs as [|x fs IH]; intros [|k keys] [|v u] old L1 L2 E; cbn [length] in *; try lia; try reflexivity. unfold written in *. cbn [map combine fst snd] in *.
  assert (E1 : old x = after_write x k 0) by congruence. f_equal; [|apply IH; [lia|lia|congruence]]. unfold after_write at 1. destruct (Z.eqb_spec v (2 ^ 32 - 1)) as [->|N]; [exact E1|]. unfold after_write. rewrite (proj2 (Z.eqb_neq _ _) N). reflexivity.
Qed.
Lemma or_w32 n v old : 0 < n < 32 -> or_less (bits_ok n) v -> (if w32 v =? 2 ^ 32 - 1 then w32 old else w32 v) = w32 (other old v).
Proof.
  intros N [->|B]; [reflexivity|]. destruct (bits_w32 n v N B) as (E1 & E2 & _). unfold other. rewrite E1, (proj2 (Z.eqb_neq _ _) E2). destruct B. rewrite (proj2 (Z.eqb_neq v (-1))) by lia. symmetry. exact E1.
Qed.
Lemma updated_keys h u : update_fits u -> map (fun p => if snd p =? 2 ^ 32 - 1 then fst p else snd p) (combine (head_keys h) (update_keys u)) = head_keys (updated h u).
Proof.
  intros (C & T & F & I & LA & LO & DX & DY & EL & DR & OA & RU & DA). unfold head_keys, update_keys. fold (nine (rh_stnid h)) (nine (rh_stnid u)) (nine (rh_stnid (updated h u))).
  pose proof (nine_char _ C) as NC. pose proof (nine_length (rh_stnid u)) as NL. pose proof (nine_length (rh_stnid h)) as NH.
  assert (NU : nine (rh_stnid (updated h u)) = map (fun j => let c := nth j (nine (rh_stnid u)) 0 in if c =? 42 then nth j (nine (rh_stnid h)) 0 else c) (seq 0 9)) by reflexivity. rewrite NU. clear NU.
  destruct (nine (rh_stnid u)) as [|c1 [|c2 [|c3 [|c4 [|c5 [|c6 [|c7 [|c8 [|c9 [|]]]]]]]]]]; try discriminate NL. destruct (nine (rh_stnid h)) as [|e1 [|e2 [|e3 [|e4 [|e5 [|e6 [|e7 [|e8 [|e9 [|]]]]]]]]]]; try discriminate NH.
  assert (CH : forall c e, char_ok c -> (if (if c =? 42 then 2 ^ 32 - 1 else c) =? 2 ^ 32 - 1 then e else if c =? 42 then 2 ^ 32 - 1 else c) = (if c =? 42 then e else c)).
  { intros c e Q. destruct (Z.eqb_spec c 42) as [->|N]; [reflexivity|]. rewrite (proj2 (Z.eqb_neq c (2 ^ 32 - 1))) by (destruct Q; lia). reflexivity. }
  repeat match goal with H : Forall char_ok (_ :: _) |- _ => apply Forall_cons_iff in H; destruct H as [? ?] end.
  cbn [app map combine fst snd seq nth]. rewrite !CH by assumption.
  assert (DK : (if w32 (date_key (rh_date u)) =? 2 ^ 32 - 1 then w32 (date_key (rh_date h)) else w32 (date_key (rh_date u))) = w32 (date_key (other (rh_date h) (rh_date u)))).
  { unfold other. destruct DA as [->|DA]; [reflexivity|]. pose proof (key_date_fits _ DA) as KF. destruct (bits_w32 20 _ ltac:(lia) KF) as (E1 & E2 & _). rewrite E1, (proj2 (Z.eqb_neq _ _) E2). rewrite (proj2 (Z.eqb_neq _ (-1))) by (destruct DA as [DA _]; lia). symmetry. exact E1. }
  rewrite DK. rewrite (or_w32 24 (rh_flgs u)), (or_w32 16 (rh_lati u)), (or_w32 16 (rh_long u)), (or_w32 12 (rh_dx u)), (or_w32 8 (rh_idtyp u)), (or_w32 12 (rh_dy u)) by (lia || assumption).
  unfold updated. cbn [rh_flgs rh_lati rh_long rh_date rh_dx rh_idtyp rh_dy rh_temps].
  assert (TK : forall g, (g = (fun t => t / 100) \/ g = (fun t => t mod 100)) -> (if w32 (if rh_temps u =? -1 then -1 else g (rh_temps u)) =? 2 ^ 32 - 1 then w32 (if rh_temps h =? -1 then -1 else g (rh_temps h)) else w32 (if rh_temps u =? -1 then -1 else g (rh_temps u)))
     = w32 (if other (rh_temps h) (rh_temps u) =? -1 then -1 else g (other (rh_temps h) (rh_temps u)))).
  { intros g G. unfold other. destruct T as [T|[T1 T2]]; [rewrite T; reflexivity|]. assert (N1 : rh_temps u <> -1). { intros E. rewrite E in T1. unfold bits_ok in T1. change (-1 / 100) with (-1) in T1. lia. }
    rewrite (proj2 (Z.eqb_neq _ _) N1). rewrite (proj2 (Z.eqb_neq _ _) N1). destruct (bits_w32 6 (g (rh_temps u))) as (E1 & E2 & _); [lia|destruct G as [->| ->]; assumption|]. rewrite E1, (proj2 (Z.eqb_neq _ _) E2). reflexivity. }
  rewrite (TK (fun t => t / 100)) by (left; reflexivity). rewrite (TK (fun t => t mod 100)) by (right; reflexivity). reflexivity.
Qed.

Theorem upd_good orc w mask iun i f r its K h u r' : good orc K r its -> khead K h -> file_index w iun = Some i -> w_file w i = Some f -> burp_file f -> update_fits u ->
  mrbupd w mask iun r u = Some (0, r') -> exists K', good orc K' r' its /\ khead K' (updated h u) /\ length (b_data (r_b r')) = length (b_data (r_b r)).
Proof.
  intros G (KP & KI & KT) FX F BF UF H. unfold mrbupd, xdfupd in H. rewrite FX, F in H. cbn [bind] in H. change (1 <? 1) with false in H. change (126 <? 1) with false in H. cbn [andb orb] in H.
  pose proof (gd_words _ _ _ _ G) as W. pose proof (gd_K _ _ _ _ G) as LK. destruct (gd_data _ _ _ _ G) as (T & D & NT). set (b := r_b r) in *. set (R := heads its ++ segs its ++ T) in *.
  assert (LD : (11 <= length (b_data b))%nat) by (rewrite D; unfold R; rewrite !app_length; destruct T; [congruence|cbn [length]; lia]).
  rewrite (proj2 (Nat.ltb_ge _ _)) in H by lia. change (-1 <? 1) with true in H. cbv iota zeta in H. set (d1 := upd (b_data b) 0 (mk_hd 1 (w_lng (nth 0 (b_data b) 0)))) in *.
  assert (L1 : length d1 = length (b_data b)) by apply upd_length.
  assert (W1 : all_words d1). { unfold d1. apply upd_words; [exact W|]. unfold mk_hd, word_ok. pose proof (Z.mod_pos_bound (w_lng (nth 0 (b_data b) 0)) (2 ^ 24) ltac:(lia)). change (1 mod 256) with 1. lia. }
  destruct (write_keys f mask d1 (update_keys u) 18 (update_info (r_nblk r) u) 5) as [d2|] eqn:WK; [|discriminate]. cbn [bind fst snd] in H.
  destruct (burp_write_spec f mask d1 _ _ d2 BF ltac:(lia) WK) as (L2 & W2 & H0 & K2 & I2 & S2). specialize (W2 W1). specialize (S2 W1). destruct (split10 d2 ltac:(lia)) as [SP LK2]. set (K' := firstn 10 d2) in *.
  assert (ND : forall j, (1 <= j)%nat -> nth j d1 0 = nth j (b_data b) 0) by (intros j J; unfold d1; rewrite upd_nthd, (proj2 (Nat.eqb_neq j 0)) by lia; reflexivity).
  assert (S3 : skipn 10 d1 = R).
  { replace R with (skipn 10 (b_data b)) by (rewrite D, <- LK; apply skipn_app_len). apply (nth_ext _ _ 0 0); [rewrite !skipn_length; lia|]. intros j J. rewrite !XdfKeysThm.nth_skipn_d. apply ND. lia. }
  assert (ER : r' = with_buf r (mkbuf (b_nwords b) (b_nbits b) (b_didx b) (b_ridx b) iun (b_aidx b) d2)) by congruence. exists K'. rewrite ER. split; [|split].
  - destruct G as [G1 G2 G3 G4 G5 G6 G7 G8 G9 G10 G11 G12]. constructor; unfold with_buf; cbn [r_b b_data b_didx b_ridx b_nbits b_nwords r_nblk r_buf9]; try assumption.
    + exists T. split; [rewrite SP, S2, S3; reflexivity|exact NT].
    + rewrite L2, L1. exact G10.
    + rewrite L2, L1. exact G12.
  - assert (KD : forall x, key_in d1 x = key_in (b_data b) x) by (intros x; unfold key_in; rewrite ND by lia; reflexivity). assert (ID : forall x, info_in 4 d1 x = info_in 4 (b_data b) x) by (intros x; unfold info_in; rewrite ND by lia; reflexivity).
    assert (T0 : w_idtyp (nth 0 K' 0) = 1).
    { unfold K'. rewrite nth_firstn_d by lia. rewrite H0. unfold d1. rewrite upd_nthd, Nat.eqb_refl, (proj2 (Nat.ltb_lt _ _)) by lia. cbn [andb]. rewrite hd_idtyp. reflexivity. }
    split; [|split; [|exact T0]].
    + rewrite <- (map_prefix K' (skipn 10 d2) _ prim_w LK2), <- SP, K2, <- updated_keys by exact UF. apply new_keys_other; [rewrite head_keys_length; apply Nat.le_refl|rewrite update_keys_length; apply Nat.le_refl|].
      rewrite <- KP. rewrite (map_ext _ _ KD), D. apply (map_prefix _ _ _ prim_w LK).
    + rewrite <- (imap_prefix K' (skipn 10 d2) _ tl_info_w LK2), <- SP.
      assert (KI2 : map (info_in 4 d1) (tl burp_info) = written (tl burp_info) (tl (head_info h))). { rewrite <- KI. rewrite (map_ext _ _ ID), D. apply (imap_prefix _ _ _ tl_info_w LK). }
      destruct UF as (_ & _ & _ & _ & _ & _ & _ & _ & EL & DR & OA & RU & _).
      assert (IU : map (fun p => if snd p =? 2 ^ 32 - 1 then fst p else snd p) (combine (tl (head_info h)) (tl (update_info (r_nblk r) u))) = tl (head_info (updated h u))).
      { unfold head_info, update_info. cbn [tl map combine fst snd]. rewrite (or_w32 16 (rh_oars u)), (or_w32 13 (rh_elev u)), (or_w32 11 (rh_drcv u)), (or_w32 8 (rh_run u)) by (lia || assumption). reflexivity. }
      pose proof (new_keys_other (tl burp_info) (tl (head_info h)) (tl (update_info (r_nblk r) u)) (info_in 4 d1) (Nat.le_refl _) (Nat.le_refl _) KI2) as NK. rewrite IU in NK. rewrite <- NK.
      apply (f_equal (@tl Z)) in I2. exact I2.
  - unfold with_buf. cbn [r_b b_data]. lia.
Qed.

(** ** Copies *)
Theorem copy_good orc K r its h r' : good orc K r its -> khead K h -> copy_of r r' -> exists K', good orc K' r' its /\ khead K' h.
Proof.
  intros G (KP & KI & KT) (N8 & N9 & NB & DI & RI & WO & [LO HI] & NW & WD & W8 & T8). pose proof G as [(T & D & NT) LK GW GL GD GR GB GN G9 GS GU GN2].
  pose proof (segs_length _ _ _ GL) as LS. pose proof (heads_length _ _ _ GL) as LH. rewrite GB in LO, WD. set (n := length its) in *. set (u := units its) in *.
  assert (DV : 32 * Z.of_nat (10 + 4 * n + 2 * u) / 32 = Z.of_nat (10 + 4 * n + 2 * u)) by (rewrite Z.mul_comm; apply Z.div_mul; lia). rewrite DV in LO, WD. set (d' := b_data (r_b r')) in *. set (d := b_data (r_b r)) in *. set (m := (10 + 4 * n + 2 * u)%nat) in *.
  assert (WN : forall j, (2 <= j)%nat -> j <> 8%nat -> (j < m)%nat -> nth j d' 0 = nth j d 0) by (intros; apply WD; lia).
  destruct (split10 d' ltac:(lia)) as [SP LK2]. set (K' := firstn 10 d') in *.
  assert (S2 : skipn 10 d' = (heads its ++ segs its) ++ skipn m d').
  { rewrite <- (firstn_skipn (4 * n + 2 * u) (skipn 10 d')) at 1. rewrite skipn_skipn'. replace (10 + (4 * n + 2 * u))%nat with m by lia. f_equal.
    apply (nth_ext _ _ 0 0); [rewrite firstn_length, skipn_length, app_length; lia|]. intros j J. rewrite firstn_length, skipn_length in J. rewrite nth_firstn_d by lia. rewrite XdfKeysThm.nth_skipn_d.
    rewrite WN by lia. rewrite D, app_nth2 by lia. rewrite LK. replace (10 + j - 10)%nat with j by lia. rewrite app_assoc. rewrite app_nth1 by (rewrite app_length; lia). reflexivity. }
  exists K'. split; [|split; [|split]].
  - constructor; try assumption; try congruence.
    + exists (skipn m d'). split; [fold d'; rewrite SP at 1; rewrite S2, <- app_assoc; reflexivity|]. intros E. apply (f_equal (@length Z)) in E. rewrite skipn_length in E. cbn [length] in E. lia.
    + rewrite NB. exact GB.
    + rewrite N8. exact GN.
    + rewrite N9. exact G9.
    + fold d'. lia.
  - rewrite <- KP. rewrite <- (map_prefix K' (skipn 10 d') _ prim_w LK2), <- SP. rewrite <- (map_prefix K (heads its ++ segs its ++ T) _ prim_w LK), <- D. apply map_ext_in. intros x X.
    pose proof prim_w as PW. rewrite Forall_forall in PW. specialize (PW x X). cbn beta in PW. unfold key_in. rewrite WN by lia. reflexivity.
  - rewrite <- KI. rewrite <- (imap_prefix K' (skipn 10 d') _ tl_info_w LK2), <- SP. rewrite <- (imap_prefix K (heads its ++ segs its ++ T) _ tl_info_w LK), <- D.
    assert (I9 : nth 9 d' 0 = nth 9 d 0) by (apply WN; lia). unfold burp_info. cbn [tl map]. unfold info_in. cbn [fd_w Nat.mul Nat.add]. rewrite I9. f_equal.
    unfold get_field, fd_mask. cbn [fd_n fd_s]. rewrite !Z.shiftr_0_r. change (2 ^ 16 - 1) with (Z.ones 16). rewrite !Z.land_ones by lia. exact W8.
  - unfold K'. rewrite nth_firstn_d by lia. rewrite T8, <- KT, D, app_nth1 by lia. reflexivity.
Qed.

(** ** Reports made by the functions *)
Definition report_ok (orc : oracle) (h : rhead) (r : report) (ks : list block) : Prop := exists K its, good orc K r its /\ blks its = ks /\ khead K h.
Theorem built_ok orc h r ks : built orc h r ks -> report_ok orc h r ks.
Proof.
  induction 1 as [h w mask iun buf i f r FX F BF FR H|h junk r ks nele nval nt bfam bdesc btyp nbit datyp lst tbl k r' lst' B IH AC NK LN LP RM H|h r ks i k r' B IH E N3 H|h r ks i k tbl k' r' B IH E N3 WT WV LN LP RM H|h w mask iun i f r ks u r' B IH FX F BF UF H|h r ks r' B IH C].
  - destruct (ini_good orc w mask iun buf h i f FX F BF FR) as (r0 & K & E & G & KH & _). assert (r0 = r) as -> by congruence. exists K, []. auto.
  - destruct IH as (K & its & G & <- & KH). destruct (add_good orc junk K r its nele nval nt bfam bdesc btyp nbit datyp lst tbl k G AC NK LN LP RM) as (r0 & it & IK & E & G'). assert (r0 = r') as -> by congruence.
    exists K, (its ++ [it]). split; [exact G'|]. split; [unfold blks; rewrite map_app; cbn [map]; rewrite IK; reflexivity|exact KH].
  - destruct IH as (K & its & G & <- & KH). unfold blks in E. rewrite nth_error_map in E. destruct (nth_error its i) as [it|] eqn:EI; [|discriminate]. cbn [option_map] in E. assert (it_k it = k) as <- by congruence.
    destruct (del_good orc K r its i it G EI N3) as (r0 & its' & E2 & G' & B'). assert (r0 = r') as -> by congruence. exists K, its'. auto.
  - destruct IH as (K & its & G & <- & KH). unfold blks in E. rewrite nth_error_map in E. destruct (nth_error its i) as [it|] eqn:EI; [|discriminate]. cbn [option_map] in E. assert (it_k it = k) as <- by congruence.
    destruct (rep_good orc K r its i it tbl k' G EI N3 WT WV LN LP RM) as (r0 & its' & E2 & G' & B'). assert (r0 = r') as -> by congruence. exists K, its'. auto.
  - destruct IH as (K & its & G & <- & KH). destruct (upd_good orc w mask iun i f r its K h u r' G KH FX F BF UF H) as (K' & G' & KH' & _). exists K', its. auto.
  - destruct IH as (K & its & G & <- & KH). destruct (copy_good orc K r its h r' G KH C) as (K' & G' & KH'). exists K', its. auto.
Qed.

Theorem ok_shows orc h r ks : report_ok orc h r ks -> shows orc r ks.
Proof. intros (K & its & G & <- & _). apply (good_shows _ _ _ _ G). Qed.
Theorem ok_header orc h r ks e : report_ok orc h r ks -> head_fits h -> mrbhdr e r = Some (seen e h, length ks).
Proof. intros (K & its & G & <- & KH) HF. destruct (gd_data _ _ _ _ G) as (T & D & _). rewrite (hdr_seen e r K _ h D (gd_K _ _ _ _ G) KH HF), (gd_nblk _ _ _ _ G). unfold blks. rewrite map_length. reflexivity. Qed.
