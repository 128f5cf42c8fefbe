(** Replacing the values of a block keeps the layout; new reports have it. *)
From Coq Require Import ZArith List Lia Bool.
From Verif Require Import Bits BitIO CompactInt SpecPack Handles WaFile Xdf XdfLib XdfEnum XdfKeys XdfKeysFacts XdfKeysThm XdfBuf XdfBufSpec XdfBufFacts Fst Burp BurpKeys BurpFile BurpBuf BurpSpec BurpPack BurpInv BurpEdit BurpEdit2.
Import ListNotations.
Open Scope Z_scope.
Open Scope opt_scope.

Lemma head_bits off h k nb dt vals : head_ok off h k -> (1 <= nb <= 32)%nat -> 2 <= dt <= 9 ->
  let h1 := if dt =? bk_datyp k then h else upd h 1 (setbits (nth 1 h 0) 20 4 dt) in
  let h2 := if (nb =? bk_nbit k)%nat then h1 else upd h1 0 (setbits (nth 0 h 0) 0 5 (Z.of_nat nb - 1)) in
  head_ok off h2 (mkblk (bk_nele k) (bk_nval k) (bk_nt k) (bk_bfam k) (bk_btyp k) nb dt (bk_codes k) vals).
Proof.
  intros HO NB DT. set (k2 := mkblk _ _ _ _ _ _ _ _ _).
  assert (S1 : let h1 := if dt =? bk_datyp k then h else upd h 1 (setbits (nth 1 h 0) 20 4 dt) in
    length h1 = 4%nat /\ words_ok h1 /\ nth 0 h1 0 = nth 0 h 0 /\ nth 2 h1 0 = nth 2 h 0 /\ nth 3 h1 0 = nth 3 h 0 /\ getf (nth 1 h1 0) 0 20 = getf (nth 1 h 0) 0 20 /\ getf (nth 1 h1 0) 20 4 = dt /\ getf (nth 1 h1 0) 24 8 = getf (nth 1 h 0) 24 8).
  { cbv zeta. pose proof (ho_len _ _ _ HO) as L. pose proof (ho_words _ _ _ HO) as W. pose proof (ho_datyp _ _ _ HO) as DX. unfold hb_datyp in DX. destruct (head4 h L) as (w0 & w1 & w2 & w3 & ->). destruct (Z.eqb_spec dt (bk_datyp k)) as [E|E].
    - rewrite E. repeat split; assumption.
    - cbn [upd nth length] in *. inversion W as [|? ? W0 X]; subst. inversion X as [|? ? W1 Y]; subst. split; [reflexivity|]. split; [constructor; [exact W0|]; constructor; [|exact Y]; apply setbits_word; [exact W1|lia|lia|lia]|].
      do 3 (split; [reflexivity|]). split; [apply getf_setbits_other; lia|]. split; [rewrite getf_setbits by lia; apply Z.mod_small; lia|apply getf_setbits_other; lia]. }
  cbv zeta in *. set (h1 := if dt =? bk_datyp k then h else _) in *. destruct S1 as (L1 & W1 & N0 & N2 & N3 & B0 & BD & BN).
  assert (S2 : let h2 := if (nb =? bk_nbit k)%nat then h1 else upd h1 0 (setbits (nth 0 h 0) 0 5 (Z.of_nat nb - 1)) in
    length h2 = 4%nat /\ words_ok h2 /\ nth 1 h2 0 = nth 1 h1 0 /\ nth 2 h2 0 = nth 2 h 0 /\ nth 3 h2 0 = nth 3 h 0 /\ getf (nth 0 h2 0) 0 5 + 1 = Z.of_nat nb /\ getf (nth 0 h2 0) 5 15 = getf (nth 0 h 0) 5 15 /\ getf (nth 0 h2 0) 20 12 = getf (nth 0 h 0) 20 12).
  { cbv zeta. rewrite <- N0. pose proof (ho_nbit _ _ _ HO) as NX. unfold hb_nbit in NX. rewrite <- N0 in NX. destruct (head4 h1 L1) as (w0 & w1 & w2 & w3 & EH). rewrite EH in *. destruct (Nat.eqb_spec nb (bk_nbit k)) as [E|E].
    - rewrite E. repeat split; assumption.
    - cbn [upd nth length] in *. apply Forall_cons_iff in W1. destruct W1 as [W0 X]. split; [reflexivity|]. split; [constructor; [|exact X]; apply setbits_word; [exact W0|lia|lia|lia]|].
      split; [reflexivity|]. split; [exact N2|]. split; [exact N3|]. split; [rewrite getf_setbits by lia; rewrite Z.mod_small by lia; lia|]. split; apply getf_setbits_other; lia. }
  cbv zeta in S2. set (h2 := if (nb =? bk_nbit k)%nat then h1 else _) in *. destruct S2 as (L2 & W2 & M1 & M2 & M3 & C0 & C1 & C2).
  destruct HO as [H1 H2 H3 H4 H5 H6 H7 H8 H9 H10 H11].
  unfold hb_dims, hb_listed, hb_bit0, hb_datyp, hb_nbit, hb_btyp, hb_bfd, hb_flag, hb_elem1, hb_elem2, hb_elem3, hb_nele, hb_nval, hb_nt in *.
  constructor; unfold hb_dims, hb_listed, hb_bit0, hb_datyp, hb_nbit, hb_btyp, hb_bfd, hb_flag, hb_elem1, hb_elem2, hb_elem3, hb_nele, hb_nval, hb_nt; rewrite ?M1, ?M2, ?M3, ?B0, ?BD, ?BN, ?C1, ?C2; try assumption. reflexivity.
Qed.

Lemma total_app x y : total_words (x ++ y) = (total_words x + total_words y)%nat.
Proof. induction x as [|k x IH]; [reflexivity|]. cbn [app total_words fold_right]. fold (total_words (x ++ y)) (total_words x). rewrite IH. lia. Qed.
Theorem rep_good orc K r its i it tbl k' : good orc K r its -> nth_error its i = Some it -> let k := it_k it in bk_datyp k <> 3 -> words_ok tbl -> with_vals k tbl = Some k' ->
  (needs (bk_datyp k') (bk_size k) (bk_nbit k') <= length tbl)%nat -> (packed (bk_datyp k) = true -> (bk_size k <= length tbl)%nat) -> room r (firstn i (blks its) ++ k' :: skipn (S i) (blks its)) ->
  exists r' its', mrbrep orc 1 r (S i) tbl = Some (0, r') /\ good orc K r' its' /\ blks its' = firstn i (blks its) ++ k' :: skipn (S i) (blks its).
Proof.
  intros G E k N3 WT WV LN LP RM. destruct (split_item _ _ _ _ _ _ G E) as (a & c & T & EQ & LA & LYA & HO & BO & SO & LYC & D & NT & LHA & LHC & LSA & LSC & LI). fold k in HO, BO, SO, LYC. set (h := it_h it) in *.
  unfold with_vals in WV. destruct (stored_bits (bk_nbit k) (bk_datyp k) (firstn (bk_size k) tbl)) as [[nb dt]|] eqn:SB; [|discriminate]. assert (EK : k' = mkblk (bk_nele k) (bk_nval k) (bk_nt k) (bk_bfam k) (bk_btyp k) nb dt (bk_codes k) (kept dt (bk_size k) nb tbl)) by congruence. clear WV.
  assert (KK : bk_datyp k' = dt /\ bk_nbit k' = nb /\ bk_size k' = bk_size k /\ listed k' = listed k /\ bk_vals k' = kept dt (bk_size k) nb tbl /\ bk_codes k' = bk_codes k /\ bk_nele k' = bk_nele k) by (rewrite EK; repeat split). destruct KK as (K1 & K2 & K3 & K4 & K5 & K6 & K7). rewrite K1, K2 in LN.
  set (n := length its) in *.
  destruct (nbit_datyp_ok (bk_nbit k) (bk_datyp k) tbl (bk_size k) nb dt (size_pos _ BO) (bo_nbit _ BO) (bo_datyp _ BO) WT SB LN LP) as (ND & NB2 & DT2 & DD & BAD & NBG & kd & KD & SRC & UN2).
  assert (D3 : dt <> 3) by lia.
  assert (NBE : (bk_nbit k <= nb)%nat).
  { destruct NBG as [X|X]; [exact X|]. unfold packed in X. apply orb_false_elim in X. destruct X as [X1 X2]. apply Z.eqb_neq in X1, X2. destruct (Z.lt_ge_cases 5 (bk_datyp k)) as [Y|Y].
    - rewrite (bo_32 _ BO Y). unfold stored_bits in SB. rewrite (proj2 (Z.eqb_neq _ 2)), (proj2 (Z.ltb_lt _ _)) in SB by lia. cbn [andb] in SB. assert (nb = 32%nat) by congruence. lia.
    - pose proof (bo_datyp _ BO). assert (D5 : bk_datyp k = 5) by lia. pose proof (bo_bad _ BO) as BB. rewrite D5 in BB, SB. unfold bad_nbits in BB. cbn in BB, SB. apply negb_false_iff in BB. apply Nat.eqb_eq in BB. assert (nb = 8%nat) by congruence. lia. }
  pose proof (gd_K _ _ _ _ G) as LK. pose proof (gd_didx _ _ _ _ G) as DX. pose proof (gd_ridx _ _ _ _ G) as RX. pose proof (gd_size _ _ _ _ G) as GS. pose proof (gd_nbits _ _ _ _ G) as GN. pose proof (gd_words _ _ _ _ G) as WD. pose proof (gd_units _ _ _ _ G) as GU. pose proof (gd_nwords _ _ _ _ G) as GW. pose proof (gd_nblk _ _ _ _ G) as GB. pose proof (gd_buf9 _ _ _ _ G) as G9. fold n in GN, GB, G9.
  set (b := r_b r) in *.
  pose proof (seg_length _ _ _ SO) as LSEG. destruct SO as (L & V & kd0 & raw & ES & LL & LV & WL & WVV & RL & KD0 & RV & LR & UN0). rewrite ES in D. rewrite <- !app_assoc in D. pose proof (ho_len _ _ _ HO) as LH. fold h in LH.
  assert (UI : units its = (units a + bk_units k + units c)%nat) by (rewrite EQ, units_app; cbn [units fold_right]; fold (units c); fold k; lia).
  assert (NI : n = (i + 1 + length c)%nat) by (unfold n; rewrite EQ, app_length; cbn [length]; lia).
  assert (UNI : (length L + length V = 2 * bk_units k)%nat) by (rewrite ES, app_length in LSEG; exact LSEG).
  assert (BL : blks its = blks a ++ k :: blks c) by (rewrite EQ; unfold blks; rewrite map_app; reflexivity).
  assert (LBA : length (blks a) = i) by (unfold blks; rewrite map_length; exact LA).
  assert (FB : firstn i (blks its) = blks a) by (rewrite BL, <- LBA; apply firstn_app_len).
  assert (SBK : skipn (S i) (blks its) = blks c) by (rewrite BL; change (k :: blks c) with ([k] ++ blks c); rewrite app_assoc; replace (S i) with (length (blks a ++ [k])) by (rewrite app_length; cbn; lia); apply skipn_app_len).
  rewrite FB, SBK in RM. rewrite FB, SBK. destruct RM as [RM1 RM2]. fold b in RM1.
  assert (TW : total_words (blks a ++ k' :: blks c) = (2 * (units a + bk_units k' + units c))%nat).
  { rewrite total_app. change (k' :: blks c) with ([k'] ++ blks c). rewrite total_app, !total_units. unfold total_words at 1. cbn [fold_right]. rewrite bk_words_units. lia. }
  rewrite TW in RM1, RM2. rewrite app_length in RM1. cbn [length] in RM1. rewrite LBA in RM1. unfold blks in RM1. rewrite map_length in RM1.
  set (diff := ((nb * bk_size k + 63) / 64 - (bk_nbit k * bk_size k + 63) / 64)%nat).
  assert (DLE : ((bk_size k * bk_nbit k + 63) / 64 <= (bk_size k * nb + 63) / 64)%nat) by (apply Nat.div_le_mono; [lia|nia]).
  assert (UK : (bk_units k' = bk_units k + diff)%nat) by (unfold bk_units, diff; rewrite K2, K3, K4, !(Nat.mul_comm _ (bk_size k)); lia).
  set (lu := ((listed k * 16 + 63) / 64)%nat). set (bp := ((units a + lu) * 64 + 128 * n)%nat).
  set (h1 := if dt =? bk_datyp k then h else upd h 1 (setbits (nth 1 h 0) 20 4 dt)). set (h2 := if (nb =? bk_nbit k)%nat then h1 else upd h1 0 (setbits (nth 0 h 0) 0 5 (Z.of_nat nb - 1))).
  assert (HO2 : head_ok (units a) h2 k') by (rewrite EK; apply (head_bits (units a) h k nb dt _ HO NB2 DT2)).
  assert (LH1 : length h1 = 4%nat) by (unfold h1; destruct (dt =? bk_datyp k); [exact LH|rewrite upd_length; exact LH]). pose proof (ho_len _ _ _ HO2) as LH2.
  set (R := heads c ++ segs a ++ L ++ V ++ segs c ++ T) in *. assert (LKA : length (K ++ heads a) = (10 + 4 * i)%nat) by (rewrite app_length; lia).
  assert (D' : b_data b = (K ++ heads a) ++ h ++ R) by (rewrite D; unfold R; rewrite <- !app_assoc; reflexivity).
  assert (LLU : length L = (2 * lu)%nat) by exact LL.
  assert (LEN : length (b_data b) = (10 + 4 * n + 2 * units its + length T)%nat) by (rewrite D; unfold R; rewrite !app_length; lia).
  set (A := K ++ heads a ++ h2 ++ heads c ++ segs a ++ L).
  assert (LLA : length A = (10 + 4 * n + 2 * units a + 2 * lu)%nat) by (unfold A; rewrite !app_length; lia).
  pose proof WD as WD'. rewrite D' in WD'. apply words_app in WD'. destruct WD' as [WKA WD']. apply words_app in WD'. destruct WD' as [_ WR].
  assert (WALL : words_ok ((K ++ heads a) ++ h2 ++ R)) by (apply words_app; split; [exact WKA|]; apply words_app; split; [apply (ho_words _ _ _ HO2)|exact WR]).
  assert (AEQ : A ++ V ++ segs c ++ T = (K ++ heads a) ++ h2 ++ R) by (unfold A, R; rewrite <- !app_assoc; reflexivity).
  (* the space *)
  assert (H12 : nb = bk_nbit k -> h2 = h1) by (intros Y; unfold h2; rewrite (proj2 (Nat.eqb_eq _ _) Y); reflexivity).
  assert (E2 : nb <> bk_nbit k -> upd ((K ++ heads a) ++ h1 ++ R) (length (K ++ heads a)) (setbits (nth 0 h 0) 0 5 (Z.of_nat nb - 1)) = (K ++ heads a) ++ h2 ++ R).
  { intros Y. unfold h2. rewrite (proj2 (Nat.eqb_neq _ _) Y). rewrite <- (Nat.add_0_r (length (K ++ heads a))). apply upd_app_in. lia. }
  pose (b2 := set_words b ((K ++ heads a) ++ h2 ++ R)).
  assert (STEP : exists b4 cc X T4, (if (nb =? bk_nbit k)%nat then Some (0, set_words b ((K ++ heads a) ++ h1 ++ R)) else
          if (0 <? diff)%nat then
            ' i0 <- xdfins orc 1 b2 tbl bp (2 * diff) 32 0 ;;
            let '(err, b3) := i0 in
            if err <? 0 then Some (err, b3) else
            d <- move_bit0 (n - S i) (S i) (Z.of_nat diff) (b_data b3) ;; Some (0, set_words b3 d)
          else Some (0, b2)) = Some (0, b4) /\
    b_data b4 = (K ++ heads a ++ h2 ++ heads cc ++ segs a ++ L) ++ X ++ segs c ++ T4 /\ lay orc (units a + bk_units k') cc /\ segs cc = segs c /\ blks cc = blks c /\ units cc = units c /\ length cc = length c /\ length X = nb_words (bk_size k) nb /\ T4 <> [] /\ words_ok (b_data b4) /\
    b_nbits b4 = b_nbits b + 64 * Z.of_nat diff /\ b_didx b4 = 10 /\ b_ridx b4 = 0 /\ b_nwords b4 = b_nwords b /\ length (b_data b4) = length (b_data b)).
  { assert (ZERO : diff = 0%nat -> b_data b2 = (K ++ heads a ++ h2 ++ heads c ++ segs a ++ L) ++ V ++ segs c ++ T /\ lay orc (units a + bk_units k') c /\ length V = nb_words (bk_size k) nb /\ words_ok (b_data b2) /\
       b_nbits b2 = b_nbits b + 64 * Z.of_nat diff /\ length (b_data b2) = length (b_data b)).
    { intros Z0. unfold b2, set_words, set_data. cbn [b_data b_nbits]. fold A. split; [symmetry; exact AEQ|]. split; [rewrite UK, Z0, Nat.add_0_r; exact LYC|]. split; [rewrite LV; unfold nb_words; unfold diff in Z0; rewrite !(Nat.mul_comm _ (bk_size k)) in Z0; lia|]. split; [exact WALL|]. split; [rewrite Z0; lia|].
      rewrite D', !app_length. lia. }
    destruct (Nat.eqb_spec nb (bk_nbit k)) as [EN|EN].
    - assert (Z0 : diff = 0%nat) by (unfold diff; rewrite EN; lia). destruct (ZERO Z0) as (Z1 & Z2 & Z3 & Z4 & Z5 & Z6).
      exists b2, c, V, T. split; [unfold b2; rewrite (H12 EN); reflexivity|]. repeat split; assumption.
    - destruct (Nat.ltb_spec 0 diff) as [B|B].
      2: { assert (Z0 : diff = 0%nat) by lia. destruct (ZERO Z0) as (Z1 & Z2 & Z3 & Z4 & Z5 & Z6). exists b2, c, V, T. split; [reflexivity|]. repeat split; assumption. }
      assert (PK : packed (bk_datyp k) = true).
      { destruct (packed (bk_datyp k)) eqn:PK; [reflexivity|]. exfalso. apply EN. unfold packed in PK. apply orb_false_elim in PK. destruct PK as [X1 X2]. apply Z.eqb_neq in X1, X2. destruct (Z.lt_ge_cases 5 (bk_datyp k)) as [Y|Y].
        - rewrite (bo_32 _ BO Y) in *. lia.
        - pose proof (bo_datyp _ BO). assert (D5 : bk_datyp k = 5) by lia. pose proof (bo_bad _ BO) as BB. rewrite D5 in BB, SB. unfold bad_nbits in BB. cbn in BB, SB. apply negb_false_iff in BB. apply Nat.eqb_eq in BB. assert (nb = 8%nat) by congruence. lia. }
      assert (ND2 : nb_words (2 * diff) 32 = (2 * diff)%nat). { unfold nb_words. f_equal. symmetry. apply (Nat.div_unique _ 64 diff 63); lia. }
      assert (DS : (2 * diff <= bk_size k)%nat).
      { pose proof (size_pos _ BO) as SP. pose proof (bo_nbit _ BO) as [NB1 _]. assert (Y1 : (1 <= (bk_nbit k * bk_size k + 63) / 64)%nat) by (apply Nat.div_le_lower_bound; nia).
        assert (Y2 : ((nb * bk_size k + 63) / 64 <= (32 * bk_size k + 63) / 64)%nat) by (apply Nat.div_le_mono; nia). pose proof (Nat.mul_div_le (32 * bk_size k + 63) 64 ltac:(lia)). unfold diff. lia. }
      destruct (ins_list orc b2 tbl bp (2 * diff) 32 0 Plain A (V ++ segs c) T) as (I & T' & IN & LI2 & LT' & WI & RI).
      { reflexivity. } { reflexivity. } { unfold bp. rewrite (Nat.mul_comm 128). apply div64. } { unfold b2, set_words, set_data. cbn [b_data]. rewrite <- AEQ, <- !app_assoc. reflexivity. } { exact RX. } { unfold bp. rewrite index_body by exact DX. lia. }
      { unfold b2, set_words, set_data. cbn [b_nbits]. rewrite GN, !app_length. lia. } { rewrite ND2. lia. } { rewrite !app_length. lia. } { unfold b2, set_words, set_data. cbn [b_nwords]. rewrite !app_length. lia. }
      { rewrite <- (app_assoc V), AEQ. exact WALL. } { split; [exact WT|]. rewrite ND2. specialize (LP PK). lia. }
      rewrite IN. cbn [bind]. change (0 <? 0) with false. cbv iota. rewrite ND2 in *. set (b3 := set_data b2 _ _).
      assert (D3' : b_data b3 = (K ++ heads a ++ h2) ++ heads c ++ segs a ++ L ++ I ++ V ++ segs c ++ T') by (unfold b3, set_data, A; cbn [b_data]; rewrite <- !app_assoc; reflexivity).
      rewrite D3'. replace (n - S i)%nat with (length c) by lia. rewrite (move_spec (Z.of_nat diff) c (lay_heads _ _ _ LYC)) by (rewrite !app_length; lia). cbn [bind].
      eexists. exists (map (mv (Z.of_nat diff)) c), (I ++ V), T'. split; [reflexivity|]. unfold set_words. unfold set_data at 1. unfold set_data at 1. unfold set_data at 1. cbn [b_data b_nbits b_didx b_ridx b_nwords].
      assert (LYN : lay orc (units a + bk_units k') (map (mv (Z.of_nat diff)) c)) by (apply (lay_mv orc _ c (units a + bk_units k)); [exact LYC|clear - UK; clearbody diff; lia|clear - RM2; lia]).
      assert (LHM : length (heads (map (mv (Z.of_nat diff)) c)) = length (heads c)) by (rewrite (heads_length _ _ _ LYN), (heads_length _ _ _ LYC), map_length; reflexivity).
      split; [rewrite <- !app_assoc; reflexivity|]. split; [exact LYN|]. split; [apply segs_mv|]. split; [apply blks_mv|]. split; [apply units_mv|]. split; [apply map_length|].
      split; [rewrite app_length, LI2, LV; unfold nb_words, diff in *; rewrite !(Nat.mul_comm _ (bk_size k)); clear - DLE; lia|]. split; [apply not_nil_len; clearbody diff; clear - LT' RM1 UK LEN NI UI; lia|].
      split.
      { unfold A in WI. rewrite <- !app_assoc in WI. rewrite <- !app_assoc. repeat (apply words_app in WI; destruct WI as [? WI]). repeat (apply words_app; split); try assumption.
        clear - LYN. revert LYN. generalize (units a + bk_units k')%nat. induction c as [|x c IH]; intros o Y; [constructor|]. cbn [map lay] in Y. destruct Y as (HX & _ & _ & Y). unfold heads. cbn [map concat]. apply words_app. split; [apply (ho_words _ _ _ HX)|apply (IH _ Y)]. }
      split; [unfold b3, set_data; cbn [b_nbits]; unfold b2, set_words, set_data; cbn [b_nbits]; lia|]. split; [exact DX|]. split; [exact RX|]. split; [reflexivity|].
      rewrite LEN. unfold set_data. cbn [b_data]. rewrite !app_length. clearbody diff h2 lu bp. clear - LHM LHA LHC LSA LSC LK LH2 LT' LI2 LLU LV UNI UI NI LEN ND2 RM1 UK B. lia. }
  destruct STEP as (b4 & cc & X & T4 & STEP & D4 & LYCC & SCC & BCC & UCC & LCC & LX & NT4 & W4 & NB4 & DX4 & RX4 & NW4 & LD4).
  (* the values *)
  set (A4 := K ++ heads a ++ h2 ++ heads cc ++ segs a ++ L) in *. assert (LHCC : length (heads cc) = length (heads c)) by (rewrite (heads_length _ _ _ LYCC), (heads_length _ _ _ LYC), LCC; reflexivity).
  assert (LA4 : length A4 = (10 + 4 * n + 2 * units a + 2 * lu)%nat) by (unfold A4; rewrite !app_length; lia).
  destruct (rep_list orc b4 tbl bp (bk_size k) nb dt kd A4 X (segs c ++ T4) KD) as (V5 & RP & LV5 & WV5 & RV5).
  { apply bad2_bad; assumption. } { unfold bp. rewrite (Nat.mul_comm 128). apply div64. } { exact D4. } { unfold bp. rewrite index_body by exact DX4. lia. } { exact LX. } { intros Y. apply app_eq_nil in Y. tauto. } { rewrite <- D4, LD4, NW4. exact GW. } { rewrite <- D4. exact W4. } { exact SRC. }
  set (its' := a ++ mkit h2 (L ++ V5) k' :: cc).
  exists (with_buf r (set_data b4 (b_nbits b4) (A4 ++ V5 ++ segs c ++ T4))), its'. split.
  - unfold mrbrep. rewrite GB. rewrite (proj2 (Nat.ltb_ge (S i) 1)), (proj2 (Nat.ltb_ge n (S i))) by lia. cbn [orb]. replace (BLOCKS + 4 * (S i - 1))%nat with (length (K ++ heads a)) by (unfold BLOCKS; lia). fold b. rewrite D'.
    rewrite (take_list (K ++ heads a) h R 4 LH). cbn [bind]. rewrite (ho_dims _ _ _ HO), (ho_listed _ _ _ HO), (ho_datyp _ _ _ HO), (ho_nbit _ _ _ HO), (ho_bit0 _ _ _ HO), !Nat2Z.id. fold (bk_size k). rewrite ND. cbn [bind]. change (0 <? 0) with false. cbv iota. rewrite G9.
    replace (units a * 64 + 128 * n + (listed k * 16 + 63) / 64 * 64)%nat with bp by (unfold bp, lu; lia).
    assert (E1 : (if dt =? bk_datyp k then (K ++ heads a) ++ h ++ R else upd ((K ++ heads a) ++ h ++ R) (length (K ++ heads a) + 1) (setbits (nth 1 h 0) 20 4 dt)) = (K ++ heads a) ++ h1 ++ R) by (unfold h1; destruct (dt =? bk_datyp k); [reflexivity|apply upd_app_in; lia]).
    rewrite E1. fold diff.
    match goal with |- bind ?x _ = _ => replace x with (Some (0, b4)) end.
    + cbn [bind]. change (0 <? 0) with false. cbv iota. rewrite RP. cbn [bind]. reflexivity.
    + rewrite <- STEP. destruct (Nat.eqb_spec nb (bk_nbit k)) as [Y|Y]; [reflexivity|]. rewrite (E2 Y). reflexivity.
  - assert (DN : A4 ++ V5 ++ segs c ++ T4 = K ++ heads its' ++ segs its' ++ T4).
    { unfold its', A4. rewrite heads_app, segs_app. unfold heads at 4, segs at 4. cbn [map concat it_h it_s]. fold (heads cc) (segs cc). rewrite SCC. rewrite <- !app_assoc. reflexivity. }
    assert (UN' : units its' = (units a + bk_units k' + units c)%nat) by (unfold its'; rewrite units_app; cbn [units fold_right it_k]; fold (units cc); lia).
    assert (LN' : length its' = n) by (unfold its'; rewrite app_length; cbn [length]; lia).
    assert (LD5 : length (A4 ++ V5 ++ segs c ++ T4) = length (b_data b)) by (rewrite <- LD4, D4; rewrite !(app_length A4), !(app_length (_ : list Z) (segs c ++ T4)); lia).
    split.
    + constructor; unfold with_buf, set_data; cbn [r_b r_nblk r_buf9 b_data b_nbits b_didx b_ridx b_nwords].
      * exists T4. auto.
      * exact LK.
      * rewrite D4 in W4. apply words_app in W4. destruct W4 as [W41 W42]. apply words_app in W42. destruct W42 as [_ W43]. apply words_app; split; [exact W41|]. apply words_app; split; [exact WV5|exact W43].
      * unfold its'. apply lay_app. split; [exact LYA|]. rewrite Nat.add_0_l. cbn [lay it_h it_s it_k]. split; [exact HO2|]. split; [|split; [|exact LYCC]].
        { destruct BO as [X1 X2 X3 X4 X5 X6 X7 X8]. rewrite EK. constructor; cbn [bk_nele bk_nval bk_nt bk_nbit bk_datyp bk_codes]; try assumption. intros Y. destruct DD as [->|[_ ->]]; [|lia]. unfold stored_bits in SB. rewrite (proj2 (Z.eqb_neq _ 2)), (proj2 (Z.ltb_lt _ _)) in SB by lia. cbn [andb] in SB. congruence. }
        { exists L, V5, kd, (read_as kd tbl (bk_size k) nb). rewrite K1, K2, K3, K4, K5, K6, K7. repeat split; try assumption.
          intros Q. apply (raw_length dt kd tbl (bk_size k) nb KD SRC Q). destruct DD as [->|[_ ->]]; [|discriminate]. intros Y. rewrite Y in SB. unfold stored_bits in SB. cbn in SB. congruence. }
      * exact DX4.
      * exact RX4.
      * rewrite NB4, GN, UN', LN', UI. lia.
      * rewrite GB, LN'. reflexivity.
      * rewrite G9, LN'. reflexivity.
      * rewrite LD5. exact GS.
      * rewrite UN'. lia.
      * rewrite LD5, NW4. exact GW.
    + unfold its', blks. rewrite map_app. cbn [map it_k]. fold (blks a) (blks cc) (blks c). rewrite BCC. reflexivity.
Qed.
