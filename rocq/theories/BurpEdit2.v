(** Deleting and replacing blocks keeps the layout. *)
From Coq Require Import ZArith List Lia Bool.
From Verif Require Import Bits BitIO CompactInt SpecPack Handles WaFile Xdf XdfLib XdfEnum XdfKeys XdfKeysThm XdfBuf XdfBufSpec XdfBufFacts Fst Burp BurpKeys BurpBuf BurpSpec BurpPack BurpInv BurpEdit.
Import ListNotations.
Open Scope Z_scope.
Open Scope opt_scope.

(** ** Headers changed in place *)
Definition shift_head (d : Z) (h : list Z) : list Z := upd h 1 (setbits (nth 1 h 0) 0 20 (getf (nth 1 h 0) 0 20 + d)).
Definition mv (d : Z) (it : item) : item := mkit (shift_head d (it_h it)) (it_s it) (it_k it).
Lemma head4 (h : list Z) : length h = 4%nat -> exists a b c d, h = [a; b; c; d].
Proof. destruct h as [|a [|b [|c [|d [|e h]]]]]; try discriminate. eauto. Qed.
Lemma head_shift off off' d h k : head_ok off h k -> Z.of_nat off + d = Z.of_nat off' -> Z.of_nat off' < 2 ^ 20 -> head_ok off' (shift_head d h) k.
Proof.
  intros [H1 H2 H3 H4 H5 H6 H7 H8 H9 H10 H11] E B. destruct (head4 h H1) as (w0 & w1 & w2 & w3 & EH). subst h.
  unfold shift_head. unfold hb_dims, hb_listed, hb_bit0, hb_datyp, hb_nbit, hb_btyp, hb_bfd, hb_flag, hb_elem1, hb_elem2, hb_elem3, hb_nele, hb_nval, hb_nt in *. cbn [nth upd] in *.
  constructor; cbn [nth upd] in *; unfold hb_dims, hb_listed, hb_bit0, hb_datyp, hb_nbit, hb_btyp, hb_bfd, hb_flag, hb_elem1, hb_elem2, hb_elem3, hb_nele, hb_nval, hb_nt in *; cbn [nth] in *; try assumption.
  - inversion H2 as [|? ? W0 X]; subst. inversion X as [|? ? W1 Y]; subst. constructor; [exact W0|]. constructor; [|exact Y]. apply setbits_word; [exact W1|lia|lia|lia].
  - rewrite getf_setbits_other by lia. exact H3.
  - rewrite getf_setbits by lia. rewrite H4, E. apply Z.mod_small. lia.
  - rewrite getf_setbits_other by lia. exact H5.
Qed.
Lemma units_mv d c : units (map (mv d) c) = units c.
Proof. induction c as [|i c IH]; [reflexivity|]. cbn [map units fold_right mv it_k]. fold (units c) (units (map (mv d) c)). rewrite IH. reflexivity. Qed.
Lemma segs_mv d c : segs (map (mv d) c) = segs c.
Proof. unfold segs. rewrite map_map. reflexivity. Qed.
Lemma blks_mv d c : blks (map (mv d) c) = blks c.
Proof. unfold blks. rewrite map_map. reflexivity. Qed.
Lemma lay_mv orc d c : forall off off', lay orc off c -> Z.of_nat off + d = Z.of_nat off' -> Z.of_nat (off' + units c) < 2 ^ 20 -> lay orc off' (map (mv d) c).
Proof.
  induction c as [|i c IH]; intros off off' L E B; [exact Logic.I|]. cbn [lay map units fold_right] in *. fold (units c) in B. destruct L as (H & BO & S & R). cbn [mv it_h it_s it_k]. split; [apply (head_shift off); [exact H|exact E|lia]|]. split; [exact BO|]. split; [exact S|].
  apply (IH (off + bk_units (it_k i))%nat); [exact R|lia|lia].
Qed.
Lemma upd_app_in (A X R : list Z) j v : (j < length X)%nat -> upd (A ++ X ++ R) (length A + j) v = A ++ upd X j v ++ R.
Proof.
  induction A as [|a A IH]; intros J; cbn [app length Nat.add upd].
  - revert j J. induction X as [|x X IHX]; intros [|j] J; cbn [length] in J; try lia; [reflexivity|]. cbn [app upd]. f_equal. apply IHX. lia.
  - f_equal. apply IH. exact J.
Qed.
Lemma nth_app_in (A X R : list Z) j : (j < length X)%nat -> nth_error (A ++ X ++ R) (length A + j) = Some (nth j X 0).
Proof. intros J. rewrite nth_error_app2 by lia. replace (length A + j - length A)%nat with j by lia. rewrite nth_error_app1 by exact J. apply nth_error_nth'. exact J. Qed.
Lemma move_spec d c : Forall (fun it => length (it_h it) = 4%nat) c -> forall A R i, length A = (10 + 4 * i)%nat -> move_bit0 (length c) i d (A ++ heads c ++ R) = Some (A ++ heads (map (mv d) c) ++ R).
Proof.
  induction c as [|it c IH]; intros F A R i LA; [reflexivity|]. inversion F as [|? ? F1 F2]; subst. cbn [length move_bit0]. unfold heads. cbn [map concat]. fold (heads c) (heads (map (mv d) c)). cbn [mv it_h]. rewrite <- !app_assoc.
  replace (BLOCKS + 4 * i + 1)%nat with (length A + 1)%nat by (unfold BLOCKS; lia). rewrite nth_app_in by lia. cbn [bind]. rewrite upd_app_in by lia. fold (shift_head d (it_h it)).
  assert (LS : length (shift_head d (it_h it)) = 4%nat) by (unfold shift_head; rewrite upd_length; exact F1).
  specialize (IH F2 (A ++ shift_head d (it_h it)) R (S i) ltac:(rewrite app_length; lia)). rewrite <- !app_assoc in IH. exact IH.
Qed.
Lemma lay_heads orc c : forall off, lay orc off c -> Forall (fun it => length (it_h it) = 4%nat) c.
Proof. induction c as [|i c IH]; intros off L; constructor; cbn [lay] in L; [apply (ho_len _ _ _ (proj1 L))|apply (IH _ (proj2 (proj2 (proj2 L))))]. Qed.
Lemma size_pos k : blk_ok k -> (1 <= bk_size k)%nat.
Proof. intros B. pose proof (bo_nele _ B). pose proof (bo_nval _ B). pose proof (bo_nt _ B). unfold bk_size. nia. Qed.
Lemma seg_pos n b : (1 <= n)%nat -> (1 <= b)%nat -> (2 <= nb_words n b)%nat.
Proof. intros N B. unfold nb_words. assert (1 <= (n * b + 63) / 64)%nat by (apply Nat.div_le_lower_bound; nia). lia. Qed.
Lemma words_app3 A B : words_ok (A ++ B) -> words_ok A /\ words_ok B.
Proof. apply words_app. Qed.
Lemma not_nil_len {X} (l : list X) : (1 <= length l)%nat -> l <> [].
Proof. destruct l; [cbn; lia|discriminate]. Qed.
Lemma len_not_nil {X} (l : list X) : l <> [] -> (1 <= length l)%nat.
Proof. destruct l; [congruence|cbn; lia]. Qed.

Theorem del_good orc K r its i it : good orc K r its -> nth_error its i = Some it -> bk_datyp (it_k it) <> 3 ->
  exists r' its', mrbdel orc 1 r (S i) = Some (0, r') /\ good orc K r' its' /\ blks its' = firstn i (blks its) ++ skipn (S i) (blks its).
Proof.
  intros G E N3. destruct (split_item _ _ _ _ _ _ G E) as (a & c & T & EQ & LA & LYA & HO & BO & SO & LYC & D & NT & LHA & LHC & LSA & LSC & LI). set (k := it_k it) in *. set (h := it_h it) in *.
  unfold mrbdel. rewrite (gd_nblk _ _ _ _ G). rewrite (proj2 (Nat.ltb_ge (S i) 1)), (proj2 (Nat.ltb_ge (length its) (S i))) by lia. cbn [orb].
  replace (NBENTB * (S i - 1))%nat with (i * 128)%nat by (unfold NBENTB; lia). rewrite (read_head _ _ _ _ _ _ G E). cbn [bind]. change (0 <? 0) with false. cbv iota. fold h.
  rewrite (ho_dims _ _ _ HO), (ho_listed _ _ _ HO), (ho_datyp _ _ _ HO), (ho_nbit _ _ _ HO), (ho_bit0 _ _ _ HO), !Nat2Z.id. fold (bk_size k). rewrite (gd_buf9 _ _ _ _ G). set (n := length its) in *.
  pose proof (gd_K _ _ _ _ G) as LK. pose proof (gd_didx _ _ _ _ G) as DX. pose proof (gd_ridx _ _ _ _ G) as RX. pose proof (gd_size _ _ _ _ G) as GS. pose proof (gd_nbits _ _ _ _ G) as GN. pose proof (gd_words _ _ _ _ G) as WD. pose proof (gd_units _ _ _ _ G) as GU. set (b := r_b r) in *. fold n in GN.
  pose proof (seg_length _ _ _ SO) as LSEG. destruct SO as (L & V & kd & raw & ES & LL & LV & WL & WV & RL & KD & RV & LR & UN). rewrite ES in D. rewrite <- !app_assoc in D. pose proof (ho_len _ _ _ HO) as LH. fold h in LH.
  assert (UI : units its = (units a + bk_units k + units c)%nat) by (rewrite EQ, units_app; cbn [units fold_right]; fold (units c); fold k; lia).
  assert (NI : n = (i + 1 + length c)%nat) by (unfold n; rewrite EQ, app_length; cbn [length]; lia).
  pose proof (seg_pos (bk_size k) (bk_nbit k) (size_pos _ BO) (proj1 (bo_nbit _ BO))) as VP.
  set (A := K ++ heads a ++ h ++ heads c ++ segs a).
  assert (LEN : length (b_data b) = (length A + length L + length V + length (segs c) + length T)%nat) by (rewrite D; unfold A; rewrite !app_length; lia).
  assert (LLA : length A = (10 + 4 * n + 2 * units a)%nat) by (unfold A; rewrite !app_length, LK, LHA, LHC, LSA, LH; lia).
  assert (UNI : (length L + length V = 2 * bk_units k)%nat) by (rewrite ES, app_length in LSEG; exact LSEG).
  (* the elements *)
  assert (C1 : exists b1 T1, (if (0 <? listed k)%nat then option_map snd (xdfcut b (units a * 64 + 128 * n) (listed k) 16 2) else Some b) = Some b1 /\
    b_data b1 = A ++ V ++ segs c ++ T1 /\ length T1 = (length L + length T)%nat /\ words_ok (b_data b1) /\ b_nbits b1 = b_nbits b - 32 * Z.of_nat (length L) /\ b_didx b1 = 10 /\ b_ridx b1 = 0 /\ b_nwords b1 = b_nwords b).
  { destruct (Nat.ltb_spec 0 (listed k)) as [B|B].
    - pose proof (seg_pos (listed k) 16 B ltac:(lia)) as LP.
      destruct (cut_list b (units a * 64 + 128 * n) (listed k) 16 2 A L (V ++ segs c) T) as (T1 & CU & LT1 & WT1).
      { reflexivity. } { rewrite (Nat.mul_comm 128). apply div64. } { rewrite D. unfold A. rewrite <- !app_assoc. reflexivity. } { exact RX. } { rewrite index_body by exact DX. lia. } { exact LL. } { apply not_nil_len. lia. }
      { rewrite GN, !app_length. rewrite LLA, LSC, UI. lia. } { exact NT. } { rewrite !app_length. lia. } { rewrite D in WD. unfold A. rewrite <- !app_assoc. exact WD. }
      rewrite CU. cbn [option_map snd]. eexists. exists T1. split; [reflexivity|]. unfold set_data. cbn [b_data b_nbits b_didx b_ridx b_nwords]. split; [rewrite <- (app_assoc V); reflexivity|]. split; [exact LT1|]. split; [exact WT1|]. split; [rewrite LL; reflexivity|]. auto.
    - assert (L = []) as -> by (destruct L; [reflexivity|cbn [length] in LL; assert (listed k = 0)%nat as X by lia; rewrite X in LL; discriminate]). exists b, T. split; [reflexivity|]. split; [rewrite D; unfold A; rewrite <- !app_assoc; reflexivity|]. split; [reflexivity|]. split; [exact WD|]. split; [cbn [length]; lia|]. auto. }
  destruct C1 as (b1 & T1 & C1 & D1 & LT1 & W1 & NB1 & DX1 & RX1 & NW1). rewrite C1. cbn [bind].
  (* the values *)
  pose proof (len_not_nil _ NT) as LNT.
  destruct (cut_list b1 (units a * 64 + 128 * n) (bk_size k) (bk_nbit k) (bk_datyp k) A V (segs c) T1) as (T2 & C2 & LT2 & W2).
  { apply bad2_bad; [apply (bo_bad _ BO)|exact N3]. } { rewrite (Nat.mul_comm 128). apply div64. } { exact D1. } { exact RX1. } { rewrite index_body by exact DX1. lia. } { exact LV. } { apply not_nil_len. lia. }
  { rewrite NB1, GN, !app_length. rewrite LLA, LSC, UI. lia. } { apply not_nil_len. lia. } { rewrite !app_length. lia. } { rewrite <- D1. exact W1. }
  rewrite C2. cbn [option_map snd bind]. set (b2 := set_data b1 _ _).
  (* the header *)
  destruct (cut_list b2 (i * 128) 4 32 0 (K ++ heads a) h (heads c ++ segs a ++ segs c) T2) as (T3 & C3 & LT3 & W3).
  { reflexivity. } { replace (i * 128)%nat with (0 + (2 * i) * 64)%nat by lia. rewrite Nat.mod_add by lia. reflexivity. } { unfold b2, set_data, A. cbn [b_data]. rewrite <- !app_assoc. reflexivity. } { exact RX1. } { rewrite index_head by exact DX1. rewrite app_length. lia. } { exact LH. } { apply not_nil_len. lia. }
  { unfold b2, set_data. cbn [b_nbits]. rewrite NB1, GN, !app_length. rewrite LK, LHA, LHC, LSA, LSC, LH, UI, <- LV. lia. } { apply not_nil_len. lia. } { rewrite !app_length. rewrite LK, LHA, LHC, LSA, LSC, LH. lia. }
  { unfold A in W2. rewrite <- !app_assoc in W2. rewrite <- !app_assoc. exact W2. }
  rewrite C3. cbn [option_map snd bind]. set (b3 := set_data b2 _ _). change (nb_words 4 32) with 4%nat in *.
  assert (D3 : b_data b3 = (K ++ heads a) ++ heads c ++ segs a ++ segs c ++ T3) by (unfold b3, set_data; cbn [b_data]; rewrite <- !app_assoc; reflexivity).
  assert (LP : length (K ++ heads a) = (10 + 4 * i)%nat) by (rewrite app_length; lia).
  assert (WX : exists w, nth_error (b_data b3) (BLOCKS + 4 * (S i - 1) + 1) = Some w /\ (forall it2 c2, c = it2 :: c2 -> getf w 0 20 = Z.of_nat (units a + bk_units k))).
  { replace (BLOCKS + 4 * (S i - 1) + 1)%nat with (length (K ++ heads a) + 1)%nat by (unfold BLOCKS; lia). exists (nth (length (K ++ heads a) + 1) (b_data b3) 0). split.
    - apply nth_error_nth'. rewrite D3, !app_length. rewrite app_length in LP. lia.
    - intros it2 c2 EC. rewrite D3, EC. unfold heads at 3. cbn [map concat]. fold (heads c2). rewrite <- (app_assoc (it_h it2)).
      rewrite EC in LYC. cbn [lay] in LYC. destruct LYC as (HO2 & _). pose proof (ho_len _ _ _ HO2) as LH2.
      pose proof (nth_app_in (K ++ heads a) (it_h it2) (heads c2 ++ segs a ++ segs (it2 :: c2) ++ T3) 1 ltac:(lia)) as NE. apply nth_error_nth with (d := 0) in NE. rewrite NE. apply (ho_bit0 _ _ _ HO2). }
  destruct WX as (w & WX & WV2). rewrite WX. cbn [bind].
  set (dd := Z.of_nat (units a) - getf w 0 20).
  assert (MV : move_bit0 (n - S i) (S i - 1) dd (b_data b3) = Some ((K ++ heads a) ++ heads (map (mv dd) c) ++ segs a ++ segs c ++ T3)).
  { replace (n - S i)%nat with (length c) by lia. replace (S i - 1)%nat with i by lia. rewrite D3. apply (move_spec dd c (lay_heads _ _ _ LYC)). exact LP. }
  rewrite MV. cbn [bind].
  assert (LYN : lay orc (units a) (map (mv dd) c)).
  { destruct c as [|it2 c2] eqn:EC; [exact Logic.I|]. rewrite <- EC in *. apply (lay_mv orc dd c (units a + bk_units k)); [exact LYC|unfold dd; rewrite (WV2 _ _ EC); lia|lia]. }
  exists (mkrep (set_words b3 ((K ++ heads a) ++ heads (map (mv dd) c) ++ segs a ++ segs c ++ T3)) (n - 1) (128 * n - NBENTB)), (a ++ map (mv dd) c). split; [reflexivity|].
  assert (DN : (K ++ heads a) ++ heads (map (mv dd) c) ++ segs a ++ segs c ++ T3 = K ++ heads (a ++ map (mv dd) c) ++ segs (a ++ map (mv dd) c) ++ T3) by (rewrite heads_app, segs_app, segs_mv, <- !app_assoc; reflexivity).
  assert (LHM : length (heads (map (mv dd) c)) = length (heads c)) by (rewrite (heads_length _ _ _ LYN), (heads_length _ _ _ LYC), map_length; reflexivity).
  assert (LDN : length ((K ++ heads a) ++ heads (map (mv dd) c) ++ segs a ++ segs c ++ T3) = length (b_data b)) by (rewrite LEN, LLA, !app_length, LHM, LK, LHA, LHC, LSA, LSC; lia).
  assert (UN2 : units (a ++ map (mv dd) c) = (units a + units c)%nat) by (rewrite units_app, units_mv; reflexivity).
  split.
  - constructor; cbn [r_b r_nblk r_buf9]; unfold set_words, set_data; cbn [b_data b_nbits b_didx b_ridx b_nwords].
    + exists T3. split; [exact DN|]. apply not_nil_len. lia.
    + exact LK.
    + rewrite D3 in *. clear - W3 LYN. rewrite <- !app_assoc in *. repeat (apply words_app in W3; destruct W3 as [? W3]). repeat (apply words_app; split); try assumption.
      clear - LYN. revert LYN. generalize (units a). induction c as [|x c IH]; intros o L; [constructor|]. cbn [map lay] in L. destruct L as (HX & _ & _ & R). unfold heads. cbn [map concat]. apply words_app. split; [apply (ho_words _ _ _ HX)|apply (IH _ R)].
    + apply lay_app. split; [exact LYA|exact LYN].
    + exact DX1.
    + exact RX1.
    + unfold b3, b2, set_data. cbn [b_nbits]. rewrite NB1, GN, UN2, UI, app_length, map_length, <- LV. lia.
    + rewrite app_length, map_length. lia.
    + rewrite app_length, map_length. unfold NBENTB. lia.
    + rewrite LDN. exact GS.
    + rewrite UN2. lia.
    + rewrite LDN. fold b. unfold b3, b2, set_data. cbn [b_nwords]. rewrite NW1. apply (gd_nwords _ _ _ _ G).
  - unfold blks. rewrite map_app. fold (blks (map (mv dd) c)). rewrite blks_mv. rewrite EQ, map_app. cbn [map]. fold (blks a) (blks c). assert (LB : length (blks a) = i) by (unfold blks; rewrite map_length; exact LA).
    rewrite <- LB at 1 2. rewrite firstn_app_len. f_equal. change (it_k it :: blks c) with ([it_k it] ++ blks c). rewrite app_assoc. replace (S (length (blks a))) with (length (blks a ++ [it_k it])) by (rewrite app_length; cbn; lia). rewrite skipn_app_len. reflexivity.
Qed.
