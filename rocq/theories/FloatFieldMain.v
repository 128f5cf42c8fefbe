(** Packing then unpacking a field: the memory, the header and the tokens. *)
From Coq Require Import ZArith List Bool Lia Reals Lra.
From Flocq Require Import Core BinarySingleNaN.
From Verif Require WaFile.
From Verif Require Import Bits BitIO BitIOFacts SpecPack CompactInt CompactIntFacts CompactIntMain Flo FloatPack FloatWords FloatField FloatDouble FloatPackFacts FloatFieldFacts FloatFieldValue FloatFieldHeader.
Import ListNotations.
Open Scope Z_scope.
Open Scope opt_scope.

Lemma slice_out {A} p (bs l : list A) q k : (p + length bs <= length l)%nat -> (q + k <= p \/ p + length bs <= q)%nat ->
  slice q k (overwrite p bs l) = slice q k l.
Proof.
  intros L H. unfold slice. destruct H as [H|H].
  - rewrite !firstn_skipn_comm. f_equal. apply overwrite_first; lia.
  - f_equal. apply overwrite_skip; lia.
Qed.

Lemma put_words_rd l mem p m i : put_words mem p l = Some m -> (i < length l)%nat -> rd m (p + i) = nth_error l i.
Proof.
  revert mem p m i. induction l as [|w l IH]; intros mem p m i E H; [cbn in H; lia|]. cbn [put_words] in E.
  destruct (wr mem p w) as [m1|] eqn:W; [|discriminate]. cbn [bind] in E.
  assert (G : forall l m p m', put_words m p l = Some m' -> forall j, (j < p)%nat -> nth_error m' j = nth_error m j).
  { clear. induction l as [|w l IH]; intros m p m' E j H; cbn [put_words] in E; [congruence|].
    destruct (wr m p w) as [m1|] eqn:W; [|discriminate]. cbn [bind] in E.
    rewrite (IH _ _ _ E j ltac:(lia)). apply (wr_other _ _ _ _ _ W). lia. }
  destruct i as [|i].
  - rewrite Nat.add_0_r. unfold rd. rewrite (G _ _ _ _ E p ltac:(lia)). cbn [nth_error]. apply (wr_same _ _ _ _ W).
  - replace (p + S i)%nat with (S p + i)%nat by lia. apply (IH _ _ _ i E). cbn [length] in H. lia.
Qed.

(** Words away from the bits written. *)
Lemma word_kept m1 m p bs i h : length m = length m1 -> mbits 32 m = overwrite p bs (mbits 32 m1) -> (p + length bs <= 32 * length m1)%nat ->
  Forall inr32 m -> rd m1 i = Some h -> inr32 h -> (32 * i + 32 <= p \/ p + length bs <= 32 * i)%nat -> rd m i = Some h.
Proof.
  intros L E B F R H O. assert (I : (i < length m1)%nat) by (apply nth_error_Some; unfold rd in R; congruence).
  destruct (rd_some m i ltac:(lia)) as (h' & R'). rewrite R'. f_equal.
  assert (inr32 h') by (eapply Forall_forall; [exact F|eapply nth_error_In; exact R']).
  apply (bits_of_inj 32); [assumption|assumption|].
  rewrite <- (mbits_rd 32 _ _ _ R), <- (mbits_rd 32 _ _ _ R'), E.
  apply (slice_out p bs (mbits 32 m1) (32 * i) 32); [rewrite mbits_length; exact B|exact O].
Qed.
Lemma word_kept24 m1 m p bs i h : length m = length m1 -> mbits 32 m = overwrite p bs (mbits 32 m1) -> (p + length bs <= 32 * length m1)%nat ->
  Forall inr32 m -> rd m1 i = Some h -> inr32 h -> (32 * i + 24 <= p)%nat -> exists h', rd m i = Some h' /\ Z.shiftr h' 8 = Z.shiftr h 8.
Proof.
  intros L E B F R H O. assert (I : (i < length m1)%nat) by (apply nth_error_Some; unfold rd in R; congruence).
  destruct (rd_some m i ltac:(lia)) as (h' & R'). exists h'. split; [exact R'|].
  assert (inr32 h') by (eapply Forall_forall; [exact F|eapply nth_error_In; exact R']).
  assert (X : forall x, inr32 x -> 0 <= Z.shiftr x 8 < 2 ^ Z.of_nat 24).
  { intros x Hx. unfold inr32 in Hx. rewrite Z.shiftr_div_pow2 by lia. change (2 ^ Z.of_nat 24) with (2 ^ 24).
    split; [apply Z.div_pos; lia|apply Z.div_lt_upper_bound; lia]. }
  apply (bits_of_inj 24); [apply X; assumption|apply X; assumption|].
  assert (Y : forall m i x, rd m i = Some x -> slice (32 * i) 24 (mbits 32 m) = bits_of 24 (Z.shiftr x 8)).
  { intros m' i' x Rx. pose proof (mbits_rd 32 _ _ _ Rx) as Q. change 32%nat with (24 + 8)%nat in Q at 4.
    rewrite (bits_of_app 24 8 x) in Q. change (Z.of_nat 8) with 8 in Q. apply (f_equal (firstn 24)) in Q.
    rewrite firstn_firstn in Q. change (Nat.min 24 32) with 24%nat in Q. unfold slice. rewrite Q.
    rewrite firstn_app, bits_of_length, Nat.sub_diag, firstn_O, app_nil_r.
    rewrite <- (bits_of_length 24 (Z.shiftr x 8)) at 1. apply firstn_all. }
  rewrite <- (Y _ _ _ R), <- (Y _ _ _ R'), E.
  apply (slice_out p bs (mbits 32 m1) (32 * i) 24); [rewrite mbits_length; exact B|left; exact O].
Qed.

(** Tokens of a list. *)
Lemma field_tokens_ok (P : Z -> Z -> Prop) tag b mn mul ws :
  (forall w, In w ws -> exists t, field_token tag b mn mul w = Some t /\ P w t) ->
  exists ts, field_tokens tag b mn mul ws = Some ts /\ length ts = length ws /\ forall j, (j < length ws)%nat -> P (nth j ws 0) (nth j ts 0).
Proof.
  induction ws as [|w ws IH]; intros H.
  - exists []. split; [reflexivity|]. split; [reflexivity|]. intros j J. cbn in J. lia.
  - destruct (H w ltac:(left; reflexivity)) as (t & E & PT). destruct IH as (ts & ES & L & A); [intros v I; apply H; right; exact I|].
    exists (t :: ts). cbn [field_tokens]. rewrite E, ES. cbn [bind]. split; [reflexivity|]. split; [cbn [length]; lia|].
    intros [|j] J; [exact PT|]. cbn [nth]. apply A. cbn [length] in J. lia.
Qed.

(** Where the header and the tokens are: header of 120 bits followed by the
    tokens, or header of 4 words apart from them. *)
Definition placed (hp ap off b n len : nat) : Prop :=
  (hp + 4 <= len)%nat /\ (32 * ap + off + b * n < 32 * len)%nat /\
  (style_one hp ap off = true \/
   (style_one hp ap off = false /\ Z.of_nat n < 2 ^ 28 /\ (32 * (hp + 4) <= 32 * ap + off \/ 32 * ap + off + b * n <= 32 * hp)%nat)).

Lemma style_one_pos hp ap off : style_one hp ap off = true -> (32 * ap + off = 32 * hp + 120)%nat.
Proof.
  unfold style_one. intros H. apply orb_true_iff in H as [H|H]; apply andb_prop in H as [H1 H2]; apply Nat.eqb_eq in H1, H2; lia.
Qed.

Definition token_for (tag : option Z) (b : nat) (lo te w t : Z) : Prop :=
  0 <= t < 2 ^ Z.of_nat b /\
  (is_tag tag w = true -> t = all_ones b) /\
  (is_tag tag w = false -> t < 2 ^ Z.of_nat b - has tag /\ token_of lo (te - Z.of_nat b) w t).

Definition word0_ok style1 tag n : let h := Z.lor (Z.shiftl (marker style1 tag) 20) (Z.of_nat n mod 2 ^ 20) in
  inr32 h /\ Z.shiftr h 20 = marker style1 tag /\ Z.land h 0xfffff = Z.of_nat n mod 2 ^ 20.
Proof.
  assert (M : 0 <= marker style1 tag < 2 ^ 12) by (destruct style1, tag; cbn; lia).
  pose proof (Z.mod_pos_bound (Z.of_nat n) (2 ^ 20) ltac:(lia)) as N. cbv zeta. rewrite lor_add by lia.
  split; [unfold inr32; lia|]. split.
  - rewrite Z.shiftr_div_pow2, Z.div_add_l, (Z.div_small (_ mod _)) by lia. lia.
  - change 0xfffff with (2 ^ 20 - 1). rewrite land_low by lia. rewrite Z.add_comm, Z_mod_plus_full. apply Z.mod_mod. lia.
Qed.
Lemma word3_ok b n : (b <= 32)%nat -> let h := Z.lor (Z.shiftl (Z.of_nat b) 8) ((Z.of_nat n / 2 ^ 20) mod 2 ^ 8) in
  inr32 h /\ Z.land (Z.shiftr h 8) 0xff = Z.of_nat b /\ Z.land h 0xff = (Z.of_nat n / 2 ^ 20) mod 2 ^ 8.
Proof.
  intros B. pose proof (Z.mod_pos_bound (Z.of_nat n / 2 ^ 20) (2 ^ 8) ltac:(lia)) as N. cbv zeta. rewrite lor_add by lia.
  split; [unfold inr32; lia|]. split.
  - rewrite Z.shiftr_div_pow2, Z.div_add_l, (Z.div_small (_ mod _)) by lia. change 0xff with (2 ^ 8 - 1). rewrite land_low by lia.
    rewrite Z.add_0_r. apply Z.mod_small. lia.
  - change 0xff with (2 ^ 8 - 1). rewrite land_low by lia. rewrite Z.add_comm, Z_mod_plus_full. apply Z.mod_mod. lia.
Qed.

Lemma pack_unpack orc field mem hp ap off n b stride tag ws :
  (1 <= b <= 32)%nat -> (tag <> None -> (2 <= b)%nat) -> placed hp ap off b n (length mem) -> words_ok mem ->
  gather field stride n = Some ws -> length ws = n -> kept tag ws <> [] -> Forall finite_word (kept tag ws) ->
  (forall w, In w (kept tag ws) -> Rabs (V w) <= big)%R ->
  exists m lo hi mn te, compact_float_pack orc field mem hp ap off n b stride tag = Some (FDone m) /\
    length m = length mem /\ words_ok m /\
    (forall i, (i < 32 * length mem)%nat -> (i < 32 * hp \/ 32 * hp + 128 <= i)%nat -> (i < 32 * ap + off \/ 32 * ap + off + b * n <= i)%nat -> bit_at m i = bit_at mem i) /\
    In lo (kept tag ws) /\ In hi (kept tag ws) /\ (forall w, In w (kept tag ws) -> sval lo <= sval w <= sval hi) /\
    range_ok tag b lo hi te /\ keeps lo mn /\
    forall dst, (1 <= stride)%nat -> SpecPack.fits dst stride n ->
    exists d ts, (forall src, words_ok src -> (32 * ap + off + b * n < 32 * length src)%nat -> (forall i, (i < 4)%nat -> rd src (hp + i) = rd m (hp + i)) ->
        slice (32 * ap + off) (b * n) (mbits 32 src) = slice (32 * ap + off) (b * n) (mbits 32 m) ->
        compact_float_unpack orc dst src hp ap off n b stride tag = Some (Some d)) /\ length ts = n /\
      updated dst d stride n (fun j => field_value tag b mn (f64_pow2 (te - Z.of_nat b)) (nth j ts 0)) /\
      forall j, (j < n)%nat -> token_for tag b lo te (nth j ws 0) (nth j ts 0).
Proof.
  intros HB HT (PL1 & PL2 & PL3) WM GA LW NE FK BK.
  destruct (extremes_ok tag ws NE FK) as (lo & hi & EX & IL & IH & BD).
  assert (FL : finite_word lo) by (rewrite Forall_forall in FK; apply FK; exact IL).
  assert (FH : finite_word hi) by (rewrite Forall_forall in FK; apply FK; exact IH).
  pose proof (BK lo IL) as BL. pose proof (BK hi IH) as BH. pose proof (proj2 (BD lo IL)) as LH.
  destruct (range_expo_ok tag b lo hi FL FH LH BL BH HB HT) as (te & RE & RO & _).
  assert (TE : -200 <= te <= 200) by apply RO.
  assert (G : forall w, In w ws -> exists t, field_token tag b (widen (word_f32 lo)) (f64_div (f64_pow2 (Z.of_nat b)) (f64_pow2 te)) w = Some t /\ token_for tag b lo te w t).
  { intros w I. destruct (is_tag tag w) eqn:T.
    - exists (all_ones b). unfold field_token. rewrite T. split; [reflexivity|]. unfold all_ones.
      assert (2 ^ 1 <= 2 ^ Z.of_nat b) by (apply Z.pow_le_mono_r; lia). split; [lia|]. split; [reflexivity|]. rewrite T. discriminate.
    - assert (IK : In w (kept tag ws)) by (apply filter_In; split; [exact I|rewrite T; reflexivity]).
      assert (FW : finite_word w) by (rewrite Forall_forall in FK; apply FK; exact IK).
      destruct (field_token_ok tag b lo hi te w _ FL FW (BD w IK) BL (BK w IK) HB RO T (mul_ok b te HB TE)) as (t & E & B1 & B2).
      exists t. split; [exact E|]. assert (0 <= has tag) by (destruct tag; cbn; lia). pose proof (proj1 B2). split; [lia|].
      split; [rewrite T; discriminate|]. intros _. split; [exact B1|exact B2]. }
  destruct (field_tokens_ok _ _ _ _ _ ws G) as (ts & ET & LT & AT).
  set (style1 := style_one hp ap off) in *.
  set (hd := field_header style1 tag b n te (widen (word_f32 lo))).
  assert (X0 : 0 <= te - Z.of_nat b + 4096 < 2 ^ 16) by lia.
  destruct (header_min_ok lo (te - Z.of_nat b + 4096) FL BL X0) as (H1R & H2R & H1X & HK). cbv zeta in H1R, H2R, H1X, HK.
  destruct (word0_ok style1 tag n) as (H0R & H0M & H0C). destruct (word3_ok b n ltac:(lia)) as (H3R & H3B & H3C).
  set (h0 := Z.lor (Z.shiftl (marker style1 tag) 20) (Z.of_nat n mod 2 ^ 20)) in *.
  set (h3 := Z.lor (Z.shiftl (Z.of_nat b) 8) ((Z.of_nat n / 2 ^ 20) mod 2 ^ 8)) in *.
  match type of HK with keeps lo (header_min ?a ?c) => set (h1 := a) in *; set (h2 := c) in * end.
  assert (EH : hd = [h0; h1; h2; h3]) by reflexivity.
  destruct (put_words_spec mem hp hd) as (m1 & P1 & L1 & V1 & F1); [rewrite EH; cbn [length]; lia|].
  assert (WM1 : Forall inr32 m1).
  { apply F1; [exact WM|]. rewrite EH. do 4 (apply Forall_cons; [assumption|]). apply Forall_nil. }
  assert (WT : Forall inr32 ts).
  { apply Forall_forall. intros t I. apply (In_nth _ _ 0) in I as (j & J & <-). destruct (AT j ltac:(lia)) as (B1 & _).
    assert (2 ^ Z.of_nat b <= 2 ^ 32) by (apply Z.pow_le_mono_r; lia). unfold inr32. lia. }
  destruct (pack_tokens_spec orc m1 (32 * ap + off) b (-1) ts) as (m & P2 & L2 & V2 & F2); [lia|exact WM1|exact WT|rewrite LT, LW; lia| |].
  { right. intros t I. apply (In_nth _ _ 0) in I as (j & J & <-). destruct (AT j ltac:(lia)) as (B1 & _).
    rewrite Z.land_m1_r. symmetry. apply Z.mod_small. exact B1. }
  exists m, lo, hi, (header_min h1 h2), te.
  assert (LTB : length (tbits b ts) = (b * n)%nat) by (rewrite tbits_length; congruence).
  assert (S1 : (64 <? b)%nat = false) by (apply Nat.ltb_ge; lia).
  assert (Q0 : (b =? 0)%nat = false) by (apply Nat.eqb_neq; lia).
  assert (Q1 : (b =? 1)%nat && (match tag with Some _ => true | None => false end) = false).
  { destruct tag; [|apply andb_false_r]. specialize (HT ltac:(discriminate)). rewrite (proj2 (Nat.eqb_neq b 1)) by lia. reflexivity. }
  split.
  { unfold compact_float_pack. rewrite Q0, Q1, S1. rewrite (proj2 (Nat.ltb_ge 32 b)) by lia. cbn [orb]. fold style1.
    assert (negb style1 && (2 ^ 28 - 1 <? Z.of_nat n) = false) as ->.
    { destruct PL3 as [->|(_ & N28 & _)]; [reflexivity|]. rewrite (proj2 (Z.ltb_ge _ _)) by lia. apply andb_false_r. }
    rewrite GA. cbn [bind]. rewrite EX. cbn [bind].
    rewrite not_too_large; [|exact FL|exact FH|apply Rabs_le_inv in BH; lra|apply Rabs_le_inv in BL; lra].
    rewrite RE. cbn [bind]. rewrite ET. cbn [bind]. fold hd. rewrite P1. cbn [bind]. rewrite P2. reflexivity. }
  split; [congruence|]. split; [exact F2|].
  assert (LM1 : length (tbits 32 hd) = 128%nat) by (rewrite tbits_length, EH; reflexivity).
  split.
  { intros i I O1 O2. rewrite !bit_at_mbits by (try exact I; rewrite L2, L1; exact I). rewrite V2, overwrite_nth_out; [|rewrite LTB, mbits_length; lia|rewrite LTB; lia].
    rewrite V1, overwrite_nth_out; [reflexivity|rewrite LM1, mbits_length; lia|rewrite LM1; lia]. }
  split; [exact IL|]. split; [exact IH|]. split; [exact BD|]. split; [exact RO|]. split; [exact HK|].
  intros dst HS FD.
  assert (RD : forall i h, nth_error hd i = Some h -> rd m1 (hp + i) = Some h).
  { intros i h E. rewrite (put_words_rd hd mem hp m1 i P1); [exact E|]. apply nth_error_Some. congruence. }
  assert (RM : forall i h, nth_error hd i = Some h -> inr32 h -> (i < 3)%nat -> rd m (hp + i) = Some h).
  { intros i h E I3 LI. apply (word_kept m1 m _ _ _ _ L2 V2); try assumption; [rewrite LTB; lia|apply RD; exact E|]. rewrite LTB.
    destruct PL3 as [ST|(_ & _ & PL3)]; [apply style_one_pos in ST; lia|lia]. }
  pose proof (RM 0%nat h0 eq_refl H0R ltac:(lia)) as R0. rewrite Nat.add_0_r in R0.
  pose proof (RM 1%nat h1 eq_refl H1R ltac:(lia)) as R1.
  pose proof (RM 2%nat h2 eq_refl H2R ltac:(lia)) as R2.
  assert (R3 : exists h3', rd m (hp + 3) = Some h3' /\ Z.shiftr h3' 8 = Z.shiftr h3 8 /\ (style1 = false -> h3' = h3)).
  { destruct PL3 as [ST|(ST & _ & PL3)].
    - pose proof (style_one_pos _ _ _ ST) as SP.
      destruct (word_kept24 m1 m _ _ (hp + 3) h3 L2 V2) as (h' & R' & E'); try assumption; [rewrite LTB; lia|apply (RD 3%nat); reflexivity|lia|].
      exists h'. split; [exact R'|]. split; [exact E'|]. intros C. rewrite C in ST. discriminate.
    - exists h3. split; [|split; [reflexivity|reflexivity]]. apply (word_kept m1 m _ _ _ _ L2 V2); try assumption; [rewrite LTB; lia|apply (RD 3%nat); reflexivity|].
      rewrite LTB. lia. }
  destruct R3 as (h3' & R3 & E3 & E3').
  assert (SL : slice (32 * ap + off) (b * n) (mbits 32 m) = tbits b ts).
  { rewrite V2, <- LTB. apply overwrite_slice. rewrite LTB, mbits_length. lia. }
  destruct (unpack_tokens_spec orc m (32 * ap + off) b (field_value tag b (header_min h1 h2) (f64_pow2 (te - Z.of_nat b))) stride n dst ts) as (d & UE & UL & UA & UB);
    [exact F2|lia|exact HS|congruence|lia|exact SL|exact FD|].
  exists d, ts. split.
  - intros src WS LS RS SS.
    pose proof (RS 0%nat ltac:(lia)) as S0. rewrite Nat.add_0_r, R0 in S0. pose proof (RS 1%nat ltac:(lia)) as S1'. rewrite R1 in S1'. pose proof (RS 2%nat ltac:(lia)) as S2. rewrite R2 in S2. pose proof (RS 3%nat ltac:(lia)) as S3. rewrite R3 in S3.
    destruct (unpack_tokens_spec orc src (32 * ap + off) b (field_value tag b (header_min h1 h2) (f64_pow2 (te - Z.of_nat b))) stride n dst ts) as (d' & UE' & UL' & UA' & UB');
      [exact WS|lia|exact HS|congruence|lia|rewrite SS; exact SL|exact FD|].
    assert (ED : d' = d).
    { apply WaFile.nth_error_ext. intros i. destruct (Nat.eq_dec (i mod stride) 0) as [MZ|MZ]; [destruct (Nat.lt_ge_cases (i / stride) n) as [C|C]|].
      - rewrite (Nat.div_mod i stride ltac:(lia)), MZ, Nat.add_0_r, Nat.mul_comm. rewrite UA, UA' by exact C. reflexivity.
      - rewrite UB, UB'; [reflexivity| |]; intros j J ->; rewrite Nat.div_mul in C by lia; lia.
      - rewrite UB, UB'; [reflexivity| |]; intros j J ->; apply MZ, Nat.mod_mul; lia. }
    rewrite ED in UE'. clear UE ED.
    unfold compact_float_unpack. rewrite Q0, Q1, S0. cbn [bind]. rewrite S1'. cbn [bind]. rewrite S2. cbn [bind]. rewrite S3. cbn [bind].
    cbv zeta. rewrite E3, H3B, Nat2Z.id, H1X. replace (te - Z.of_nat b + 4096 - 4096) with (te - Z.of_nat b) by lia.
    assert (CN : (if (Z.shiftr h0 20 =? 0x7ff) || (Z.shiftr h0 20 =? 0x7ef) then n
                  else Z.to_nat (Z.lor (Z.shiftl (Z.land h3' 0xff) 20) (Z.land h0 0xfffff))) = n).
    { rewrite H0M. destruct style1 eqn:ST.
      - unfold marker. destruct tag; reflexivity.
      - unfold marker. destruct PL3 as [C|(_ & N28 & _)]; [discriminate|].
        assert ((match tag with Some _ => 0xfef | None => 0xfff end =? 0x7ff) || (match tag with Some _ => 0xfef | None => 0xfff end =? 0x7ef) = false) as -> by (destruct tag; reflexivity).
        rewrite (E3' eq_refl), H3C, H0C. pose proof (Z.mod_pos_bound (Z.of_nat n) (2 ^ 20) ltac:(lia)) as N. rewrite lor_add by lia.
        assert (0 <= Z.of_nat n / 2 ^ 20 < 2 ^ 8) by (split; [apply Z.div_pos; lia|apply Z.div_lt_upper_bound; lia]).
        rewrite (Z.mod_small (_ / _)) by lia. pose proof (Z.div_mod (Z.of_nat n) (2 ^ 20) ltac:(lia)). lia. }
    rewrite CN, UE'. reflexivity.
  - split; [congruence|]. split.
    + split; [exact UL|]. split; [|exact UB]. intros j J. rewrite (UA j J). destruct (AT j ltac:(lia)) as (B1 & _). rewrite Z.mod_small by exact B1. reflexivity.
    + intros j J. apply AT. lia.
Qed.
