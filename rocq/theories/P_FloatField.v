(** C48: fields of real numbers packed in tokens of 1 to 32 bits. *)
From Coq Require Import ZArith List Bool Lia Reals Lra.
From Flocq Require Import Core BinarySingleNaN.
From Verif Require Import P_FloatPack Bits BitIO BitIOFacts SpecPack CompactInt CompactIntFacts CompactIntMain Flo FloatPack FloatWords FloatField FloatDouble FloatPackFacts FloatFieldFacts FloatFieldValue FloatFieldHeader FloatFieldMain.
Import ListNotations.
Open Scope Z_scope.
Open Scope opt_scope.

(** Specification (with [ieee32] and [number32] of P_FloatPack.v: the number a
    word stands for, and the words that stand for one). *)

(** A value is missing when it is equal to the tag of missing values. *)
Definition missing (tag : option Z) (w : Z) : Prop :=
  match tag with Some t => ieee32 w = ieee32 t | None => False end.
(** One code is kept for the missing values, if there can be any. *)
Definition codes (tag : option Z) (b : nat) : R := (bpow radix2 (Z.of_nat b) - match tag with Some _ => 1 | None => 0 end)%R.
(** The fields that can be packed: numbers, those not missing within 10^38, and
    not all of them missing. *)
Definition packable_field (tag : option Z) (field : list Z) (stride n : nat) : Prop :=
  fits field stride n /\
  (forall t, tag = Some t -> number32 t) /\
  (forall j, (j < n)%nat -> number32 (elt field stride j)) /\
  (forall j, (j < n)%nat -> ~ missing tag (elt field stride j) -> (Rabs (ieee32 (elt field stride j)) <= IZR (10 ^ 38))%R) /\
  (exists j, (j < n)%nat /\ ~ missing tag (elt field stride j)).
(** Where the header (at word [hp]) and the tokens (at bit [off] of word [ap])
    lie in a memory of [len] words: the tokens follow the 120 bits of the header,
    or are apart from its 4 words; one more bit follows them. *)
Definition layout (hp ap off b n len : nat) : Prop :=
  (hp + 4 <= len)%nat /\ (32 * ap + off + b * n < 32 * len)%nat /\
  ((ap = hp + 3 /\ off = 24)%nat \/ (ap = hp /\ off = 120)%nat \/
   (Z.of_nat n < 2 ^ 28 /\ (32 * (hp + 4) <= 32 * ap + off \/ 32 * ap + off + b * n <= 32 * hp)%nat)).
Definition width_ok (tag : option Z) (b : nat) : Prop := (1 <= b <= 32)%nat /\ (tag <> None -> (2 <= b)%nat).

Lemma is_tag_missing tag w : (forall t, tag = Some t -> number32 t) -> number32 w -> is_tag tag w = true <-> missing tag w.
Proof.
  intros HT HW. destruct tag as [t|]; cbn [is_tag missing]; [|split; [discriminate|contradiction]].
  pose proof (HT t eq_refl) as Ht. unfold f32_eqb.
  rewrite !ieee32_f32 by assumption.
  destruct (word_value w HW) as (_ & FW & _). destruct (word_value t Ht) as (_ & Ft & _).
  rewrite Beqb_correct by assumption. fold (r32 (word_f32 w)) (r32 (word_f32 t)).
  destruct (Req_bool_spec (r32 (word_f32 w)) (r32 (word_f32 t))); intuition congruence.
Qed.

(** The link to the lemmas of the model. *)
Lemma start tag field (mem : list Z) hp ap off n b stride : packable_field tag field stride n -> width_ok tag b -> layout hp ap off b n (length mem) ->
  exists ws, gather field stride n = Some ws /\ length ws = n /\ (forall j, (j < n)%nat -> nth j ws 0 = elt field stride j) /\
    placed hp ap off b n (length mem) /\ kept tag ws <> [] /\ Forall finite_word (kept tag ws) /\
    (forall w, In w (kept tag ws) -> (Rabs (V w) <= big)%R) /\
    (forall j, (j < n)%nat -> ~ missing tag (elt field stride j) -> In (elt field stride j) (kept tag ws)).
Proof.
  intros (FI & TN & NU & BG & (j0 & J0 & NM)) (HB & _) (L1 & L2 & L3).
  exists (map (fun j => nth (j * stride) field 0) (seq 0 n)). split; [apply gather_spec; exact FI|].
  split; [rewrite map_length, seq_length; reflexivity|].
  assert (NT : forall j, (j < n)%nat -> nth j (map (fun j => nth (j * stride) field 0) (seq 0 n)) 0 = elt field stride j).
  { intros j J. rewrite nth_map_seq by exact J. reflexivity. }
  split; [exact NT|].
  set (ws := map _ _) in *. assert (LW : length ws = n) by (unfold ws; rewrite map_length, seq_length; reflexivity).
  assert (IK : forall w, In w (kept tag ws) -> exists j, (j < n)%nat /\ w = elt field stride j /\ ~ missing tag w).
  { intros w I. apply filter_In in I as [I T]. apply (In_nth _ _ 0) in I as (j & J & <-). rewrite LW in J.
    exists j. rewrite (NT j J) in *. split; [exact J|]. split; [reflexivity|]. intros M.
    apply (is_tag_missing tag _ TN (NU j J)) in M. rewrite M in T. discriminate. }
  assert (KI : forall j, (j < n)%nat -> ~ missing tag (elt field stride j) -> In (elt field stride j) (kept tag ws)).
  { intros j J M. apply filter_In. split; [rewrite <- (NT j J); apply nth_In; lia|].
    destruct (is_tag tag (elt field stride j)) eqn:T; [|reflexivity]. apply (is_tag_missing tag _ TN (NU j J)) in T. contradiction. }
  split; [split; [exact L1|]; split; [exact L2|]|split; [|split; [|split; [|exact KI]]]].
  - unfold style_one. destruct L3 as [[-> ->]|[[-> ->]|(N28 & AP)]].
    + left. rewrite !Nat.eqb_refl. reflexivity.
    + left. rewrite !Nat.eqb_refl. apply orb_true_r.
    + right. split; [|split; assumption]. assert (NB : (1 <= b * n)%nat) by nia.
      apply orb_false_intro; apply andb_false_iff.
      * destruct (Nat.eq_dec off 24) as [E|E]; [left|right]; apply Nat.eqb_neq; lia.
      * destruct (Nat.eq_dec off 120) as [E|E]; [left|right]; apply Nat.eqb_neq; lia.
  - intros E. pose proof (KI j0 J0 NM) as I. rewrite E in I. contradiction.
  - apply Forall_forall. intros w I. destruct (IK w I) as (j & J & -> & _). apply NU. exact J.
  - intros w I. destruct (IK w I) as (j & J & E & M). unfold V. rewrite <- ieee32_sval. rewrite E in *. apply BG; assumption.
Qed.

Lemma ieee_V w : ieee32 w = V w.
Proof. apply ieee32_sval. Qed.

Section Fields.
  Variables (orc : oracle) (field mem dst : list Z) (hp ap off n b stride : nat) (tag : option Z).
  Hypothesis PF : packable_field tag field stride n.
  Hypothesis WO : width_ok tag b.
  Hypothesis LA : layout hp ap off b n (length mem).
  Hypothesis WM : words_ok mem.
  Hypothesis HS : (1 <= stride)%nat.
  Hypothesis FD : fits dst stride n.

  Lemma both : exists m d lo hi mn te ts,
    compact_float_pack orc field mem hp ap off n b stride tag = Some (FDone m) /\
    compact_float_unpack orc dst m hp ap off n b stride tag = Some (Some d) /\
    length m = length mem /\ words_ok m /\
    (forall i, (i < 32 * length mem)%nat -> (i < 32 * hp \/ 32 * hp + 128 <= i)%nat -> (i < 32 * ap + off \/ 32 * ap + off + b * n <= i)%nat -> bit_at m i = bit_at mem i) /\
    finite_word lo /\ finite_word hi /\ (Rabs (V lo) <= big)%R /\ (Rabs (V hi) <= big)%R /\
    (exists j, (j < n)%nat /\ ~ missing tag (elt field stride j) /\ elt field stride j = lo) /\
    (exists j, (j < n)%nat /\ ~ missing tag (elt field stride j) /\ elt field stride j = hi) /\
    (forall j, (j < n)%nat -> ~ missing tag (elt field stride j) -> sval lo <= sval (elt field stride j) <= sval hi) /\
    range_ok tag b lo hi te /\ keeps lo mn /\
    updated dst d stride n (elt d stride) /\
    forall j, (j < n)%nat -> elt d stride j = field_value tag b mn (f64_pow2 (te - Z.of_nat b)) (nth j ts 0) /\
      token_for tag b lo te (elt field stride j) (nth j ts 0).
  Proof.
    destruct (start tag field mem hp ap off n b stride PF WO LA) as (ws & GA & LW & NT & PL & NE & FK & BK & KI).
    destruct WO as (HB & HT). pose proof PF as (_ & TN & NU & _).
    destruct (pack_unpack orc field mem hp ap off n b stride tag ws HB HT PL WM GA LW NE FK BK)
      as (m & lo & hi & mn & te & EP & LM & WM' & FR & IL & IH & BD & RO & KE & UN).
    destruct (UN dst HS FD) as (d & ts & EU0 & LT & UP & TK). pose proof (EU0 m WM' ltac:(rewrite LM; apply LA) (fun _ _ => eq_refl) eq_refl) as EU.
    assert (G : forall w, In w (kept tag ws) -> exists j, (j < n)%nat /\ ~ missing tag (elt field stride j) /\ elt field stride j = w).
    { intros w I. apply filter_In in I as [I T]. apply (In_nth _ _ 0) in I as (j & J & <-). rewrite LW in J.
      exists j. rewrite (NT j J) in *. split; [exact J|]. split; [|reflexivity]. intros M.
      apply (is_tag_missing tag _ TN (NU j J)) in M. rewrite M in T. discriminate. }
    exists m, d, lo, hi, mn, te, ts. split; [exact EP|]. split; [exact EU|]. split; [exact LM|]. split; [exact WM'|]. split; [exact FR|].
    rewrite Forall_forall in FK. split; [apply FK, IL|]. split; [apply FK, IH|]. split; [apply BK, IL|]. split; [apply BK, IH|].
    split; [apply G, IL|]. split; [apply G, IH|]. split; [intros j J M; apply BD, KI; assumption|].
    split; [exact RO|]. split; [exact KE|].
    destruct UP as (U1 & U2 & U3).
    assert (U4 : forall j, (j < n)%nat -> elt d stride j = field_value tag b mn (f64_pow2 (te - Z.of_nat b)) (nth j ts 0)).
    { intros j J. unfold elt. apply nth_error_nth. apply U2. exact J. }
    split.
    - split; [exact U1|]. split; [|exact U3]. intros j J. rewrite (U4 j J). apply U2. exact J.
    - intros j J. split; [apply U4; exact J|]. rewrite <- (NT j J). apply TK. exact J.
  Qed.

  (** A missing value is read as the tag; any other is read with a bounded error.
      The cells of the result between those of the field keep their values. *)
  Lemma sec_error lo hi : (forall j, (j < n)%nat -> ~ missing tag (elt field stride j) -> (lo <= ieee32 (elt field stride j) <= hi)%R) ->
    exists m d, compact_float_pack orc field mem hp ap off n b stride tag = Some (FDone m) /\
      compact_float_unpack orc dst m hp ap off n b stride tag = Some (Some d) /\
      updated dst d stride n (elt d stride) /\
      forall j, (j < n)%nat ->
        (missing tag (elt field stride j) -> Some (elt d stride j) = tag) /\
        (~ missing tag (elt field stride j) -> number32 (elt d stride j) /\
          (Rabs (ieee32 (elt d stride j) - ieee32 (elt field stride j)) <=
             2 * (hi - lo) / codes tag b + Rmax (Rabs lo) (Rabs hi) / bpow radix2 23 + bpow radix2 (-126))%R).
  Proof.
    intros BND. destruct both as (m & d & l & h & mn & te & ts & EP & EU & _ & _ & _ & FL & FH & BL & BH & (jl & JL & ML & EL) & (jh & JH & MH & EH) & BD & RO & (FM & MN & MB & MX) & UP & TK).
    exists m, d. split; [exact EP|]. split; [exact EU|]. split; [exact UP|]. intros j J. destruct (TK j J) as (EV & T0 & T1 & T2).
    pose proof PF as (_ & TN & NU & _). destruct WO as (HB & HT).
    split.
    - intros M. apply (is_tag_missing tag _ TN (NU j J)) in M. rewrite EV, (T1 M). unfold field_value. destruct tag as [t|]; [|discriminate M].
      rewrite Z.eqb_refl. reflexivity.
    - intros M. assert (NTG : is_tag tag (elt field stride j) = false).
      { destruct (is_tag tag (elt field stride j)) eqn:T; [|reflexivity]. apply (is_tag_missing tag _ TN (NU j J)) in T. contradiction. }
      destruct (T2 NTG) as (T3 & T4). set (w := elt field stride j) in *. set (t := nth j ts 0) in *. set (s := te - Z.of_nat b) in *.
      pose proof (BD j J M) as (B1 & B2). fold w in B1, B2.
      pose proof (BND jl JL ML) as X1. pose proof (BND jh JH MH) as X2. rewrite EL in X1. rewrite EH in X2. rewrite ieee_V in X1, X2.
      pose proof (proj1 (V_le _ _) B1) as V1. pose proof (proj1 (V_le _ _) B2) as V2.
      assert (HS' : -300 <= s <= 300) by (destruct RO as (TE & _); unfold s; lia).
      assert (T32 : t < 2 ^ 32) by (assert (2 ^ Z.of_nat b <= 2 ^ 32) by (apply Z.pow_le_mono_r; lia); lia).
      assert (NO : tag <> None -> t <> all_ones b).
      { intros C. unfold all_ones. destruct tag; [|contradiction]. cbn [has] in T3. lia. }
      set (M0 := Rmax (Rabs (V l)) (Rabs (V h))).
      assert (MW : (Rabs (V w) <= M0)%R).
      { unfold M0. pose proof (Rmax_l (Rabs (V l)) (Rabs (V h))). pose proof (Rmax_r (Rabs (V l)) (Rabs (V h))).
        pose proof (Rle_abs (V h)). pose proof (Rle_abs (- V l)). rewrite Rabs_Ropp in *. apply Rabs_le. lra. }
      destruct (value_near tag b l mn w s t M0 FM B1 (Rmax_l _ _) MW ltac:(apply Rmax_lub; assumption) MN MB HS' T32 T4 NO) as (FD' & ER).
      rewrite EV. split; [exact FD'|]. rewrite !ieee_V.
      assert (M1 : (M0 <= Rmax (Rabs lo) (Rabs hi))%R).
      { unfold M0. pose proof (Rmax_l (Rabs lo) (Rabs hi)). pose proof (Rmax_r (Rabs lo) (Rabs hi)).
        pose proof (Rle_abs hi). pose proof (Rle_abs (- lo)). rewrite Rabs_Ropp in *. apply Rmax_lub; apply Rabs_le; lra. }
      assert (CO : (1 <= codes tag b)%R /\ (codes tag b = bpow radix2 (Z.of_nat b) - IZR (has tag))%R).
      { unfold codes. assert (bpow radix2 1 <= bpow radix2 (Z.of_nat b))%R by (apply bpow_le; lia). change (bpow radix2 1) with 2%R in *.
        destruct tag; cbn [has]; split; lra. }
      destruct CO as (C1 & C2).
      assert (DV : (0 <= 2 * (hi - lo) / codes tag b)%R).
      { apply Rmult_le_pos; [lra|]. apply Rlt_le, Rinv_0_lt_compat. lra. }
      pose proof (Rabs_pos (V l)) as P0. pose proof (Rmax_l (Rabs (V l)) (Rabs (V h))) as P1. fold M0 in P1.
      change (bpow radix2 23) with 8388608%R. change (bpow radix2 (-24)) with (/ 16777216)%R in ER. change (bpow radix2 (-36)) with (/ 68719476736)%R in ER.
      destruct (Z.eq_dec (sval l) (sval h)) as [E|N].
      + (* a constant field *)
        assert (t = 0) as Z0.
        { destruct T4 as (A1 & A2 & _). rewrite (diff_0 l w) in A2 by lia. pose proof (bpow_gt_0 radix2 s).
          apply Z.le_antisymm; [|exact A1]. apply le_IZR. nra. }
        assert (EVM : field_value tag b mn (f64_pow2 s) t = mn).
        { unfold field_value. rewrite (proj2 (Z.eqb_eq t 0) Z0). destruct tag as [g|]; [|reflexivity].
          rewrite (proj2 (Z.eqb_neq t (all_ones b))) by (apply NO; discriminate). reflexivity. }
        rewrite EVM. replace (V w) with (V l) by (unfold V; do 2 f_equal; lia). eapply Rle_trans; [exact MN|].
        assert (bpow radix2 (-127) <= bpow radix2 (-126))%R by (apply bpow_le; lia). lra.
      + destruct RO as (_ & _ & RO). specialize (RO ltac:(lia)). fold s in RO. rewrite <- C2 in RO.
        pose proof (diff_err l h ltac:(lia)) as DE. apply Rabs_le_inv in DE. change (bpow radix2 (-53)) with (/ 9007199254740992)%R in DE.
        pose proof (Rle_abs (V h)). pose proof (Rle_abs (- V l)). rewrite Rabs_Ropp in *.
        pose proof (Rmax_r (Rabs (V l)) (Rabs (V h))) as P2. fold M0 in P2.
        assert (S1 : (bpow radix2 s <= 2 * (hi - lo) / codes tag b + / 1125899906842624 * M0)%R).
        { apply Rmult_le_reg_r with (codes tag b); [lra|]. eapply Rle_trans; [exact RO|].
          replace ((2 * (hi - lo) / codes tag b + / 1125899906842624 * M0) * codes tag b)%R
            with (2 * (hi - lo) + / 1125899906842624 * (M0 * codes tag b))%R by (field; lra).
          assert (M0 <= M0 * codes tag b)%R by nra. lra. }
        lra.
  Qed.

  (** Order is kept. *)
  Lemma sec_order m d i j : compact_float_pack orc field mem hp ap off n b stride tag = Some (FDone m) ->
    compact_float_unpack orc dst m hp ap off n b stride tag = Some (Some d) ->
    (i < n)%nat -> (j < n)%nat -> ~ missing tag (elt field stride i) -> ~ missing tag (elt field stride j) ->
    (ieee32 (elt field stride i) <= ieee32 (elt field stride j))%R -> (ieee32 (elt d stride i) <= ieee32 (elt d stride j))%R.
  Proof.
    intros EP' EU' I J MI MJ LE. destruct both as (m' & d' & l & h & mn & te & ts & EP & EU & _ & _ & _ & FL & FH & BL & BH & _ & _ & BD & RO & (FM & MN & MB & MX) & UP & TK).
    rewrite EP in EP'. injection EP' as ->. rewrite EU in EU'. injection EU' as ->.
    pose proof PF as (_ & TN & NU & BG & _). destruct WO as (HB & HT).
    assert (NTG : forall k, (k < n)%nat -> ~ missing tag (elt field stride k) -> is_tag tag (elt field stride k) = false).
    { intros k K M. destruct (is_tag tag (elt field stride k)) eqn:T; [|reflexivity]. apply (is_tag_missing tag _ TN (NU k K)) in T. contradiction. }
    destruct (TK i I) as (EI & _ & _ & TI). destruct (TK j J) as (EJ & _ & _ & TJ). destruct (TI (NTG i I MI)) as (TI3 & TI4). destruct (TJ (NTG j J MJ)) as (TJ3 & TJ4).
    rewrite EI, EJ, !ieee_V. rewrite !ieee_V in LE. apply V_le in LE.
    assert (2 ^ Z.of_nat b <= 2 ^ 32) by (apply Z.pow_le_mono_r; lia). assert (0 <= has tag) by (destruct tag; cbn; lia).
    assert (NO : forall t, t < 2 ^ Z.of_nat b - has tag -> tag <> None -> t <> all_ones b).
    { intros t T C. unfold all_ones. destruct tag; [|contradiction]. cbn [has] in T. lia. }
    assert (-300 <= te - Z.of_nat b <= 300) by (destruct RO as (TE & _); lia).
    pose proof (BD j J MJ) as (B1 & B2). pose proof (BG j J MJ) as B3. rewrite ieee_V in B3.
    apply value_order; try assumption.
    - split; [apply TI4|]. exact (token_order l _ _ _ _ _ LE TI4 TJ4).
    - lia.
    - intros C. split; apply NO; assumption.
    - exact (room l mn (elt field stride j) _ _ big B1 BL B3 (Rle_refl _) MN TJ4).
  Qed.

  (** The smallest number is exact when it is 0 or not subnormal. *)
  Lemma sec_minimum m d j : compact_float_pack orc field mem hp ap off n b stride tag = Some (FDone m) ->
    compact_float_unpack orc dst m hp ap off n b stride tag = Some (Some d) ->
    (j < n)%nat -> ~ missing tag (elt field stride j) ->
    (forall i, (i < n)%nat -> ~ missing tag (elt field stride i) -> (ieee32 (elt field stride j) <= ieee32 (elt field stride i))%R) ->
    (ieee32 (elt field stride j) = 0 \/ bpow radix2 (-126) <= Rabs (ieee32 (elt field stride j)))%R ->
    ieee32 (elt d stride j) = ieee32 (elt field stride j).
  Proof.
    intros EP' EU' J MJ MIN SUB. destruct both as (m' & d' & l & h & mn & te & ts & EP & EU & _ & _ & _ & FL & FH & BL & BH & (jl & JL & ML & EL) & _ & BD & RO & (FM & MN & MB & MX) & UP & TK).
    rewrite EP in EP'. injection EP' as ->. rewrite EU in EU'. injection EU' as ->.
    pose proof PF as (_ & TN & NU & BG & _). destruct WO as (HB & HT).
    destruct (TK j J) as (EJ & _ & _ & TJ).
    assert (NTG : is_tag tag (elt field stride j) = false).
    { destruct (is_tag tag (elt field stride j)) eqn:T; [|reflexivity]. apply (is_tag_missing tag _ TN (NU j J)) in T. contradiction. }
    destruct (TJ NTG) as (T3 & A1 & A2 & _). set (w := elt field stride j) in *.
    pose proof (MIN jl JL ML) as LE. rewrite EL, !ieee_V in LE. apply V_le in LE. pose proof (BD j J MJ) as (B1 & _). fold w in B1.
    assert (E : sval w = sval l) by lia.
    assert (nth j ts 0 = 0) as Z0.
    { rewrite (diff_0 l w E) in A2. pose proof (bpow_gt_0 radix2 (te - Z.of_nat b)). apply Z.le_antisymm; [|exact A1]. apply le_IZR. nra. }
    rewrite EJ, Z0. assert (EVM : field_value tag b mn (f64_pow2 (te - Z.of_nat b)) 0 = mn).
    { unfold field_value. destruct tag as [g|]; [|reflexivity]. assert (2 ^ 2 <= 2 ^ Z.of_nat b) by (apply Z.pow_le_mono_r; specialize (HT ltac:(discriminate)); lia).
      rewrite (proj2 (Z.eqb_neq 0 (all_ones b))) by (unfold all_ones; lia). reflexivity. }
    rewrite EVM, !ieee_V. unfold V. rewrite MX; [rewrite E; reflexivity|].
    destruct SUB as [Z|S].
    - left. rewrite ieee_V in Z. unfold V in Z. pose proof u_gt. apply Rmult_integral in Z as [Z|Z]; [apply eq_IZR in Z; congruence|lra].
    - right. change (-126) with (0 - 126) in S. rewrite ieee_V in S. replace (V w) with (V l) in S by (unfold V; rewrite E; reflexivity).
      rewrite <- ieee_V in S. apply (ieee32_abs l 0) in S; lia.
  Qed.

  (** The memory changes only in the 4 words of the header and in the tokens. *)
  Lemma sec_frame m : compact_float_pack orc field mem hp ap off n b stride tag = Some (FDone m) ->
    length m = length mem /\ words_ok m /\
    forall i, (i < 32 * length mem)%nat -> (i < 32 * hp \/ 32 * hp + 128 <= i)%nat -> (i < 32 * ap + off \/ 32 * ap + off + b * n <= i)%nat -> bit_at m i = bit_at mem i.
  Proof.
    intros EP'. destruct both as (m' & d' & l & h & mn & te & ts & EP & _ & LM & WM' & FR & _).
    rewrite EP in EP'. injection EP' as ->. split; [exact LM|]. split; [exact WM'|exact FR].
  Qed.
End Fields.

(** A missing value is read as the tag; any other is read with a bounded error.
    The cells of the result between those of the field keep their values. *)
Theorem c48_error orc field mem dst hp ap off n b stride tag lo hi : packable_field tag field stride n -> width_ok tag b -> layout hp ap off b n (length mem) -> words_ok mem ->
  (1 <= stride)%nat -> fits dst stride n ->
  (forall j, (j < n)%nat -> ~ missing tag (elt field stride j) -> (lo <= ieee32 (elt field stride j) <= hi)%R) ->
  exists m d, compact_float_pack orc field mem hp ap off n b stride tag = Some (FDone m) /\
    compact_float_unpack orc dst m hp ap off n b stride tag = Some (Some d) /\
    updated dst d stride n (elt d stride) /\
    forall j, (j < n)%nat ->
      (missing tag (elt field stride j) -> Some (elt d stride j) = tag) /\
      (~ missing tag (elt field stride j) -> number32 (elt d stride j) /\
        (Rabs (ieee32 (elt d stride j) - ieee32 (elt field stride j)) <=
           2 * (hi - lo) / codes tag b + Rmax (Rabs lo) (Rabs hi) / bpow radix2 23 + bpow radix2 (-126))%R).
Proof. intros. eapply sec_error with (lo := lo) (hi := hi); eassumption. Qed.
Print Assumptions c48_error.

(** The order of the numbers is kept. *)
Theorem c48_order orc field mem dst hp ap off n b stride tag m d i j : packable_field tag field stride n -> width_ok tag b -> layout hp ap off b n (length mem) -> words_ok mem ->
  (1 <= stride)%nat -> fits dst stride n ->
  compact_float_pack orc field mem hp ap off n b stride tag = Some (FDone m) ->
  compact_float_unpack orc dst m hp ap off n b stride tag = Some (Some d) ->
  (i < n)%nat -> (j < n)%nat -> ~ missing tag (elt field stride i) -> ~ missing tag (elt field stride j) ->
  (ieee32 (elt field stride i) <= ieee32 (elt field stride j))%R -> (ieee32 (elt d stride i) <= ieee32 (elt d stride j))%R.
Proof. intros. eapply sec_order with (mem := mem) (m := m); eassumption. Qed.
Print Assumptions c48_order.

(** The smallest number is exact when it is 0 or not subnormal. So is every
    number of a constant field. *)
Theorem c48_minimum orc field mem dst hp ap off n b stride tag m d j : packable_field tag field stride n -> width_ok tag b -> layout hp ap off b n (length mem) -> words_ok mem ->
  (1 <= stride)%nat -> fits dst stride n ->
  compact_float_pack orc field mem hp ap off n b stride tag = Some (FDone m) ->
  compact_float_unpack orc dst m hp ap off n b stride tag = Some (Some d) ->
  (j < n)%nat -> ~ missing tag (elt field stride j) ->
  (forall i, (i < n)%nat -> ~ missing tag (elt field stride i) -> (ieee32 (elt field stride j) <= ieee32 (elt field stride i))%R) ->
  (ieee32 (elt field stride j) = 0 \/ bpow radix2 (-126) <= Rabs (ieee32 (elt field stride j)))%R ->
  ieee32 (elt d stride j) = ieee32 (elt field stride j).
Proof. intros. eapply sec_minimum with (mem := mem) (m := m); eassumption. Qed.
Print Assumptions c48_minimum.

(** The memory changes only in the 4 words of the header and in the tokens. *)
Theorem c48_frame orc field mem hp ap off n b stride tag m : packable_field tag field stride n -> width_ok tag b -> layout hp ap off b n (length mem) -> words_ok mem -> (1 <= stride)%nat ->
  compact_float_pack orc field mem hp ap off n b stride tag = Some (FDone m) ->
  length m = length mem /\ words_ok m /\
  forall i, (i < 32 * length mem)%nat -> (i < 32 * hp \/ 32 * hp + 128 <= i)%nat -> (i < 32 * ap + off \/ 32 * ap + off + b * n <= i)%nat -> bit_at m i = bit_at mem i.
Proof. intros. eapply sec_frame with (field := field) (dst := field) (orc := orc) (tag := tag); try eassumption. apply H. Qed.
Print Assumptions c48_frame.

(** What is refused: no bits, 1 bit with missing values, 2^28 numbers or more
    apart from their header (NULL), and a number that is not missing above 10^38
    by one part in 2^52 or more (the program ends). *)
Theorem c48_refused orc field mem hp ap off n b stride tag :
  (b = 0%nat \/ (b = 1%nat /\ tag <> None) ->
     compact_float_pack orc field mem hp ap off n b stride tag = Some FNull /\
     compact_float_unpack orc field mem hp ap off n b stride tag = Some None) /\
  (width_ok tag b -> 2 ^ 28 <= Z.of_nat n -> (32 * ap + off <> 32 * hp + 120)%nat ->
     compact_float_pack orc field mem hp ap off n b stride tag = Some FNull) /\
  (width_ok tag b -> Z.of_nat n < 2 ^ 28 -> fits field stride n -> (forall t, tag = Some t -> number32 t) ->
     (forall j, (j < n)%nat -> number32 (elt field stride j)) ->
     (exists j, (j < n)%nat /\ ~ missing tag (elt field stride j) /\ (IZR (10 ^ 38) * (1 + bpow radix2 (-52)) < Rabs (ieee32 (elt field stride j)))%R) ->
     compact_float_pack orc field mem hp ap off n b stride tag = Some FExit).
Proof.
  split; [|split].
  - intros [->|[-> T]]; [split; reflexivity|]. destruct tag; [split; reflexivity|contradiction].
  - intros (HB & HT) N S. unfold compact_float_pack. rewrite (proj2 (Nat.eqb_neq b 0)) by lia.
    assert ((b =? 1)%nat && (match tag with Some _ => true | None => false end) = false) as ->.
    { destruct tag; [|apply andb_false_r]. specialize (HT ltac:(discriminate)). rewrite (proj2 (Nat.eqb_neq b 1)) by lia. reflexivity. }
    rewrite (proj2 (Nat.ltb_ge 64 b)) by lia. rewrite (proj2 (Nat.ltb_ge 32 b)) by lia. cbn [orb].
    assert (style_one hp ap off = false) as ->.
    { destruct (style_one hp ap off) eqn:E; [|reflexivity]. apply style_one_pos in E. contradiction. }
    rewrite (proj2 (Z.ltb_lt _ _)) by lia. reflexivity.
  - intros (HB & HT) N FI TN NU (j & J & MJ & BJ). unfold compact_float_pack. rewrite (proj2 (Nat.eqb_neq b 0)) by lia.
    assert ((b =? 1)%nat && (match tag with Some _ => true | None => false end) = false) as ->.
    { destruct tag; [|apply andb_false_r]. specialize (HT ltac:(discriminate)). rewrite (proj2 (Nat.eqb_neq b 1)) by lia. reflexivity. }
    rewrite (proj2 (Nat.ltb_ge 64 b)) by lia. rewrite (proj2 (Nat.ltb_ge 32 b)) by lia. cbn [orb].
    rewrite (proj2 (Z.ltb_ge _ _)) by lia. rewrite andb_false_r. rewrite (gather_spec _ _ _ FI). cbn [bind].
    set (ws := map _ _).
    assert (NT : forall j, (j < n)%nat -> nth j ws 0 = elt field stride j) by (intros k K; unfold ws; rewrite nth_map_seq by exact K; reflexivity).
    assert (LW : length ws = n) by (unfold ws; rewrite map_length, seq_length; reflexivity).
    assert (IK : In (elt field stride j) (kept tag ws)).
    { apply filter_In. split; [rewrite <- (NT j J); apply nth_In; lia|].
      destruct (is_tag tag (elt field stride j)) eqn:T; [|reflexivity]. apply (is_tag_missing tag _ TN (NU j J)) in T. contradiction. }
    assert (FK : Forall finite_word (kept tag ws)).
    { apply Forall_forall. intros w I. apply filter_In in I as [I _]. apply (In_nth _ _ 0) in I as (k & K & <-). rewrite LW in K. rewrite (NT k K). apply NU. exact K. }
    destruct (extremes_ok tag ws ltac:(intros C; rewrite C in IK; contradiction) FK) as (lo & hi & EX & IL & IH & BD).
    rewrite EX. cbn [bind]. rewrite Forall_forall in FK. rewrite too_large; [reflexivity|apply FK, IL|apply FK, IH|].
    destruct (BD _ IK) as (B1 & B2). apply V_le in B1, B2. rewrite ieee_V in BJ. fold big in BJ.
    destruct (Rcase_abs (V (elt field stride j))) as [C|C]; [rewrite Rabs_left in BJ by exact C; right; lra|rewrite Rabs_right in BJ by exact C; left; lra].
Qed.
Print Assumptions c48_refused.

(** A field that meets the hypotheses: 1, missing, 2.5, -100, 4 with stride 1 in
    12 bits after the header, and with the header apart from the tokens. *)
Definition demo_field : list Z := [0x3f800000; 0xc479c000; 0x40200000; 0xc2c80000; 0x40800000].
Definition demo_tag : option Z := Some 0xc479c000.
Lemma demo_values : ieee32 0x3f800000 = 1%R /\ ieee32 0xc479c000 = (-999)%R /\ ieee32 0x40200000 = (5 / 2)%R /\ ieee32 0xc2c80000 = (-100)%R /\ ieee32 0x40800000 = 4%R.
Proof.
  rewrite !ieee32_sval.
  change (sval 0x3f800000) with (8388608 * 2 ^ 126). change (sval 0xc479c000) with (-16367616 * 2 ^ 135). change (sval 0x40200000) with (10485760 * 2 ^ 127).
  change (sval 0xc2c80000) with (-13107200 * 2 ^ 132). change (sval 0x40800000) with (8388608 * 2 ^ 128).
  rewrite !mult_IZR. change (2 ^ 126) with (radix2 ^ 126). change (2 ^ 135) with (radix2 ^ 135). change (2 ^ 127) with (radix2 ^ 127).
  change (2 ^ 132) with (radix2 ^ 132). change (2 ^ 128) with (radix2 ^ 128). rewrite !IZR_Zpower by lia. rewrite !Rmult_assoc, <- !bpow_plus.
  change (bpow radix2 (126 + -149)) with (/ 8388608)%R. change (bpow radix2 (135 + -149)) with (/ 16384)%R. change (bpow radix2 (127 + -149)) with (/ 4194304)%R.
  change (bpow radix2 (132 + -149)) with (/ 131072)%R. change (bpow radix2 (128 + -149)) with (/ 2097152)%R.
  repeat split; field.
Qed.
Lemma demo_ok : packable_field demo_tag demo_field 1 5 /\ width_ok demo_tag 12 /\
  layout 1 4 24 12 5 8 /\ layout 0 4 0 12 5 8 /\ words_ok (repeat 0 8) /\ fits (repeat 0 5) 1 5.
Proof.
  destruct demo_values as (V1 & V2 & V3 & V4 & V5).
  assert (B : (1000 <= IZR (10 ^ 38))%R) by (apply IZR_le; vm_compute; discriminate).
  split; [|split; [split; [lia|intros _; lia]|split; [unfold layout; lia|split; [|split]]]].
  - split; [intros j J; cbn [length demo_field]; lia|]. split; [intros t E; injection E as <-; split; [lia|vm_compute; discriminate]|].
    split; [|split].
    + intros j J. do 5 (destruct j as [|j]; [split; [cbn [elt demo_field nth Nat.mul Nat.add]; lia|vm_compute; discriminate]|]). lia.
    + intros j J _. do 5 (destruct j as [|j]; [cbn [elt demo_field nth Nat.mul Nat.add]; rewrite ?V1, ?V2, ?V3, ?V4, ?V5; apply Rabs_le; lra|]). lia.
    + exists 0%nat. split; [lia|]. cbn [missing demo_tag elt demo_field nth Nat.mul]. rewrite V1, V2. lra.
  - unfold layout. lia.
  - apply Forall_forall. intros w I. apply repeat_spec in I. lia.
  - intros j J. rewrite repeat_length. lia.
Qed.
Definition demo_trip (hp ap off : nat) : option (option (list Z)) :=
  match compact_float_pack x86 demo_field (repeat 0 8) hp ap off 5 12 1 demo_tag with
  | Some (FDone m) => compact_float_unpack x86 (repeat 0 5) m hp ap off 5 12 1 demo_tag
  | _ => None
  end.
Example c48_demo : demo_trip 1 4 24 = Some (Some demo_field) /\ demo_trip 0 4 0 = Some (Some demo_field).
Proof. split; vm_compute; reflexivity. Qed.

(** A subnormal minimum is not kept, although every number of the field is equal:
    2^-127 is read as 0. *)
Theorem c48_tiny_refuted : exists m, compact_float_pack x86 [2 ^ 22; 2 ^ 22] (repeat 0 8) 0 3 24 2 12 1 None = Some (FDone m) /\
  compact_float_unpack x86 [7; 7] m 0 3 24 2 12 1 None = Some (Some [0; 0]) /\ ieee32 (2 ^ 22) = bpow radix2 (-127).
Proof.
  exists (match compact_float_pack x86 [2 ^ 22; 2 ^ 22] (repeat 0 8) 0 3 24 2 12 1 None with Some (FDone m) => m | _ => [] end).
  split; [vm_compute; reflexivity|]. split; [vm_compute; reflexivity|].
  rewrite ieee32_sval. change (sval (2 ^ 22)) with (radix2 ^ 22). rewrite IZR_Zpower, <- bpow_plus by lia. reflexivity.
Qed.
Print Assumptions c48_tiny_refuted.

(** A field where every value is missing cannot be packed: the search for a value
    that is not runs past the array, whatever the field. *)
Theorem c48_all_missing_refuted orc field mem hp ap off n b stride tag : width_ok tag b -> Z.of_nat n < 2 ^ 28 -> fits field stride n ->
  (forall t, tag = Some t -> number32 t) -> (forall j, (j < n)%nat -> number32 (elt field stride j)) ->
  (forall j, (j < n)%nat -> missing tag (elt field stride j)) ->
  compact_float_pack orc field mem hp ap off n b stride tag = None.
Proof.
  intros (HB & HT) N FI TN NU MI. unfold compact_float_pack. rewrite (proj2 (Nat.eqb_neq b 0)) by lia.
  assert ((b =? 1)%nat && (match tag with Some _ => true | None => false end) = false) as ->.
  { destruct tag; [|apply andb_false_r]. specialize (HT ltac:(discriminate)). rewrite (proj2 (Nat.eqb_neq b 1)) by lia. reflexivity. }
  rewrite (proj2 (Nat.ltb_ge 64 b)) by lia. rewrite (proj2 (Nat.ltb_ge 32 b)) by lia. cbn [orb].
  rewrite (proj2 (Z.ltb_ge _ _)) by lia. rewrite andb_false_r. rewrite (gather_spec _ _ _ FI). cbn [bind].
  set (ws := map _ _).
  assert (E : filter (fun w => negb (is_tag tag w)) ws = []).
  { destruct (filter (fun w => negb (is_tag tag w)) ws) as [|w l] eqn:E; [reflexivity|exfalso].
    assert (I : In w (filter (fun w => negb (is_tag tag w)) ws)) by (rewrite E; left; reflexivity).
    apply filter_In in I as [I T]. apply in_map_iff in I as (j & <- & J). apply in_seq in J.
    pose proof (MI j ltac:(lia)) as M. apply (is_tag_missing tag _ TN (NU j ltac:(lia))) in M. unfold elt in M. rewrite M in T. discriminate. }
  unfold extremes. rewrite E. reflexivity.
Qed.
Print Assumptions c48_all_missing_refuted.
Example c48_all_missing_demo : compact_float_pack x86 [0x3f800000; 0x3f800000] (repeat 0 8) 0 3 24 2 12 1 (Some 0x3f800000) = None.
Proof. vm_compute. reflexivity. Qed.
