(** Round trip of the parallelogram coders. *)
From Coq Require Import ZArith List Lia Bool.
From Verif Require Import Bits BitIO BitIOFacts CompactInt CompactIntMain TileCodec StreamFacts TileFacts MinFacts ParaFacts.
Import ListNotations.
Open Scope Z_scope.
Open Scope opt_scope.

Section Main.
Variables (pc : pcoder) (container W : nat) (M : Z) (ni nj nbits : nat) (u : list Z).
Hypothesis Hgood : pc_good pc container M W.
Hypothesis HW : (W <= 31)%nat.
Hypothesis Hcont : (1 <= container <= 5)%nat.
Hypothesis Hni : (2 <= ni)%nat.
Hypothesis Hnj : (2 <= nj)%nat.
Hypothesis Hnb : (1 <= nbits <= 31)%nat.
Hypothesis HnbW : (nbits <= 5 + W)%nat.
Hypothesis Hmod : 2 ^ Z.of_nat nbits <= pc_mod pc.
Hypothesis Hlen : (ni * nj <= length u)%nat.
Hypothesis Hval : forall k, (k < ni * nj)%nat -> 0 <= el u k < 2 ^ Z.of_nat nbits.
Hypothesis Hcast : forall k, (k < ni * nj)%nat -> inside ni k = true ->
  pc_cast pc (el u k - pred_of u ni k) = el u k - pred_of u ni k.
Hypothesis HM : forall k, (k < ni * nj)%nat -> Z.abs (dval pc ni u k) <= M.

Definition dlist := map (dval pc ni u) (seq 0 (ni * nj)).
Definition ptokens : list (Z * nat) :=
  (Z.of_nat container, 3%nat) :: map (fun v => (v, nbits)) (map (el u) (border ni nj)) ++
  flat_map (ptoks pc container dlist) (tiles 2 3 ni nj).

Lemma tiles2_bound ks k : In ks (tiles 2 3 ni nj) -> In k ks -> (k < ni * nj)%nat /\ inside ni k = true.
Proof.
  intros H1 H2. destruct (tiles_in 2 3 ni nj ks k) as (i & j & Bi & Bj & ->); auto.
  split; [apply ftn2c_bound; lia|apply inside_ge; lia].
Qed.

Lemma dlist_length : length dlist = (ni * nj)%nat.
Proof. unfold dlist. rewrite map_length, seq_length. reflexivity. Qed.

Lemma border_lt k : In k (border ni nj) -> (k < ni * nj)%nat.
Proof. intros H. apply border_in in H; lia. Qed.

Lemma para_stream_spec : para_stream pc u dlist ni nj nbits 3 container = Some ptokens.
Proof.
  unfold para_stream. rewrite gets_spec by (intros k Hk; apply border_lt in Hk; lia). cbn [bind].
  rewrite para_tokens_spec; [reflexivity|].
  intros ks k H1 H2. rewrite dlist_length. apply (tiles2_bound ks k); auto.
Qed.

Lemma dlist_M ks k : In ks (tiles 2 3 ni nj) -> In k ks -> Z.abs (el dlist k) <= M.
Proof.
  intros H1 H2. destruct (tiles2_bound ks k H1 H2). unfold dlist. rewrite el_map_seq by auto. auto.
Qed.

Lemma ptokens_ok : Forall tokok ptokens /\ (toklen ptokens <= 3 + (5 + W) * (ni * nj))%nat.
Proof.
  destruct (ptoks_ok pc container W M Hgood HW Hcont dlist (tiles 2 3 ni nj)) as [T1 T2].
  { intros ks; apply tiles_nonempty. }
  { apply dlist_M. }
  rewrite tiles_sum in T2 by lia. unfold ptokens. split.
  - constructor.
    { split; cbn [fst snd]; [lia|]. change (2 ^ Z.of_nat 3) with 8. lia. }
    apply Forall_app; split; auto. apply Forall_map, Forall_map, Forall_forall. intros k Hk.
    split; cbn [fst snd]; [lia|]. apply Hval. apply border_lt; auto.
  - change (toklen (?a :: ?b)) with (snd a + toklen b)%nat. cbn [toklen fold_right].
    fold (toklen (map (fun v => (v, nbits)) (map (el u) (border ni nj)) ++ flat_map (ptoks pc container dlist) (tiles 2 3 ni nj))).
    rewrite toklen_app, (tokbits_map1 (fun v => v)), map_length, border_length.
    assert (E : ((ni + 1 - 2) * (nj + 1 - 2) + (ni + (nj - 1)) = ni * nj)%nat) by nia.
    assert (X : (nbits * (ni + (nj - 1)) <= (5 + W) * (ni + (nj - 1)))%nat) by (apply Nat.mul_le_mono_r; auto).
    assert (Y : ((5 + W) * (ni * nj) = (5 + W) * ((ni + 1 - 2) * (nj + 1 - 2)) + (5 + W) * (ni + (nj - 1)))%nat)
      by (rewrite <- E; apply Nat.mul_add_distr_l).
    change (snd (Z.of_nat container, 3%nat)) with 3%nat.
    generalize dependent ((5 + W) * ((ni + 1 - 2) * (nj + 1 - 2)))%nat. generalize dependent (nbits * (ni + (nj - 1)))%nat.
    intros. lia.
Qed.

Theorem para_decode orc mem p arr tmp :
  Forall inr32 mem -> (32 * p + toklen ptokens < 32 * length mem)%nat ->
  slice (32 * p) (toklen ptokens) (mbits 32 mem) = tokbits ptokens ->
  (ni * nj <= length arr)%nat -> (ni * nj <= length tmp)%nat ->
  exists arr', unpackTokensParallelogram orc pc arr tmp mem p ni nj nbits 3 = Some arr' /\
    length arr' = length arr /\
    (forall k, (k < ni * nj)%nat -> nth_error arr' k = Some (el u k)) /\
    (forall k, (ni * nj <= k)%nat -> nth_error arr' k = nth_error arr k).
Proof.
  intros F HL HS Ha Ht. unfold unpackTokensParallelogram.
  destruct (ahead_start mem p (tokbits ptokens)) as (s & Es & As); auto.
  { rewrite tokbits_length. auto. }
  { rewrite tokbits_length. auto. }
  rewrite Es. cbn [bind]. unfold ptokens in As.
  unfold tokbits in As. cbn [flat_map] in As. fold (tokbits (map (fun v => (v, nbits)) (map (el u) (border ni nj)) ++
    flat_map (ptoks pc container dlist) (tiles 2 3 ni nj))) in As.
  destruct (fun X => ahead_extract orc mem s 3 (Z.of_nat container) _ F ltac:(lia) X As) as (s1 & E1 & A1).
  { change (2 ^ Z.of_nat 3) with 8. lia. }
  rewrite E1. cbn [bind]. rewrite tokbits_app, map_map in A1.
  destruct (dec_tile_spec orc mem nbits (fun t => t mod pc_mod pc) (border ni nj) s1 arr (el u) (el u) (tokbits (flat_map (ptoks pc container dlist) (tiles 2 3 ni nj))) F ltac:(lia))
    as (s2 & arr1 & E2 & A2 & (L2 & I2 & O2)).
  { intros k Hk. apply border_lt in Hk. split; [lia|]. specialize (Hval k Hk). split; auto. apply Z.mod_small. lia. }
  { exact A1. }
  rewrite E2. cbn [bind]. rewrite Nat2Z.id.
  destruct (dec_tiles_spec mem (para_dec_tile orc pc mem container) (tiles 2 3 ni nj) s2 tmp (ptoks pc container dlist) (el dlist) [])
    as (s' & tmp1 & E3 & _ & (L3 & I3 & O3)).
  { intros ks s0 arr0 rest Hks Hk A. apply (para_dec_tile_spec pc container W M); auto.
    - eapply tiles_nonempty; eauto.
    - intros k Hk'. split; auto. eapply dlist_M; eauto. }
  { intros ks k H1 H2. destruct (tiles2_bound ks k H1 H2). lia. }
  { rewrite app_nil_r. exact A2. }
  rewrite E3. cbn [bind].
  destruct (rebuild_ok pc ni nj (el u) tmp1 arr1) with (arr := arr1) as (arr' & E4 & L4 & I4 & O4); auto; try lia.
  - intros k Hk Hin. destruct (ftn2c_inv ni nj k) as (i & j & Bi & Bj & Ek & Ei & Ej); [lia|auto|].
    unfold rd. rewrite I3.
    + f_equal. unfold dlist. rewrite el_map_seq by auto. unfold dval. rewrite Hin. rewrite Hcast by auto. reflexivity.
    + apply concat_in. rewrite Ek. apply tiles_cover; try lia.
      * split; [|lia]. rewrite Ei. unfold inside in Hin. apply negb_true_iff in Hin. apply orb_false_iff in Hin.
        destruct Hin as [_ Hin]. apply Nat.eqb_neq in Hin. lia.
      * split; [|lia]. rewrite Ej. unfold inside in Hin. apply negb_true_iff in Hin. apply orb_false_iff in Hin.
        destruct Hin as [Hin _]. apply Nat.ltb_ge in Hin.
        assert (1 <= k / ni)%nat; [|lia]. apply Nat.div_le_lower_bound; lia.
  - intros k Hk. specialize (Hval k Hk). lia.
  - split; auto. split; auto. intros k Hk H. apply I2. apply border_in; try lia. split; auto.
    destruct H as [H|H]; auto. unfold inside in H. apply negb_false_iff in H. apply orb_true_iff in H.
    destruct H as [H|H]; [left; apply Nat.ltb_lt; auto|right; apply Nat.eqb_eq; auto].
  - exists arr'. split; auto. split; [lia|]. split; auto.
    intros k Hk. rewrite O4 by auto. apply O2. intros X. apply border_lt in X. lia.
Qed.
End Main.

(** ** The 16-bit coder *)
Lemma bitlen_shift8 mx : 256 <= mx < 2 ^ 16 -> (8 + bitlen (Z.shiftr mx 8) = bitlen mx)%nat.
Proof.
  intros H. rewrite Z.shiftr_div_pow2 by lia. set (h := mx / 2 ^ 8).
  assert (Hh : 1 <= h). { apply Z.div_le_lower_bound; lia. }
  unfold bitlen. destruct (Z.leb_spec h 0); [lia|]. destruct (Z.leb_spec mx 0); [lia|].
  assert (E : Z.log2 mx = 8 + Z.log2 h).
  { unfold h. rewrite <- Z.shiftr_div_pow2 by lia. rewrite Z.log2_shiftr by lia.
    assert (8 <= Z.log2 mx) by (apply Z.log2_le_pow2; lia). lia. }
  rewrite E. pose proof (Z.log2_nonneg h). rewrite Z2Nat.inj_add by lia. cbn. lia.
Qed.

Lemma nb16_bitlen mx : 0 <= mx -> nb16 mx = if (bitlen mx =? 16)%nat then 15%nat else bitlen mx.
Proof.
  intros H. unfold nb16, fastlog. destruct (Z.eqb_spec mx 0) as [->|]; [reflexivity|].
  destruct (Z.ltb_spec mx 256); [reflexivity|]. destruct (Z.ltb_spec 65535 mx); [reflexivity|].
  rewrite bitlen_shift8 by lia. reflexivity.
Qed.

Lemma pc16_good container M : (container = 4%nat /\ M <= 65535) \/ (container = 5%nat /\ M <= 131070) ->
  pc_good pc16 container M 18.
Proof.
  intros H mx Hmx. cbn [pc_nb pc_w pc16]. rewrite nb16_bitlen by lia.
  pose proof (bitlen_spec mx ltac:(lia)) as B.
  assert (B17 : (bitlen mx <= 17)%nat) by (apply bitlen_le; change (2 ^ Z.of_nat 17) with 131072; lia).
  assert (B16 : container = 4%nat -> (bitlen mx <= 16)%nat).
  { intros E. apply bitlen_le. change (2 ^ Z.of_nat 16) with 65536. lia. }
  destruct (Nat.eqb_spec (bitlen mx) 16) as [E|E].
  - split; [destruct H as [[-> _]|[-> _]]; [change (2 ^ Z.of_nat 4) with 16|change (2 ^ Z.of_nat 5) with 32]; lia|].
    split; [discriminate|]. intros _. cbn. split; [lia|]. rewrite E in B. exact B.
  - split.
    { destruct H as [[-> _]|[-> _]]; [change (2 ^ Z.of_nat 4) with 16; specialize (B16 eq_refl)|change (2 ^ Z.of_nat 5) with 32]; lia. }
    split; [intros X; apply bitlen_zero in X; lia|]. intros X. unfold w16.
    destruct (Z.eqb_spec (Z.of_nat (bitlen mx)) 15) as [E15|E15].
    + cbn [orb]. split; [lia|]. assert (E15' : bitlen mx = 15%nat) by lia. rewrite E15' in B.
      change (2 ^ Z.of_nat (17 - 1)) with 65536. change (2 ^ Z.of_nat 15) with 32768 in B. lia.
    + destruct (Z.eqb_spec (Z.of_nat (bitlen mx)) 16) as [E16|E16]; [lia|]. cbn [orb].
      replace (Z.to_nat (Z.of_nat (bitlen mx) + 1)) with (S (bitlen mx)) by lia. split; [lia|].
      replace (S (bitlen mx) - 1)%nat with (bitlen mx) by lia. exact B.
Qed.

Lemma pred_bound (u : list Z) ni k B : (forall x, (x <= k)%nat -> 0 <= el u x <= B) ->
  Z.abs (el u k - pred_of u ni k) <= 2 * B.
Proof.
  intros H. unfold pred_of. pose proof (H k ltac:(lia)). pose proof (H (k - ni)%nat ltac:(lia)).
  pose proof (H (k - 1)%nat ltac:(lia)). pose proof (H (k - 1 - ni)%nat ltac:(lia)). lia.
Qed.

Theorem para16_roundtrip orc z u ni nj nbits hdr :
  (1 <= nbits <= 16)%nat -> (2 <= ni)%nat -> (2 <= nj)%nat -> (5 <= ni * nj)%nat ->
  Forall inr32 z -> inr32 hdr -> (ni * nj <= length z)%nat -> (ni * nj <= length u)%nat ->
  (forall k, (k < ni * nj)%nat -> 0 <= el u k < 2 ^ Z.of_nat nbits) ->
  exists z' q, packTokensParallelogram orc z u ni nj nbits 3 hdr = Some (z', q) /\
    length z' = length z /\ Forall inr32 z' /\ rd z' 0 = Some hdr /\ (1 <= q <= length z)%nat /\
    (forall mem arr tmp orc', Forall inr32 mem -> firstn q mem = firstn q z' -> (q < length mem)%nat ->
       (ni * nj <= length arr)%nat -> (ni * nj <= length tmp)%nat ->
       exists arr', unpackTokensParallelogram orc' pc16 arr tmp mem 1 ni nj nbits 3 = Some arr' /\
         length arr' = length arr /\
         (forall k, (k < ni * nj)%nat -> nth_error arr' k = Some (el u k)) /\
         (forall k, (ni * nj <= k)%nat -> nth_error arr' k = nth_error arr k)).
Proof.
  intros Hnb Hi Hj Hn F Hh Hz Hu HV. unfold packTokensParallelogram.
  rewrite diffs_spec by auto. cbn [bind]. change (map (dval pc16 ni u) (seq 0 (ni * nj))) with (dlist pc16 ni nj u).
  assert (P16 : 2 ^ Z.of_nat nbits <= 2 ^ 16) by (apply Z.pow_le_mono_r; lia).
  assert (HD : forall k, (k < ni * nj)%nat -> Z.abs (dval pc16 ni u k) <= 2 * (2 ^ Z.of_nat nbits - 1)).
  { intros k Hk. unfold dval. destruct (inside ni k); [|change (Z.abs 0) with 0; pose proof (pow2_pos nbits); lia].
    cbn [pc_cast pc16]. apply pred_bound. intros x Hx. specialize (HV x ltac:(lia)). lia. }
  set (c := container16 nbits (dlist pc16 ni nj u)).
  assert (HM : exists M, ((c = 4%nat /\ M <= 65535) \/ (c = 5%nat /\ M <= 131070)) /\
     forall k, (k < ni * nj)%nat -> Z.abs (dval pc16 ni u k) <= M).
  { unfold c, container16. destruct (Nat.leb_spec 15 nbits); cbn [andb].
    - destruct (existsb _ _) eqn:Ex.
      + exists 131070. split; [right; split; [auto|lia]|]. intros k Hk. specialize (HD k Hk). lia.
      + exists 65535. split; [left; split; [auto|lia]|]. intros k Hk.
        destruct (Z.le_gt_cases (Z.abs (dval pc16 ni u k)) 65535); auto. exfalso.
        enough (existsb (fun v => 65535 <? Z.abs v) (dlist pc16 ni nj u) = true) by congruence.
        apply existsb_exists. exists (dval pc16 ni u k). split; [|apply Z.ltb_lt; lia].
        unfold dlist. apply in_map. apply in_seq. lia.
    - exists 65535. split; [left; split; [auto|lia]|]. intros k Hk. specialize (HD k Hk).
      assert (2 ^ Z.of_nat nbits <= 2 ^ 14) by (apply Z.pow_le_mono_r; lia). lia. }
  destruct HM as (M & Hc & HM). pose proof (pc16_good c M Hc) as Hgood.
  assert (Hc5 : (1 <= c <= 5)%nat) by (destruct Hc as [[-> _]|[-> _]]; lia).
  destruct (wr_some z 0 hdr) as [z1 Hz1]; [lia|]. rewrite Hz1. cbn [bind].
  pose proof (wr_length _ _ _ _ Hz1) as L1.
  assert (F1 : Forall inr32 z1).
  { rewrite (wr_eq _ _ _ _ Hz1). cbn [firstn app]. constructor; auto. apply (Forall_skipn inr32 1); auto. }
  assert (Hcast : forall k, (k < ni * nj)%nat -> inside ni k = true ->
    pc_cast pc16 (el u k - pred_of u ni k) = el u k - pred_of u ni k) by reflexivity.
  rewrite (para_stream_spec pc16 c 18) by (auto; lia). cbn [bind].
  destruct (ptokens_ok pc16 c 18 M ni nj nbits u) as [TO TS]; auto; try lia.
  set (toks := ptokens pc16 c ni nj nbits u) in *.
  destruct (pack_stream_spec orc z1 1 toks) as (z' & q & E & L & F' & Hq & Hfst & Hlen & Hsl); auto; [lia| |].
  { assert ((32 * 1 + toklen toks + 32) / 32 < ni * nj + 1)%nat; [|lia]. apply Nat.div_lt_upper_bound; lia. }
  rewrite E. exists z', q. split; auto. split; [lia|]. split; auto.
  assert (R0 : rd z' 0 = Some hdr).
  { pose proof (wr_same _ _ _ _ Hz1) as X. destruct z' as [|a z']; [simpl in L; lia|].
    destruct z1 as [|b z1]; [simpl in L1; lia|]. cbn in Hfst, X. injection Hfst as ->. exact X. }
  split; auto. split; [lia|].
  intros mem arr tmp orc' Fm Hpre Hql Harr Htmp.
  apply (para_decode pc16 c 18 M); auto; try lia.
  - fold toks. lia.
  - fold toks. rewrite <- (slice_firstn _ _ (32 * q)) by lia.
    rewrite <- mbits_firstn, Hpre, mbits_firstn, slice_firstn by lia. exact Hsl.
Qed.
