(** Proofs about mask packing. *)
From Coq Require Import ZArith List Lia Bool.
From Verif Require Import Bits BitIO BitIOFacts TileCodec StreamFacts TileFacts Compress32.
Import ListNotations.
Open Scope Z_scope.
Open Scope opt_scope.

Lemma zero_words_spec n p z : (p + n <= length z)%nat ->
  exists z', zero_words n p z = Some z' /\ length z' = length z /\
    (forall k, (p <= k < p + n)%nat -> nth_error z' k = Some 0) /\
    (forall k, (k < p \/ p + n <= k)%nat -> nth_error z' k = nth_error z k).
Proof.
  revert p z. induction n as [|n IH]; intros p z H; cbn [zero_words].
  - exists z. repeat split; auto. intros k Hk. lia.
  - destruct (wr_some z p 0) as [z1 E1]; [lia|]. rewrite E1. cbn [bind].
    pose proof (wr_length _ _ _ _ E1) as L1.
    destruct (IH (S p) z1) as (z' & E & L & I & O); [lia|].
    exists z'. split; auto. split; [lia|]. split.
    + intros k Hk. destruct (Nat.eq_dec k p); [subst|apply I; lia]. rewrite O by lia. eapply wr_same; eauto.
    + intros k Hk. rewrite O by lia. eapply wr_other; eauto. lia.
Qed.

Lemma bit_word v : 0 <= v < 2 -> v = Z.b2z (v =? 1).
Proof. intros H. assert (v = 0 \/ v = 1) as [->| ->] by lia; reflexivity. Qed.

Lemma shifted_bit v f b : 0 <= v < 2 -> (f < 32)%nat -> (b < 32)%nat ->
  Z.testbit ((Z.shiftl v (Z.of_nat f)) mod 2 ^ 32) (Z.of_nat b) = (b =? f)%nat && (v =? 1).
Proof.
  intros Hv Hf Hb. rewrite Z.mod_pow2_bits_low by lia. rewrite Z.shiftl_spec by lia.
  assert (v = 0 \/ v = 1) as [->| ->] by lia.
  - rewrite Z.testbit_0_l. rewrite andb_false_r. reflexivity.
  - rewrite andb_true_r. change 1 with (2 ^ 0) at 1. destruct (Nat.eqb_spec b f) as [->|N].
    + rewrite Z.sub_diag. reflexivity.
    + rewrite Z.pow2_bits_false by lia. reflexivity.
Qed.

Section Mask.
Variables (src : list Z) (npts p : nat).
Hypothesis Hlen : (npts <= length src)%nat.
Hypothesis Hbit : forall k, (k < npts)%nat -> 0 <= el src k < 2.

Definition minv (i : nat) (z : list Z) : Prop :=
  forall w, (w <= npts / 32)%nat -> exists v, nth_error z (p + w) = Some v /\ 0 <= v < 2 ^ 32 /\
    forall b, (b < 32)%nat -> Z.testbit v (Z.of_nat b) = (32 * w + b <? i)%nat && (el src (32 * w + b) =? 1).

Lemma mask_loop_spec n i z : (i + n = npts)%nat -> (p + npts / 32 < length z)%nat -> minv i z ->
  exists z', mask_loop n i p src z = Some z' /\ length z' = length z /\ minv npts z' /\
    (forall k, (k < p \/ p + npts / 32 < k)%nat -> nth_error z' k = nth_error z k).
Proof.
  revert i z. induction n as [|n IH]; intros i z Hi Hz HI; cbn [mask_loop].
  - exists z. replace npts with i by lia. auto.
  - assert (Hw : (i / 32 <= npts / 32)%nat) by (apply Nat.div_le_mono; lia).
    destruct (rd_some src i) as [v Hv]; [lia|]. rewrite Hv. cbn [bind].
    assert (Ev : el src i = v) by (apply nth_error_nth; exact Hv).
    destruct (HI (i / 32)%nat Hw) as (w & Ew & Rw & Bw).
    change (rd z (p + i / 32)) with (nth_error z (p + i / 32)). rewrite Ew. cbn [bind].
    set (w' := Z.lor w _). destruct (wr_some z (p + i / 32) w') as [z1 E1]; [lia|]. rewrite E1. cbn [bind].
    pose proof (wr_length _ _ _ _ E1) as L1.
    pose proof (Hbit i ltac:(lia)) as Hvb. rewrite Ev in Hvb.
    pose proof (Nat.mod_upper_bound i 32 ltac:(lia)) as Hm. pose proof (Nat.div_mod i 32 ltac:(lia)) as DM.
    destruct (IH (S i) z1) as (z' & E & L & I' & O'); try lia.
    { intros wd Hwd. destruct (Nat.eq_dec wd (i / 32)) as [->|N].
      - exists w'. split; [eapply wr_same; eauto|]. split.
        { unfold w'. apply lor_range; [lia|auto|apply Z.mod_pos_bound; lia]. }
        intros b Hb. unfold w'. rewrite Z.lor_spec, Bw, shifted_bit by auto.
        destruct (Nat.eqb_spec b (i mod 32)) as [->|Nb].
        + rewrite <- DM. rewrite Ev. destruct (Nat.ltb_spec i i); [lia|]. destruct (Nat.ltb_spec i (S i)); [|lia]. reflexivity.
        + rewrite andb_false_l, orb_false_r.
          destruct (Nat.ltb_spec (32 * (i / 32) + b) i), (Nat.ltb_spec (32 * (i / 32) + b) (S i)); try reflexivity; lia.
      - destruct (HI wd Hwd) as (x & Ex & Rx & Bx). exists x. split; [rewrite (wr_other _ _ _ _ _ E1) by lia; auto|].
        split; auto. intros b Hb. rewrite Bx by auto.
        destruct (Nat.ltb_spec (32 * wd + b) i), (Nat.ltb_spec (32 * wd + b) (S i)); try reflexivity; lia. }
    exists z'. split; auto. split; [lia|]. split; auto. intros k Hk. rewrite O' by auto.
    eapply wr_other; eauto. lia.
Qed.

Theorem mask_packed z : (p + npts / 32 < length z)%nat ->
  exists z', compact_mask_char z p src npts = Some z' /\ length z' = length z /\ minv npts z' /\
    (forall k, (k < p \/ p + npts / 32 < k)%nat -> nth_error z' k = nth_error z k).
Proof.
  intros Hz. unfold compact_mask_char.
  destruct (zero_words_spec (1 + npts / 32) p z) as (z1 & E1 & L1 & I1 & O1); [lia|]. rewrite E1. cbn [bind].
  destruct (mask_loop_spec npts 0 z1) as (z' & E & L & I' & O'); try lia.
  { intros w Hw. exists 0. split; [apply I1; lia|]. split; [lia|]. intros b Hb. rewrite Z.testbit_0_l.
    destruct (Nat.ltb_spec (32 * w + b) 0); [lia|]. reflexivity. }
  exists z'. split; auto. split; [lia|]. split; auto. intros k Hk. rewrite O' by auto. apply O1. lia.
Qed.

Lemma unmask_loop_spec z n i dst : p = 0%nat -> minv npts z -> (i + n = npts)%nat -> (npts <= length dst)%nat ->
  exists dst', unmask_loop n i z dst = Some dst' /\ upd (el src) (seq i n) dst dst'.
Proof.
  intros Hp0 HI. revert i dst. induction n as [|n IH]; intros i dst Hi Hd; cbn [unmask_loop].
  - exists dst. split; auto. apply upd_nil.
  - assert (Hw : (i / 32 <= npts / 32)%nat) by (apply Nat.div_le_mono; lia).
    pose proof (Nat.mod_upper_bound i 32 ltac:(lia)) as Hm. pose proof (Nat.div_mod i 32 ltac:(lia)) as DM.
    destruct (HI (i / 32)%nat Hw) as (w & Ew & Rw & Bw). rewrite Hp0 in Ew. cbn [Nat.add] in Ew.
    change (rd z (i / 32)) with (nth_error z (i / 32)). rewrite Ew. cbn [bind].
    assert (X : Z.shiftr (Z.land w (2 ^ Z.of_nat (i mod 32))) (Z.of_nat (i mod 32)) = el src i).
    { specialize (Bw (i mod 32)%nat Hm). rewrite <- DM in Bw. destruct (Nat.ltb_spec i npts); [|lia]. cbn [andb] in Bw.
      rewrite (bit_word (el src i)) by (apply Hbit; lia). rewrite <- Bw.
      apply Z.bits_inj'. intros b Hb. rewrite Z.shiftr_spec, Z.land_spec by lia.
      destruct (Z.eq_dec b 0) as [->|N].
      - rewrite Z.add_0_l, Z.pow2_bits_true by lia. rewrite andb_true_r. destruct (Z.testbit _ _); reflexivity.
      - rewrite Z.pow2_bits_false by lia. rewrite andb_false_r.
        destruct (Z.testbit w _); cbn [Z.b2z]; [|rewrite Z.testbit_0_l; reflexivity].
        change 1 with (2 ^ 0). rewrite Z.pow2_bits_false by lia. reflexivity. }
    rewrite X. destruct (wr_some dst i (el src i)) as [d1 E1]; [lia|]. rewrite E1. cbn [bind].
    pose proof (wr_length _ _ _ _ E1) as L1.
    destruct (IH (S i) d1) as (d2 & E2 & U2); try lia.
    exists d2. split; auto. apply (upd_app (el src) [i] (seq (S i) n) dst d1 d2); auto. apply upd_wr; auto.
Qed.
End Mask.

Theorem mask_roundtrip src npts z :
  (npts <= length src)%nat -> (forall k, (k < npts)%nat -> 0 <= el src k < 2) -> (npts / 32 < length z)%nat ->
  exists z', compact_mask_char z 0 src npts = Some z' /\ length z' = length z /\
    (forall k, (npts / 32 < k)%nat -> nth_error z' k = nth_error z k) /\
    forall dst, (npts <= length dst)%nat ->
      exists dst', uncompact_mask_char dst z' npts = Some dst' /\ length dst' = length dst /\
        (forall k, (k < npts)%nat -> nth_error dst' k = Some (el src k)) /\
        (forall k, (npts <= k)%nat -> nth_error dst' k = nth_error dst k).
Proof.
  intros Hs Hb Hz. destruct (mask_packed src npts 0 Hs Hb z) as (z' & E & L & I' & O'); [lia|].
  exists z'. split; auto. split; auto. split; [intros; apply O'; lia|].
  intros dst Hd. destruct (unmask_loop_spec src npts 0 Hs Hb z' npts 0 dst) as (d' & Ed & (UL & UI & UO)); auto.
  exists d'. split; auto. split; auto. split.
  - intros k Hk. apply UI. apply in_seq. lia.
  - intros k Hk. apply UO. intros X. apply in_seq in X. lia.
Qed.
