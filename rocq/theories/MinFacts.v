(** The tile-minimum coder. *)
From Coq Require Import ZArith List Lia Bool.
From Verif Require Import Bits BitIO BitIOFacts CompactInt CompactIntMain TileCodec StreamFacts TileFacts.
Import ListNotations.
Open Scope Z_scope.
Open Scope opt_scope.

Lemma scan_min_max_spec l : l <> [] ->
  let '(mn, mx) := scan_min_max l in
  In mn l /\ In mx l /\ forall v, In v l -> mn <= v <= mx.
Proof.
  intros Hl. destruct l as [|x r]; [contradiction|]. unfold scan_min_max.
  set (f := fun '(mn, mx) v => (if v <? mn then v else mn, if mx <? v then v else mx)).
  assert (G : forall l a b, let '(mn, mx) := fold_left f l (a, b) in
    (mn = a \/ In mn l) /\ (mx = b \/ In mx l) /\ mn <= a /\ b <= mx /\ forall v, In v l -> mn <= v <= mx).
  { induction l as [|y l IH]; intros a b; cbn [fold_left].
    - split; auto. split; auto. split; [lia|]. split; [lia|]. intros v [].
    - cbn [f]. specialize (IH (if y <? a then y else a) (if b <? y then y else b)).
      destruct (fold_left f l (if y <? a then y else a, if b <? y then y else b)) as [mn mx].
      destruct IH as (I1 & I2 & I3 & I4 & I5).
      split; [destruct I1 as [->|I1]; [destruct (Z.ltb_spec y a); auto; right; left; auto|right; right; auto]|].
      split; [destruct I2 as [->|I2]; [destruct (Z.ltb_spec b y); auto; right; left; auto|right; right; auto]|].
      destruct (Z.ltb_spec y a); destruct (Z.ltb_spec b y); (split; [lia|]; split; [lia|]);
        intros v [<-|Hv]; try lia; apply I5; auto. }
  specialize (G (x :: r) x x). destruct (fold_left f (x :: r) (x, x)) as [mn mx].
  destruct G as (G1 & G2 & _ & _ & G5).
  split; [destruct G1 as [->|]; auto; left; auto|]. split; [destruct G2 as [->|]; auto; left; auto|]. auto.
Qed.

Lemma nbits_min_spec v : 0 <= v < 2 ^ 16 ->
  (nbits_min v = 0%nat /\ v = 0) \/ nbits_min v = 15%nat \/
  ((1 <= nbits_min v <= 14)%nat /\ v < 2 ^ Z.of_nat (nbits_min v)).
Proof.
  intros Hv. unfold nbits_min.
  set (n := if v =? 0 then 0%nat else if v <? 256 then fastlog v else (8 + fastlog (Z.shiftr v 8))%nat).
  assert (N : (n = 0%nat /\ v = 0) \/ ((1 <= n <= 16)%nat /\ v < 2 ^ Z.of_nat n)).
  { unfold n, fastlog. destruct (Z.eqb_spec v 0); auto. right. destruct (Z.ltb_spec v 256).
    - pose proof (bitlen_spec v ltac:(lia)). pose proof (bitlen_le v 8 ltac:(change (2 ^ Z.of_nat 8) with 256; lia)).
      assert (bitlen v <> 0%nat) by (intros E; apply bitlen_zero in E; lia). lia.
    - rewrite Z.shiftr_div_pow2 by lia. set (h := v / 2 ^ 8).
      assert (Hh : 1 <= h < 2 ^ 8).
      { unfold h. split; [apply Z.div_le_lower_bound; lia|apply Z.div_lt_upper_bound; lia]. }
      pose proof (bitlen_spec h ltac:(lia)). pose proof (bitlen_le h 8 ltac:(change (2 ^ Z.of_nat 8) with 256; lia)).
      split; [lia|]. rewrite Nat2Z.inj_add, Z.pow_add_r by lia. change (2 ^ Z.of_nat 8) with (2 ^ 8).
      pose proof (Z.div_mod v (2 ^ 8) ltac:(lia)). pose proof (Z.mod_pos_bound v (2 ^ 8) ltac:(lia)). fold h in H1. nia. }
  destruct (Nat.eqb_spec n 16); [auto|]. destruct N as [N|[N1 N2]]; auto.
  destruct (Nat.eq_dec n 15); auto. right. right. split; [lia|auto].
Qed.

Lemma tokbits_map1 {A} (f : A -> Z) (b : nat) (l : list A) :
  toklen (map (fun v => (f v, b)) l) = (b * length l)%nat.
Proof. unfold toklen. induction l; simpl; lia. Qed.

Section Min.
Variables (nbits : nat).
Hypothesis Hnb : (1 <= nbits <= 16)%nat.

Lemma min_tile_tokens_ok vals : vals <> [] -> Forall (fun v => 0 <= v < 2 ^ Z.of_nat nbits) vals ->
  Forall tokok (min_tile_tokens nbits vals) /\
  (toklen (min_tile_tokens nbits vals) <= 24 * length vals)%nat /\
  (toklen (min_tile_tokens nbits vals) <= 20 + 16 * length vals)%nat.
Proof.
  intros Hne HF. unfold min_tile_tokens.
  pose proof (scan_min_max_spec vals Hne) as S. destruct (scan_min_max vals) as [mn mx].
  destruct S as (Imn & Imx & Hb). rewrite Forall_forall in HF.
  assert (P16 : 2 ^ Z.of_nat nbits <= 2 ^ 16) by (apply Z.pow_le_mono_r; lia).
  pose proof (HF _ Imn). pose proof (HF _ Imx). pose proof (Hb _ Imx).
  assert (Hlen : (1 <= length vals)%nat) by (destruct vals; [contradiction|simpl; lia]).
  pose proof (nbits_min_spec (mx - mn) ltac:(lia)) as N.
  assert (N15 : (nbits_min (mx - mn) <= 15)%nat) by lia.
  set (nb := nbits_min (mx - mn)) in *.
  assert (HT : tokok (Z.of_nat nb, 4%nat)). { split; cbn [fst snd]; [lia|]. change (2 ^ Z.of_nat 4) with 16. lia. }
  destruct (Nat.eqb_spec nb 0).
  - split; [constructor; [exact HT|constructor; [split; cbn [fst snd]; lia|constructor]]|]. cbn [toklen fold_right]. lia.
  - destruct (Nat.eqb_spec nb 15).
    + split.
      * constructor; auto. apply Forall_map. apply Forall_forall. intros v Hv. split; cbn [fst snd]; [lia|].
        change (2 ^ Z.of_nat 16) with (2 ^ 16). specialize (HF _ Hv). lia.
      * change (toklen ((Z.of_nat nb, 4%nat) :: map (fun v => (v, 16%nat)) vals))
          with (4 + toklen (map (fun v => (v, 16%nat)) vals))%nat. rewrite (tokbits_map1 (fun v => v)). lia.
    + destruct N as [N|[N|[N1 N2]]]; try lia. split.
      * constructor; auto. constructor; [split; cbn [fst snd]; lia|]. apply Forall_map. apply Forall_forall.
        intros v Hv. split; cbn [fst snd]; [lia|]. specialize (Hb _ Hv). lia.
      * change (toklen ((Z.of_nat nb, 4%nat) :: (mn, nbits) :: map (fun v => (v - mn, nb)) vals))
          with (4 + (nbits + toklen (map (fun v => (Z.sub v mn, nb)) vals)))%nat.
        rewrite (tokbits_map1 (fun v => v - mn)).
        assert (Hmul : (nb * length vals <= 14 * length vals)%nat) by (apply Nat.mul_le_mono_r; lia).
        split; [|lia].
        assert (2 <= length vals)%nat; [|lia].
        destruct vals as [|a [|b l]]; [contradiction| |cbn [length]; lia]. exfalso. cbn [In] in Imn, Imx.
        destruct Imn as [<-|[]]. destruct Imx as [<-|[]].
        apply n. unfold nb. rewrite Z.sub_diag. reflexivity.
Qed.

Lemma min_dec_tile_spec orc mem u ks s arr rest :
  Forall inr32 mem -> ks <> [] ->
  (forall k, In k ks -> (k < length arr)%nat /\ 0 <= el u k < 2 ^ Z.of_nat nbits) ->
  ahead mem s (tokbits (min_tile_tokens nbits (map (el u) ks)) ++ rest) ->
  exists s' arr', min_dec_tile orc mem nbits ks s arr = Some (s', arr') /\ ahead mem s' rest /\
                  upd (el u) ks arr arr'.
Proof.
  intros F Hne HK A. unfold min_dec_tile, min_tile_tokens in *.
  assert (Hne' : map (el u) ks <> []) by (destruct ks; [contradiction|discriminate]).
  pose proof (scan_min_max_spec _ Hne') as S. destruct (scan_min_max (map (el u) ks)) as [mn mx].
  destruct S as (Imn & Imx & Hb).
  assert (P16 : 2 ^ Z.of_nat nbits <= 2 ^ 16) by (apply Z.pow_le_mono_r; lia).
  assert (Bmn : 0 <= mn < 2 ^ Z.of_nat nbits).
  { apply in_map_iff in Imn. destruct Imn as (k & <- & Hk). apply HK; auto. }
  assert (Bmx : 0 <= mx < 2 ^ Z.of_nat nbits).
  { apply in_map_iff in Imx. destruct Imx as (k & <- & Hk). apply HK; auto. }
  pose proof (Hb _ Imx) as Hmm.
  pose proof (nbits_min_spec (mx - mn) ltac:(lia)) as N.
  set (nb := nbits_min (mx - mn)) in *.
  assert (N15 : (nb <= 15)%nat) by lia.
  unfold tokbits in A. cbn [flat_map] in A. rewrite <- app_assoc in A.
  destruct (fun X => ahead_extract orc mem s 4 (Z.of_nat nb) _ F ltac:(lia) X A) as (s1 & E1 & A1).
  { change (2 ^ Z.of_nat 4) with 16. lia. }
  rewrite E1. cbn [bind].
  destruct (Nat.eqb_spec nb 0) as [n0|n0].
  - replace (Z.of_nat nb =? 0) with true by (symmetry; apply Z.eqb_eq; lia).
    cbn [flat_map] in A1. rewrite <- app_assoc in A1. cbn [app] in A1.
    destruct (ahead_extract orc mem s1 nbits mn _ F ltac:(lia) Bmn A1) as (s2 & E2 & A2). rewrite E2. cbn [bind].
    destruct (fill_tile_spec (mn mod 2 ^ 16) ks arr (el u)) as (a & Ea & Ua).
    { intros k Hk. split; [apply HK; auto|]. rewrite Z.mod_small by lia.
      specialize (Hb (el u k) (in_map _ _ _ Hk)). lia. }
    rewrite Ea. cbn [bind]. exists s2, a. auto.
  - replace (Z.of_nat nb =? 0) with false by (symmetry; apply Z.eqb_neq; lia).
    destruct (Nat.eqb_spec nb 15) as [n15|n15].
    + replace ((Z.of_nat nb =? 15) || (Z.of_nat nb =? 16)) with true
        by (symmetry; apply orb_true_intro; left; apply Z.eqb_eq; lia).
      rewrite map_map in A1. fold (tokbits (map (fun x => (el u x, 16%nat)) ks)) in A1.
      apply (dec_tile_spec orc mem 16 _ ks s1 arr (el u) (el u) rest); auto; [lia|].
      intros k Hk. destruct (HK k Hk) as [H1 H2]. split; auto.
      change (2 ^ Z.of_nat 16) with (2 ^ 16). split; [lia|]. apply Z.mod_small. lia.
    + replace ((Z.of_nat nb =? 15) || (Z.of_nat nb =? 16)) with false
        by (symmetry; apply orb_false_intro; apply Z.eqb_neq; lia).
      cbn [flat_map] in A1. rewrite <- app_assoc in A1.
      destruct (ahead_extract orc mem s1 nbits mn _ F ltac:(lia) Bmn A1) as (s2 & E2 & A2). rewrite E2. cbn [bind].
      rewrite Nat2Z.id. rewrite map_map in A2.
      fold (tokbits (map (fun x => (el u x - mn, nb)) ks)) in A2.
      apply (dec_tile_spec orc mem nb _ ks s2 arr (fun k => el u k - mn) (el u) rest); auto; [lia|].
      intros k Hk. destruct (HK k Hk) as [H1 H2]. split; auto.
      specialize (Hb (el u k) (in_map _ _ _ Hk)). split; [destruct N as [N|[N|[N1 N2]]]; lia|].
      rewrite (Z.mod_small (el u k - mn)) by lia. replace (el u k - mn + mn) with (el u k) by lia.
      apply Z.mod_small. lia.
Qed.

Definition mtoks (u : list Z) (ks : list nat) := min_tile_tokens nbits (map (el u) ks).

Lemma min_tokens_spec u ts : (forall ks k, In ks ts -> In k ks -> (k < length u)%nat) ->
  min_tokens nbits u ts = Some (flat_map (mtoks u) ts).
Proof.
  induction ts as [|ks ts IH]; intros H; cbn [min_tokens flat_map]; auto.
  rewrite gets_spec by (intros; apply (H ks); auto; left; auto). cbn [bind].
  rewrite IH by (intros; apply (H ks0); auto; right; auto). reflexivity.
Qed.

Lemma mtoks_ok u ts :
  (forall ks, In ks ts -> ks <> []) ->
  (forall ks k, In ks ts -> In k ks -> 0 <= el u k < 2 ^ Z.of_nat nbits) ->
  Forall tokok (flat_map (mtoks u) ts) /\
  (toklen (flat_map (mtoks u) ts) <= 24 * sum (map (@length nat) ts))%nat.
Proof.
  intros H1 H2. induction ts as [|ks ts IH]; cbn [flat_map map sum fold_right].
  - split; [constructor|cbn; lia].
  - destruct IH as [IH1 IH2]; [intros; apply H1; right; auto|intros; apply (H2 ks0); auto; right; auto|].
    destruct (min_tile_tokens_ok (map (el u) ks)) as (T1 & T2 & T3).
    { specialize (H1 ks (or_introl eq_refl)). destruct ks; [contradiction|discriminate]. }
    { apply Forall_map. apply Forall_forall. intros k Hk. apply (H2 ks); auto. left; auto. }
    split; [apply Forall_app; auto|]. rewrite toklen_app. rewrite map_length in T2. unfold mtoks at 1.
    unfold sum in IH2. lia.
Qed.
End Min.

(** Size of the stream of a whole field. *)
Lemma min_stream_size nbits u ni nj :
  (1 <= nbits <= 16)%nat -> (2 <= ni)%nat -> (2 <= nj)%nat ->
  (forall k, (k < ni * nj)%nat -> 0 <= el u k < 2 ^ Z.of_nat nbits) ->
  Forall tokok (flat_map (mtoks nbits u) (tiles 1 5 ni nj)) /\
  (toklen (flat_map (mtoks nbits u) (tiles 1 5 ni nj)) + 33 <= 32 * (ni * nj))%nat.
Proof.
  intros Hnb Hi Hj Hu.
  assert (HB : forall ks k, In ks (tiles 1 5 ni nj) -> In k ks -> (k < ni * nj)%nat).
  { intros ks k H1 H2. destruct (tiles_in 1 5 ni nj ks k) as (i & j & Bi & Bj & ->); auto. apply ftn2c_bound; auto. }
  destruct (mtoks_ok nbits Hnb u (tiles 1 5 ni nj)) as [T1 T2].
  { intros ks. apply tiles_nonempty. }
  { intros ks k H1 H2. apply Hu. eapply HB; eauto. }
  split; auto. rewrite tiles_sum in T2 by lia.
  replace ((ni + 1 - 1) * (nj + 1 - 1))%nat with (ni * nj)%nat in T2 by lia.
  destruct (Nat.eq_dec ni 2) as [->|], (Nat.eq_dec nj 2) as [->|]; try nia.
  (* 2 x 2: a single tile *)
  change (tiles 1 5 2 2) with [[0; 1; 2; 3]]%nat in *. cbn [flat_map] in *. rewrite app_nil_r in *.
  destruct (min_tile_tokens_ok nbits Hnb (map (el u) [0; 1; 2; 3]%nat)) as (_ & _ & T3).
  { discriminate. }
  { apply Forall_map. apply Forall_forall. intros k Hk. apply Hu. eapply HB; [|exact Hk]. left; auto. }
  unfold mtoks in *. rewrite map_length in T3. cbn [length] in T3. cbn [Nat.mul] in *. lia.
Qed.

Lemma concat_in {A} (ts : list (list A)) k : In k (concat ts) <-> exists ks, In ks ts /\ In k ks.
Proof. rewrite in_concat. firstorder. Qed.

Theorem min_roundtrip orc z u ni nj nbits hdr :
  (1 <= nbits <= 16)%nat -> (2 <= ni)%nat -> (2 <= nj)%nat ->
  Forall inr32 z -> inr32 hdr -> (ni * nj <= length z)%nat -> (ni * nj <= length u)%nat ->
  (forall k, (k < ni * nj)%nat -> 0 <= el u k < 2 ^ Z.of_nat nbits) ->
  exists z' q, packTokensMinimum orc z u ni nj nbits 5 hdr = Some (z', q) /\
    length z' = length z /\ Forall inr32 z' /\ rd z' 0 = Some hdr /\ (1 <= q <= length z)%nat /\
    (forall mem arr orc', Forall inr32 mem -> firstn q mem = firstn q z' -> (q < length mem)%nat ->
       (ni * nj <= length arr)%nat ->
       exists arr', unpackTokensMinimum orc' arr mem ni nj nbits 5 = Some arr' /\
         length arr' = length arr /\
         (forall k, (k < ni * nj)%nat -> nth_error arr' k = Some (el u k)) /\
         (forall k, (ni * nj <= k)%nat -> nth_error arr' k = nth_error arr k)).
Proof.
  intros Hnb Hi Hj F Hh Hz Hu HV. unfold packTokensMinimum.
  assert (Hn : (4 <= ni * nj)%nat) by nia.
  assert (HB : forall ks k, In ks (tiles 1 5 ni nj) -> In k ks -> (k < ni * nj)%nat).
  { intros ks k H1 H2. destruct (tiles_in 1 5 ni nj ks k) as (i & j & Bi & Bj & ->); auto. apply ftn2c_bound; auto. }
  destruct (wr_some z 0 hdr) as [z1 Hz1]; [lia|]. rewrite Hz1. cbn [bind].
  pose proof (wr_length _ _ _ _ Hz1) as L1.
  assert (F1 : Forall inr32 z1).
  { rewrite (wr_eq _ _ _ _ Hz1). cbn [firstn app]. constructor; auto. apply (Forall_skipn inr32 1); auto. }
  rewrite min_tokens_spec by (intros ks k H1 H2; specialize (HB ks k H1 H2); lia). cbn [bind].
  destruct (min_stream_size nbits u ni nj) as [TO TS]; auto.
  set (toks := flat_map (mtoks nbits u) (tiles 1 5 ni nj)) in *.
  destruct (pack_stream_spec orc z1 1 toks) as (z' & q & E & L & F' & Hq & Hfst & Hlen & Hsl); auto; [lia| |].
  { assert ((32 * 1 + toklen toks + 32) / 32 < ni * nj + 1)%nat; [|lia]. apply Nat.div_lt_upper_bound; lia. }
  rewrite E. exists z', q. split; auto. split; [lia|]. split; auto.
  assert (R0 : rd z' 0 = Some hdr).
  { pose proof (wr_same _ _ _ _ Hz1) as W. destruct z' as [|a z']; [simpl in L; lia|].
    destruct z1 as [|b z1]; [simpl in L1; lia|]. cbn in Hfst, W. injection Hfst as ->. exact W. }
  split; auto. split; [lia|].
  intros mem arr orc' Fm Hpre Hql Harr. unfold unpackTokensMinimum.
  assert (SM : slice (32 * 1) (toklen toks) (mbits 32 mem) = tokbits toks).
  { rewrite <- (slice_firstn _ _ (32 * q)) by lia. rewrite <- mbits_firstn, Hpre, mbits_firstn, slice_firstn by lia. exact Hsl. }
  destruct (ahead_start mem 1 (tokbits toks)) as (s & Es & As); auto.
  { rewrite tokbits_length. lia. }
  { rewrite tokbits_length. exact SM. }
  rewrite Es. cbn [bind].
  destruct (dec_tiles_spec mem (min_dec_tile orc' mem nbits) (tiles 1 5 ni nj) s arr (mtoks nbits u) (el u) [])
    as (s' & arr' & Ed & _ & (Ld & Id & Od)).
  { intros ks s0 arr0 rest Hks Hk A. apply min_dec_tile_spec; auto.
    - eapply tiles_nonempty; eauto.
    - intros k Hk'. split; auto. apply HV. eapply HB; eauto. }
  { intros ks k H1 H2. specialize (HB ks k H1 H2). lia. }
  { rewrite app_nil_r. exact As. }
  rewrite Ed. cbn [bind]. exists arr'. split; auto. split; auto. split.
  - intros k Hk. apply Id. apply concat_in.
    destruct (ftn2c_inv ni nj k) as (i & j & Bi & Bj & -> & _); [lia|auto|].
    apply tiles_cover; auto.
  - intros k Hk. apply Od. intros X. apply concat_in in X. destruct X as (ks & X1 & X2).
    specialize (HB _ _ X1 X2). lia.
Qed.
