(** Proofs about 1-bit run-length coding and masks. *)
From Coq Require Import ZArith List Lia Bool.
From Verif Require Import Bits BitIO BitIOFacts TileCodec StreamFacts TileFacts MinFacts Compress32.
Import ListNotations.
Open Scope Z_scope.
Open Scope opt_scope.

Lemma slice_words_eq p n q (a b : list Z) : (32 * p + n <= 32 * q)%nat ->
  firstn (q - p) (skipn p a) = firstn (q - p) (skipn p b) ->
  slice (32 * p) n (mbits 32 a) = slice (32 * p) n (mbits 32 b).
Proof.
  intros H E. unfold slice. rewrite <- !mbits_skipn.
  assert (X : forall l : list Z, firstn n (mbits 32 l) = firstn n (mbits 32 (firstn (q - p) l))).
  { intros l. rewrite mbits_firstn, firstn_firstn. f_equal. lia. }
  rewrite X, E, <- X. reflexivity.
Qed.

Section Rle.
Variables (u : list Z) (npts : nat).
Hypothesis Hlen : (npts < length u)%nat.
Hypothesis Hbit : forall k, (k < npts)%nat -> 0 <= el u k < 2.

(** [t] is a valid code of the values from [i] to npts; [lv] is the value of
    the last repeat code. *)
Inductive codes : nat -> Z -> list (Z * nat) -> Prop :=
| c_done lv : codes npts lv []
| c_seq i lv t : (i < npts)%nat -> codes (i + seq_len npts i) lv t ->
    codes i lv ((0, 1%nat) :: map (fun k => (el u k, 1%nat)) (seq i (seq_len npts i)) ++ t)
| c_cnt i lv c t : (8 <= c <= 62)%nat -> (i + c <= npts)%nat ->
    (forall k, (i <= k < i + c)%nat -> el u k = el u i) -> codes (i + c) (el u i) t ->
    codes i lv ((1, 1%nat) :: (el u i, 1%nat) :: (Z.of_nat c, 6%nat) :: t)
| c_255 i lv t : (i + 255 <= npts)%nat -> 0 <= lv < 2 -> (forall k, (i <= k < i + 255)%nat -> el u k = lv) ->
    codes (i + 255) lv t -> codes i lv ((255, 8%nat) :: t).

Lemma seq_len_le i : (i < npts)%nat -> (1 <= seq_len npts i <= 7 /\ i + seq_len npts i <= npts)%nat.
Proof. intros H. unfold seq_len. destruct (Nat.ltb_spec npts (i + 7)); lia. Qed.

Lemma seq_len_min i : (i < npts)%nat -> (i + seq_len npts i)%nat = Nat.min (i + 7) npts.
Proof. intros H. unfold seq_len. destruct (Nat.ltb_spec npts (i + 7)); lia. Qed.

Lemma codes_le i lv t : codes i lv t -> (i <= npts)%nat.
Proof. induction 1; lia. Qed.

Lemma codes_ok i lv t : codes i lv t -> Forall tokok t.
Proof.
  induction 1.
  - constructor.
  - constructor; [split; cbn; lia|]. apply Forall_app; split; auto. apply Forall_map, Forall_forall.
    intros k Hk. apply in_seq in Hk. pose proof (seq_len_le i H). split; cbn [fst snd]; [lia|].
    change (2 ^ Z.of_nat 1) with 2. apply Hbit. lia.
  - pose proof (Hbit i ltac:(lia)). repeat (constructor; [split; cbn [fst snd]; [lia|]|]); auto.
    + change (2 ^ Z.of_nat 1) with 2; lia.
    + change (2 ^ Z.of_nat 6) with 64; lia.
  - constructor; auto. split; cbn [fst snd]; [lia|]. change (2 ^ Z.of_nat 8) with 256; lia.
Qed.

Lemma codes_len i lv t : codes i lv t -> (7 * toklen t <= 8 * (npts - i + 6))%nat /\ (npts <= i -> toklen t = 0)%nat.
Proof.
  intros H. pose proof (codes_le _ _ _ H). induction H.
  - cbn. lia.
  - pose proof (codes_le _ _ _ H1). destruct (IHcodes ltac:(lia)) as [A B]. split; [|lia].
    change (toklen ((0, 1%nat) :: ?l)) with (1 + toklen l)%nat. cbn [toklen fold_right].
    fold (toklen (map (fun k => (el u k, 1%nat)) (seq i (seq_len npts i)) ++ t)).
    rewrite toklen_app, (tokbits_map1 (el u)), seq_length. rewrite seq_len_min in * by auto.
    pose proof (seq_len_le i H). unfold seq_len in *. destruct (Nat.ltb_spec npts (i + 7)).
    + rewrite Nat.min_r in * by lia. rewrite B by lia. lia.
    + rewrite Nat.min_l in * by lia. lia.
  - destruct (IHcodes ltac:(lia)) as [A B]. split; [|lia]. cbn [toklen fold_right]. fold (toklen t). lia.
  - destruct (IHcodes ltac:(lia)) as [A B]. split; [|lia]. cbn [toklen fold_right]. fold (toklen t). lia.
Qed.

(** ** The encoder produces valid codes *)
Lemma seq_tokens_spec i : (i < npts)%nat -> 
  seq_tokens u npts i = Some ((0, 1%nat) :: map (fun k => (el u k, 1%nat)) (seq i (seq_len npts i))).
Proof.
  intros H. unfold seq_tokens. rewrite gets_spec.
  - cbn [bind]. rewrite map_map. reflexivity.
  - intros k Hk. apply in_seq in Hk. pose proof (seq_len_le i H). lia.
Qed.

Lemma rd_el k : (k < length u)%nat -> rd u k = Some (el u k).
Proof. intros H. destruct (rd_some u k H) as [v Hv]. rewrite Hv. f_equal. symmetry. apply nth_error_nth. exact Hv. Qed.

Lemma run_end_spec fuel last indx : (npts < indx + fuel)%nat -> (last < indx <= npts)%nat ->
  (forall k, (last <= k < indx)%nat -> el u k = el u last) ->
  exists e, run_end fuel u npts last indx = Some e /\ (indx <= e <= npts)%nat /\
    (forall k, (last <= k < e)%nat -> el u k = el u last).
Proof.
  revert indx. induction fuel as [|f IH]; intros indx Hf Hi HE; [lia|].
  cbn [run_end]. rewrite !rd_el by lia. cbn [bind].
  destruct (Z.eqb_spec (el u indx) (el u last)); cbn [andb].
  - destruct (Nat.ltb_spec indx npts).
    + destruct (IH (S indx)) as (e' & E & B & V); try lia.
      { intros k Hk. destruct (Nat.eq_dec k indx); [subst; auto|apply HE; lia]. }
      exists e'. split; auto. split; [lia|auto].
    + exists indx. repeat split; auto; lia.
  - exists indx. repeat split; auto; lia.
Qed.

Definition chain (last : nat) (lv : Z) (t : list (Z * nat)) (l : nat) : Prop :=
  (last <= l)%nat /\ forall t', (forall lv', codes (Nat.min l npts) lv' t') -> codes last lv (t ++ t').

Lemma inner_spec fuel count i repeat last lv :
  (count - i < fuel)%nat -> (i <= count)%nat -> (last + (count - i) <= npts)%nat ->
  (forall k, (last <= k < last + (count - i))%nat -> el u k = el u last) ->
  (repeat = true -> (i < count)%nat -> lv = el u last) ->
  exists t l, rle1_inner fuel u npts count i repeat last = Some (t, l) /\ chain last lv t l /\
    ((i < count)%nat -> (last < l)%nat).
Proof.
  revert i repeat last lv. induction fuel as [|f IH]; intros i repeat last lv Hf Hi Hl HE HR; [lia|].
  cbn [rle1_inner]. destruct (Nat.ltb_spec i count) as [Hic|Hic].
  2:{ exists [], last. split; auto. split; [|lia]. split; [lia|]. intros t' Ht.
      rewrite Nat.min_l in Ht by lia. apply Ht. }
  set (rem := (count - i)%nat) in *. cbv zeta.
  assert (Stp : forall lc, (8 <= lc <= 62)%nat -> (lc <= rem)%nat -> forall t l, chain (last + lc) (el u last) t l ->
     chain last lv ((1, 1%nat) :: (el u last, 1%nat) :: (Z.of_nat lc, 6%nat) :: t) l).
  { intros lc Hlc Hr t l [C1 C2]. split; [lia|]. intros t' Ht. cbn [app]. apply c_cnt; auto; [lia|].
    intros k Hk. apply HE. lia. }
  set (lc := if (63 <=? rem)%nat then 62%nat else rem).
  assert (Hlc : (1 <= lc <= 62 /\ lc <= rem)%nat) by (unfold lc; destruct (Nat.leb_spec 63 rem); lia).
  destruct (Nat.ltb_spec lc 8) as [H8|H8].
  - assert (lc = rem) by (unfold lc in *; destruct (Nat.leb_spec 63 rem); lia).
    rewrite seq_tokens_spec by lia. cbn [bind].
    destruct f as [|f]; [lia|]. cbn [rle1_inner]. destruct (Nat.ltb_spec (i + lc) count); [lia|]. cbn [bind].
    eexists _, _. split; [reflexivity|]. split; [|lia]. split; [lia|]. intros t' Ht.
    rewrite app_nil_r. cbn [app]. apply c_seq; [lia|]. rewrite seq_len_min by lia. apply Ht.
  - rewrite rd_el by lia. destruct (Nat.eqb_spec lc 62) as [H62|H62].
    + destruct (Nat.ltb_spec 256 rem) as [H256|H256]; [destruct repeat|]; cbn [andb bind].
      * destruct (IH (i + 255)%nat true (last + 255)%nat lv) as (t & l & E & [C1 C2] & Hlt); try lia.
        { intros k Hk. rewrite HE by lia. symmetry. apply HE. lia. }
        { intros _ Hc. rewrite HR by auto. symmetry. apply HE. lia. }
        rewrite E. cbn [bind]. eexists _, _. split; [reflexivity|]. split; [|lia]. split; [lia|].
        intros t' Ht. cbn [app]. rewrite (HR eq_refl Hic) in *. apply c_255; auto; [lia|apply Hbit; lia|].
        intros k Hk. apply HE. lia.
      * destruct (IH (i + lc)%nat true (last + lc)%nat (el u last)) as (t & l & E & C & Hlt); try lia.
        { intros k Hk. rewrite HE by lia. symmetry. apply HE. lia. }
        { intros _ Hc. symmetry. apply HE. lia. }
        rewrite E. cbn [bind]. eexists _, _. split; [reflexivity|]. split; [apply (Stp lc); auto; lia|].
        destruct C; lia.
      * destruct (IH (i + lc)%nat true (last + lc)%nat (el u last)) as (t & l & E & C & Hlt); try lia.
        { intros k Hk. rewrite HE by lia. symmetry. apply HE. lia. }
        { intros _ Hc. symmetry. apply HE. lia. }
        rewrite E. cbn [bind]. eexists _, _. split; [reflexivity|]. split; [apply (Stp lc); auto; lia|].
        destruct C; lia.
    + assert (lc = rem) by (unfold lc in *; destruct (Nat.leb_spec 63 rem); lia). cbn [bind].
      destruct (IH (i + lc)%nat repeat (last + lc)%nat (el u last)) as (t & l & E & C & Hlt); try lia.
      rewrite E. cbn [bind]. eexists _, _. split; [reflexivity|]. split; [apply (Stp lc); auto; lia|].
      destruct C; lia.
Qed.

Lemma outer_spec fuel last : (1 <= fuel)%nat -> (npts < last + fuel)%nat ->
  exists t, rle1_outer fuel u npts last = Some t /\ forall lv, codes (Nat.min last npts) lv t.
Proof.
  revert last. induction fuel as [|f IH]; intros last H1 Hf.
  - lia.
  - cbn [rle1_outer]. destruct (Nat.leb_spec (S last) npts) as [H|H].
    2:{ exists []. split; auto. intros lv. rewrite Nat.min_r by lia. apply c_done. }
    destruct (run_end_spec (S npts) last (S last)) as (e & E & B & V); try lia.
    { intros k Hk. replace k with last by lia. reflexivity. }
    rewrite E. cbn [bind]. cbv zeta. rewrite Nat.min_l by lia.
    destruct (Nat.ltb_spec (e - last) 8).
    + rewrite seq_tokens_spec by lia. cbn [bind]. destruct (IH (last + 7)%nat) as (t & Et & C); [lia|lia|].
      rewrite Et. cbn [bind]. eexists. split; [reflexivity|]. intros lv. cbn [app]. apply c_seq; [lia|].
      rewrite seq_len_min by lia. apply C.
    + destruct (inner_spec (S (e - last)) (e - last) 0 false last 0) as (t1 & l & E1 & [C1 C2] & Hlt); try lia.
      { intros k Hk. apply V. lia. }
      rewrite E1. cbn [bind]. destruct (IH l) as (t & Et & C); [lia|specialize (Hlt ltac:(lia)); lia|].
      rewrite Et. cbn [bind]. eexists. split; [reflexivity|].
      (* the previous repeat value is irrelevant at the start of a run *)
      intros lv. destruct (inner_spec (S (e - last)) (e - last) 0 false last lv) as (t1' & l' & E1' & [C1' C2'] & _); try lia.
      { intros k Hk. apply V. lia. }
      rewrite E1 in E1'. injection E1' as <- <-. apply C2'. exact C.
Qed.

(** ** The decoder *)
Lemma bits8_255 : bits_of 8 255 = bits_of 1 1 ++ bits_of 1 1 ++ bits_of 6 63.
Proof. reflexivity. Qed.

Lemma unrle1_spec orc mem : Forall inr32 mem -> forall t i lv, codes i lv t ->
  forall fuel s arr, (toklen t < fuel)%nat -> (npts <= length arr)%nat -> ahead mem s (tokbits t) ->
  exists arr', unrle1 fuel orc mem npts i lv s arr = Some arr' /\ upd (el u) (seq i (npts - i)) arr arr'.
Proof.
  intros F t i lv HC. induction HC as [lv|i lv t Hi HC IH|i lv c t Hc Hi HE HC IH|i lv t Hi Hlv HE HC IH];
    intros fuel s arr Hf Ha A; (destruct fuel as [|f]; [lia|]); cbn [unrle1].
  - destruct (Nat.ltb_spec npts npts); [lia|]. exists arr. split; auto. rewrite Nat.sub_diag. apply upd_nil.
  - destruct (Nat.ltb_spec i npts); [|lia]. cbv zeta.
    unfold tokbits in A. cbn [flat_map] in A.
    fold (tokbits (map (fun k => (el u k, 1%nat)) (seq i (seq_len npts i)) ++ t)) in A.
    destruct (fun X => ahead_extract orc mem s 1 0 _ F ltac:(lia) X A) as (s1 & E1 & A1); [cbn; lia|].
    rewrite E1. cbn [bind]. rewrite Z.eqb_refl. rewrite tokbits_app in A1.
    pose proof (seq_len_le i Hi) as SL.
    destruct (dec_tile_spec orc mem 1 (fun t => t mod 2 ^ 8) (seq i (seq_len npts i)) s1 arr (el u) (el u) (tokbits t) F ltac:(lia))
      as (s2 & a2 & E2 & A2 & U2).
    { intros k Hk. apply in_seq in Hk. split; [lia|]. pose proof (Hbit k ltac:(lia)).
      split; [change (2 ^ Z.of_nat 1) with 2; auto|]. apply Z.mod_small. lia. }
    { exact A1. }
    rewrite E2. cbn [bind].
    assert (L2 : length a2 = length arr) by apply U2.
    destruct (IH f s2 a2) as (a3 & E3 & U3); auto; try lia.
    { cbn [toklen fold_right] in Hf. fold (toklen (map (fun k => (el u k, 1%nat)) (seq i (seq_len npts i)) ++ t)) in Hf.
      rewrite toklen_app in Hf. lia. }
    exists a3. split; auto. replace (npts - i)%nat with (seq_len npts i + (npts - (i + seq_len npts i)))%nat by lia.
    rewrite seq_app. eapply upd_app; eauto.
  - destruct (Nat.ltb_spec i npts); [|lia]. unfold tokbits in A. cbn [flat_map] in A. fold (tokbits t) in A.
    pose proof (Hbit i ltac:(lia)) as Hbi.
    destruct (fun X => ahead_extract orc mem s 1 1 _ F ltac:(lia) X A) as (s1 & E1 & A1); [cbn; lia|].
    rewrite E1. cbn [bind]. change (1 =? 0) with false.
    destruct (fun X => ahead_extract orc mem s1 1 (el u i) _ F ltac:(lia) X A1) as (s2 & E2 & A2); [change (2 ^ Z.of_nat 1) with 2; lia|].
    rewrite E2. cbn [bind].
    destruct (fun X => ahead_extract orc mem s2 6 (Z.of_nat c) _ F ltac:(lia) X A2) as (s3 & E3 & A3); [change (2 ^ Z.of_nat 6) with 64; lia|].
    rewrite E3. cbn [bind]. destruct (Z.eqb_spec (Z.of_nat c) 63); [lia|]. rewrite Nat2Z.id.
    destruct (fill_tile_spec (el u i mod 2 ^ 8) (seq i c) arr (el u)) as (a2 & E4 & U4).
    { intros k Hk. apply in_seq in Hk. split; [lia|]. rewrite (HE k) by lia. apply Z.mod_small. lia. }
    rewrite E4. cbn [bind]. assert (L2 : length a2 = length arr) by apply U4.
    destruct (IH f s3 a2) as (a3 & E5 & U5); auto; try lia.
    { cbn [toklen fold_right] in Hf. fold (toklen t) in Hf. lia. }
    exists a3. split; auto. replace (npts - i)%nat with (c + (npts - (i + c)))%nat by lia.
    rewrite seq_app. eapply upd_app; eauto.
  - destruct (Nat.ltb_spec i npts); [|lia]. unfold tokbits in A. cbn [flat_map] in A. fold (tokbits t) in A.
    rewrite bits8_255, <- !app_assoc in A.
    destruct (fun X => ahead_extract orc mem s 1 1 _ F ltac:(lia) X A) as (s1 & E1 & A1); [cbn; lia|].
    rewrite E1. cbn [bind]. change (1 =? 0) with false.
    destruct (fun X => ahead_extract orc mem s1 1 1 _ F ltac:(lia) X A1) as (s2 & E2 & A2); [cbn; lia|].
    rewrite E2. cbn [bind].
    destruct (fun X => ahead_extract orc mem s2 6 63 _ F ltac:(lia) X A2) as (s3 & E3 & A3); [cbn; lia|].
    rewrite E3. cbn [bind]. change (63 =? 63) with true.
    destruct (fill_tile_spec (lv mod 2 ^ 8) (seq i 255) arr (el u)) as (a2 & E4 & U4).
    { intros k Hk. apply in_seq in Hk. split; [lia|]. rewrite (HE k) by lia. apply Z.mod_small. lia. }
    rewrite E4. cbn [bind]. assert (L2 : length a2 = length arr) by apply U4.
    destruct (IH f s3 a2) as (a3 & E5 & U5); auto; try lia.
    { cbn [toklen fold_right] in Hf. fold (toklen t) in Hf. lia. }
    exists a3. split; auto. replace (npts - i)%nat with (255 + (npts - (i + 255)))%nat by lia.
    rewrite seq_app. eapply upd_app; eauto.
Qed.
End Rle.

Theorem rle1_roundtrip orc u npts z p :
  (npts < length u)%nat -> (forall k, (k < npts)%nat -> 0 <= el u k < 2) ->
  Forall inr32 z -> (p < length z)%nat -> ((32 * p + 8 * (npts + 6) / 7 + 32) / 32 <= length z)%nat ->
  exists z' q, pack1bitRLE orc z p u npts = Some (z', q) /\ length z' = length z /\ Forall inr32 z' /\
    firstn p z' = firstn p z /\ (p <= q <= length z)%nat /\ (32 * (q - p) <= 8 * (npts + 6) / 7 + 32)%nat /\
    forall orc' mem arr, Forall inr32 mem -> (q < length mem)%nat -> firstn (q - p) (skipn p mem) = firstn (q - p) (skipn p z') ->
      (npts <= length arr)%nat ->
      exists arr', unpack1bitRLE orc' arr mem p npts = Some arr' /\ length arr' = length arr /\
        (forall k, (k < npts)%nat -> nth_error arr' k = Some (el u k)) /\
        (forall k, (npts <= k)%nat -> nth_error arr' k = nth_error arr k).
Proof.
  intros Hu Hb F Hp Hroom. unfold pack1bitRLE.
  destruct (outer_spec u npts Hu Hb (S npts) 0 ltac:(lia) ltac:(lia)) as (t & Et & C). rewrite Et. cbn [bind].
  rewrite Nat.min_0_l in C.
  pose proof (codes_ok u npts Hu Hb _ _ _ (C 0)) as TO. destruct (codes_len u npts Hu _ _ _ (C 0)) as [TL _].
  rewrite Nat.sub_0_r in TL.
  assert (TL8 : (toklen t <= 8 * (npts + 6) / 7)%nat) by (apply Nat.div_le_lower_bound; lia).
  destruct (pack_stream_spec orc z p t) as (z' & q & E & L & F' & Hq & Hfst & Hlen & Hsl); auto.
  { assert ((32 * p + toklen t + 32) / 32 <= (32 * p + 8 * (npts + 6) / 7 + 32) / 32)%nat; [|lia].
    apply Nat.div_le_mono; lia. }
  exists z', q. split; auto. split; auto. split; auto. split; auto. split; auto. split; [lia|].
  intros orc' mem arr Fm Hql Hpre Harr. unfold unpack1bitRLE.
  assert (S1 : slice (32 * p) (toklen t) (mbits 32 mem) = tokbits t).
  { rewrite <- Hsl. apply slice_words_eq with (q := q); auto; lia. }
  destruct (ahead_start mem p (tokbits t)) as (s & Es & As); auto.
  { rewrite tokbits_length. lia. }
  { rewrite tokbits_length. auto. }
  rewrite Es. cbn [bind].
  destruct (unrle1_spec u npts Hu Hb orc' mem Fm t 0 (2 ^ 32 - 1) (C _) (S (32 * length mem)) s arr) as (arr' & E' & U); auto.
  { lia. }
  exists arr'. rewrite E'. split; auto. destruct U as (UL & UI & UO). split; auto. rewrite Nat.sub_0_r in *. split.
  - intros k Hk. apply UI. apply in_seq. lia.
  - intros k Hk. apply UO. intros X. apply in_seq in X. lia.
Qed.
