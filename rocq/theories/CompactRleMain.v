(** Round trip of the run-length packer. *)
From Coq Require Import ZArith List Lia Bool.
From Verif Require Import Bits BitIO BitIOFacts CompactInt CompactIntFacts SpecPack CompactIntMain CompactIntMain2 CompactRle CompactRleFacts.
Import ListNotations.
Open Scope Z_scope.
Open Scope opt_scope.

(** [vals] stored from [pos] with a stride, everything else kept. *)
Definition wrote (dst dst' : list Z) (pos stride : nat) (vals : list Z) : Prop :=
  length dst' = length dst /\
  (forall i, (i < length vals)%nat -> nth_error dst' (pos + i * stride) = nth_error vals i) /\
  (forall k, (forall i, (i < length vals)%nat -> k <> (pos + i * stride)%nat) -> nth_error dst' k = nth_error dst k).

Lemma wrote_nil dst pos stride : wrote dst dst pos stride [].
Proof. split; auto. split; auto. simpl. lia. Qed.

Lemma wrote_app d1 d2 d3 pos stride v w : (1 <= stride)%nat ->
  wrote d1 d2 pos stride v -> wrote d2 d3 (pos + length v * stride) stride w -> wrote d1 d3 pos stride (v ++ w).
Proof.
  intros Hs (L1 & A1 & B1) (L2 & A2 & B2). split; [lia|]. rewrite app_length. split.
  - intros i Hi. destruct (Nat.ltb_spec i (length v)).
    + rewrite nth_error_app1 by auto. rewrite B2; [apply A1; auto|]. intros k Hk. nia.
    + rewrite nth_error_app2 by auto. rewrite <- A2 by lia. f_equal. nia.
  - intros k Hk. rewrite B2, B1; auto.
    + intros i Hi. apply Hk. lia.
    + intros i Hi. specialize (Hk (length v + i)%nat ltac:(lia)). nia.
Qed.

Lemma wrote_one dst d pos stride v : wr dst pos v = Some d -> wrote dst d pos stride [v].
Proof.
  intros H. split; [eapply wr_length; eauto|]. split.
  - intros i Hi. simpl in Hi. replace i with 0%nat by lia. cbn [nth_error].
    replace (pos + 0 * stride)%nat with pos by lia. eapply wr_same; eauto.
  - intros k Hk. eapply wr_other; eauto. specialize (Hk 0%nat ltac:(simpl; lia)). lia.
Qed.

Definition room (dst : list Z) (pos stride n : nat) : Prop :=
  forall i, (i < n)%nat -> (pos + i * stride < length dst)%nat.

Lemma rle_fill_spec stride v n : (1 <= stride)%nat -> forall dst pos, room dst pos stride n ->
  exists d, rle_fill dst pos stride n v = Some (d, (pos + n * stride)%nat) /\ wrote dst d pos stride (repeat v n).
Proof.
  intros Hs. induction n; intros dst pos Hr.
  - exists dst. simpl. split; [f_equal; f_equal; lia|apply wrote_nil].
  - cbn [rle_fill]. destruct (wr_some dst pos v) as [d Hd]. { specialize (Hr 0%nat ltac:(lia)). lia. }
    rewrite Hd. cbn [bind]. pose proof (wr_length _ _ _ _ Hd) as Ld.
    destruct (IHn d (pos + stride)%nat) as (d2 & E & W). { intros i Hi. rewrite Ld. specialize (Hr (S i) ltac:(lia)). lia. }
    exists d2. split.
    + rewrite E. f_equal. f_equal. lia.
    + change (repeat v (S n)) with ([v] ++ repeat v n). eapply wrote_app; eauto.
      * apply wrote_one with (stride := stride). exact Hd.
      * cbn [length]. replace (pos + 1 * stride)%nat with (pos + stride)%nat by lia. exact W.
Qed.

Lemma dec_acc R l : forall p o, dec R (p, o) l = (fst (dec R (p, []) l), o ++ snd (dec R (p, []) l)).
Proof.
  induction l as [|t l IH]; intros p o; unfold dec; cbn [fold_left].
  - cbn [fst snd]. rewrite app_nil_r. reflexivity.
  - fold (dec R). unfold dec_step at 2 4 6. destruct (t <=? R).
    + change (fold_left (dec_step R) l ?x) with (dec R x l). rewrite IH. rewrite (IH t ([] ++ [t])). cbn [fst snd app].
      rewrite <- app_assoc. reflexivity.
    + change (fold_left (dec_step R) l ?x) with (dec R x l). rewrite IH. rewrite (IH t ([] ++ repeat p _)). cbn [fst snd app].
      rewrite <- app_assoc. reflexivity.
Qed.

Lemma map_repeat' {A B} (f : A -> B) x n : map f (repeat x n) = repeat (f x) n.
Proof. induction n; simpl; congruence. Qed.

Lemma dec_cons R p t l : snd (dec R (p, []) (t :: l)) =
  (if t <=? R then [t] else repeat p (Z.to_nat (t - R - 1))) ++ snd (dec R (t, []) l).
Proof.
  unfold dec at 1. cbn [fold_left]. unfold dec_step at 2. destruct (t <=? R); cbn [app];
  match goal with |- context [fold_left _ l ?x] => change (fold_left (dec_step R) l x) with (dec R x l) end;
  rewrite dec_acc; reflexivity.
Qed.

Lemma rle_unloop_spec orc pk b mn R stride toks :
  Forall inr32 pk -> (1 <= b <= 32)%nat -> (1 <= stride)%nat ->
  forall s pos prevd dst,
  rok pk s -> (rpos s + b * length toks < 32 * length pk)%nat ->
  slice (rpos s) (b * length toks) (mbits 32 pk) = tbits b toks ->
  Forall (fun t => 0 <= t < lim b) toks ->
  room dst pos stride (length (snd (dec R (prevd, []) toks))) ->
  exists d, rle_unloop orc pk b mn R stride (length toks) s pos (u32 (prevd + mn)) dst = Some d /\
    wrote dst d pos stride (map (fun t => u32 (t + mn)) (snd (dec R (prevd, []) toks))).
Proof.
  intros F Hb Hst. induction toks as [|t toks IH]; intros s pos prevd dst Hr Hlen Hs Ft Hroom.
  - exists dst. split; [reflexivity|apply wrote_nil].
  - cbn [length rle_unloop] in *.
    destruct (extract_spec orc pk b s) as (t' & s1 & E1 & O1 & P1 & R1 & B1); auto; [lia|].
    rewrite E1. cbn [bind].
    replace (b * S (length toks))%nat with (b + b * length toks)%nat in Hs by lia. rewrite slice_app in Hs.
    unfold tbits in Hs. cbn [flat_map] in Hs. fold (tbits b toks) in Hs.
    assert (L : length (slice (rpos s) b (mbits 32 pk)) = b).
    { apply slice_length. rewrite mbits_length. lia. }
    apply app_inj_len in Hs; [|rewrite L, bits_of_length; reflexivity]. destruct Hs as [X Y].
    inversion Ft as [|? ? Ht Ft']; subst.
    assert (t' = t) as ->. { apply (bits_of_inj b); auto. congruence. }
    rewrite dec_cons in Hroom. rewrite dec_cons.
    destruct (Z.leb_spec t R).
    + cbn [app length] in Hroom.
      destruct (wr_some dst pos (u32 (t + mn))) as [d Hd]. { specialize (Hroom 0%nat ltac:(lia)). lia. }
      rewrite Hd. cbn [bind]. pose proof (wr_length _ _ _ _ Hd) as Ld.
      destruct (IH s1 (pos + stride)%nat t d) as (d2 & E2 & W2); auto.
      { lia. } { rewrite P1. exact Y. }
      { intros i Hi. rewrite Ld. specialize (Hroom (S i) ltac:(lia)). lia. }
      exists d2. split; auto. rewrite map_app. eapply wrote_app; eauto.
      * apply wrote_one with (stride := stride). exact Hd.
      * cbn [map length]. replace (pos + 1 * stride)%nat with (pos + stride)%nat by lia. exact W2.
    + rewrite app_length, repeat_length in Hroom.
      destruct (rle_fill_spec stride (u32 (prevd + mn)) (Z.to_nat (t - R - 1)) Hst dst pos) as (d & Ed & Wd).
      { intros i Hi. apply Hroom. lia. }
      rewrite Ed. cbn [bind]. pose proof (proj1 Wd) as Ld.
      destruct (IH s1 (pos + Z.to_nat (t - R - 1) * stride)%nat t d) as (d2 & E2 & W2); auto.
      { lia. } { rewrite P1. exact Y. }
      { intros i Hi. rewrite Ld. specialize (Hroom (Z.to_nat (t - R - 1) + i)%nat ltac:(lia)). lia. }
      exists d2. split; auto. rewrite map_app. eapply wrote_app; eauto.
      * rewrite map_repeat'. exact Wd.
      * rewrite map_length, repeat_length. exact W2.
Qed.

Lemma rle_pack_image orc pk off b toks :
  (1 <= b <= 31)%nat -> Forall inr32 pk -> Forall (fun t => 0 <= t < lim b) toks ->
  (off + b * length toks <= 32 * length pk)%nat ->
  exists pk', (s <- winit orc pk off ;; s' <- stuffs orc (map (fun t => (t, b)) toks) s ;; flush orc s') = Some pk' /\
    length pk' = length pk /\ Forall inr32 pk' /\
    mbits 32 pk' = overwrite off (tbits b toks) (mbits 32 pk).
Proof.
  intros Hb F Ft Hlen.
  destruct (pack_tokens_spec orc pk off b (cleanup_mask orc (Some b)) toks) as (pk' & E & L & V & F'); auto.
  - lia.
  - eapply Forall_impl; [|exact Ft]. intros t Ht. unfold inr32, lim in *.
    assert (2 ^ Z.of_nat b <= 2 ^ 31) by (apply Z.pow_le_mono_r; lia). lia.
  - right. intros. apply cleanup_mask_land. lia.
  - exists pk'. split; [|auto]. rewrite <- E. unfold pack_tokens.
    destruct (winit orc pk off) as [s|]; [|reflexivity]. cbn [bind].
    replace ((w_sp s =? 32)%nat && (b =? 32)%nat) with false.
    2:{ symmetry. apply andb_false_iff. right. apply Nat.eqb_neq. lia. }
    f_equal. f_equal. apply map_ext_in. intros t Ht. f_equal. rewrite cleanup_mask_land by lia.
    rewrite Z.mod_small; auto. exact (proj1 (Forall_forall _ _) Ft t Ht).
Qed.

Lemma header_w1 b total : (b <= 31)%nat -> Z.of_nat total < 2 ^ 26 ->
  Z.lor (Z.shiftl (Z.of_nat b) 26) (Z.of_nat total) = Z.of_nat b * 2 ^ 26 + Z.of_nat total.
Proof.
  intros. rewrite Z.shiftl_mul_pow2 by lia. change 26 with (Z.of_nat 26) at 1.
  rewrite lor_shiftl_add; [reflexivity|]. split; [lia|exact H0].
Qed.

Lemma rle_roundtrip orc junk unp pk h0 mx mn n b off stride lo hi :
  (3 <= b <= 31)%nat -> words_ok unp -> words_ok pk -> fits unp stride n -> (1 <= stride)%nat ->
  (1 <= n)%nat -> Z.of_nat n < 2 ^ 26 -> 0 <= junk < 2 ^ 32 ->
  (off + n * b < 32 * length pk)%nat ->
  0 <= lo -> hi < 2 ^ 32 -> hi - lo <= 2 ^ Z.of_nat b - 3 ->
  (forall j, (j < n)%nat -> lo <= elt unp stride j <= hi) ->
  (mx = mn \/ (mx = hi /\ mn = lo)) ->
  (forall k, n = S (S (S k)) -> elt unp stride k = elt unp stride (S k) -> elt unp stride (S k) = elt unp stride (S (S k))) ->
  exists pk' h r, (1 <= r <= n)%nat /\
    compact_rle orc junk unp h0 pk mx mn n b off stride 1 = Some (mkrle unp h pk' (Z.of_nat r)) /\
    length pk' = length pk /\ words_ok pk' /\
    (forall i, (i < 32 * length pk)%nat -> (i < off \/ off + r * b <= i)%nat -> bit_at pk' i = bit_at pk i) /\
    forall dst m, fits dst stride n ->
      exists dst', compact_rle orc junk dst h pk' mx mn m b off stride 2 = Some (mkrle dst' h pk' (Z.of_nat r)) /\
        updated dst dst' stride n (elt unp stride).
Proof.
  intros Hb Fu Fp Hfit Hst Hn Hn26 Hjunk Hlen Hlo Hhi Hrng Hall Hmm Hpend.
  set (ws := map (fun j => nth (j * stride) unp 0) (seq 0 n)).
  assert (Hws : forall x, In x ws -> exists j, (j < n)%nat /\ x = elt unp stride j) by (intros; apply in_map_seq_elt; auto).
  assert (Hin : forall j, (j < n)%nat -> In (elt unp stride j) ws).
  { intros j Hj. unfold ws. apply in_map_iff. exists j. split; [reflexivity|apply in_seq; lia]. }
  assert (Hwn : ws <> []) by (unfold ws; destruct n; [lia|discriminate]).
  (* the minimum and maximum in use *)
  assert (MM : exists mnI mxI, (if mx =? mn then find_min_max ws else Some (mn, mx)) = Some (mnI, mxI) /\
             0 <= mnI <= mxI /\ mxI < 2 ^ 32 /\ mxI - mnI <= 2 ^ Z.of_nat b - 3 /\ forall j, (j < n)%nat -> mnI <= elt unp stride j <= mxI).
  { assert (He0 : inr32 (elt unp stride 0)) by (eapply elt_inr; eauto). unfold inr32 in He0.
    destruct (Z.eqb_spec mx mn) as [Heq|Hne].
    - destruct (find_min_max_spec ws Hwn) as (a & c & Ef & I1 & I2 & FF). exists a, c. split; auto.
      destruct (Hws a I1) as (ja & Hja & ->). destruct (Hws c I2) as (jc & Hjc & ->).
      pose proof (Hall ja Hja). pose proof (Hall jc Hjc).
      assert (inr32 (elt unp stride jc)) by (eapply elt_inr; eauto). assert (inr32 (elt unp stride ja)) by (eapply elt_inr; eauto).
      unfold inr32 in *. pose proof (proj1 (Forall_forall _ _) FF _ I2) as HH. cbv beta in HH.
      split; [lia|]. split; [lia|]. split; [lia|]. intros j Hj. exact (proj1 (Forall_forall _ _) FF _ (Hin j Hj)).
    - destruct Hmm as [|[-> ->]]; [congruence|]. exists lo, hi. split; auto. pose proof (Hall 0%nat ltac:(lia)).
      split; [lia|]. split; [lia|]. split; [lia|]. exact Hall. }
  destruct MM as (mnI & mxI & EMM & Hmn & Hmx & HR & Hel).
  assert (Hpow : 2 ^ Z.of_nat b <= 2 ^ 31) by (apply Z.pow_le_mono_r; lia).
  assert (Hro : u32 (mxI - mnI) = mxI - mnI) by (unfold u32; apply Z.mod_small; lia).
  set (xs := map (fun x => u32 (x - mnI)) ws).
  assert (Lxs : length xs = n) by (unfold xs, ws; rewrite !map_length, seq_length; reflexivity).
  assert (Hxs : forall j, (j < n)%nat -> nth j xs 0 = elt unp stride j - mnI).
  { intros j Hj. unfold xs, ws. rewrite map_map, nth_map_seq by auto.
    change (nth (j * stride) unp 0) with (elt unp stride j). specialize (Hel j Hj). unfold u32. apply Z.mod_small. lia. }
  (* split off the last element *)
  destruct (exists_last (l := xs)) as (P & z & EP). { intros C. rewrite C in Lxs. simpl in Lxs. lia. }
  assert (LP : length P = (n - 1)%nat). { rewrite EP, app_length in Lxs. simpl in Lxs. lia. }
  destruct (tokens_spec b (mxI - mnI) (2 ^ Z.of_nat b - 1 - (mxI - mnI)) (junk - mnI) P z) as (E & EE & DE & FE & LE); auto; try lia.
  { rewrite <- EP. apply Forall_forall. intros x Hx. apply (In_nth _ _ 0) in Hx. destruct Hx as (j & Hj & <-).
    rewrite Lxs in Hj. rewrite Hxs by auto. specialize (Hel j Hj). lia. }
  { intros l x El. subst P. rewrite app_length in LP. cbn [length] in LP.
    assert (Hn3 : n = S (S (S (length l)))) by lia.
    assert (N0 : nth (length l) xs 0 = x).
    { rewrite EP, <- app_assoc, app_nth2, Nat.sub_diag by lia. reflexivity. }
    assert (N1 : nth (S (length l)) xs 0 = x).
    { rewrite EP, <- app_assoc, app_nth2 by lia. replace (S (length l) - length l)%nat with 1%nat by lia. reflexivity. }
    assert (N2 : nth (S (S (length l))) xs 0 = z).
    { rewrite EP, <- app_assoc, app_nth2 by lia. replace (S (S (length l)) - length l)%nat with 2%nat by lia. reflexivity. }
    rewrite Hxs in N0, N1, N2 by lia. specialize (Hpend _ Hn3). lia. }
  rewrite <- EP in EE, DE, LE. rewrite Lxs in LE.
  assert (LE1 : (1 <= length E)%nat). { destruct E; [|simpl; lia]. cbn in DE. destruct xs; [simpl in Lxs; lia|discriminate]. }
  assert (HLb : (length E * b <= n * b)%nat) by (apply Nat.mul_le_mono_r; exact LE).
  destruct (rle_pack_image orc pk off b E) as (pk' & Epk & Lpk & Fpk & Vpk); auto; [lia|nia|].
  exists pk', (rle_header b (length E) mnI (mxI - mnI)), (length E).
  split; [lia|]. split.
  { unfold compact_rle. replace (b <? 3)%nat with false by (symmetry; apply Nat.ltb_ge; lia).
    change (1 =? 1) with true. cbv iota. unfold rle_pack. rewrite gather_spec by exact Hfit. cbn [bind]. fold ws.
    rewrite EMM. cbn [bind]. rewrite Hro. fold xs. rewrite EE. cbn [bind].
    destruct (winit orc pk off) as [s|]; [|discriminate]. cbn [bind] in *.
    destruct (stuffs orc _ s) as [s'|]; [|discriminate]. cbn [bind] in *. rewrite Epk. reflexivity. }
  split; [auto|]. split; [auto|]. split.
  { intros i Hi Ho. rewrite !bit_at_mbits by lia. rewrite Vpk. pose proof (mbits_length 32 pk).
    apply overwrite_nth_out; rewrite tbits_length; lia. }
  intros dst m Hd.
  destruct (rinit_spec orc pk' off) as (s & Es & Os & Ps); auto. { rewrite Lpk. nia. }
  destruct (rle_unloop_spec orc pk' b mnI (mxI - mnI) stride E) with (s := s) (pos := 0%nat) (prevd := junk - mnI) (dst := dst)
    as (d & Ed & Wd); auto; try lia.
  { rewrite Ps, Vpk. replace (b * length E)%nat with (length (tbits b E)) by (rewrite tbits_length; lia).
    apply overwrite_slice. rewrite tbits_length, mbits_length. nia. }
  { rewrite DE, Lxs. intros i Hi. apply Hd. auto. }
  exists d. split.
  { unfold compact_rle. replace (b <? 3)%nat with false by (symmetry; apply Nat.ltb_ge; lia).
    change (2 =? 1) with false. change (2 =? 2) with true. cbv iota. unfold rle_unpack. rewrite Es. cbn [bind].
    unfold rle_header at 1 2 3, rd. cbn [nth_error bind]. rewrite header_w1 by lia.
    rewrite Z.shiftr_div_pow2 by lia.
    replace ((Z.of_nat b * 2 ^ 26 + Z.of_nat (length E)) mod 2 ^ 26) with (Z.of_nat (length E)).
    2:{ rewrite Z.add_comm, Z.mod_add by lia. symmetry. apply Z.mod_small. lia. }
    replace ((Z.of_nat b * 2 ^ 26 + Z.of_nat (length E)) / 2 ^ 26) with (Z.of_nat b).
    2:{ rewrite Z.add_comm, Z.div_add by lia. rewrite Z.div_small by lia. lia. }
    rewrite !Nat2Z.id. replace (u32 (junk - mnI + mnI)) with junk in Ed.
    2:{ unfold u32. rewrite Z.sub_add, Z.mod_small by lia. reflexivity. }
    rewrite Ed. cbn [bind]. reflexivity. }
  rewrite DE in Wd. destruct Wd as (Ld & A & B). split; auto. split.
  - intros j Hj. rewrite map_length, Lxs in A. specialize (A j Hj). cbn [Nat.add] in A. rewrite A.
    rewrite nth_error_map. rewrite (nth_error_nth' xs 0) by lia. cbn [option_map]. rewrite Hxs by auto.
    rewrite Z.sub_add. f_equal. apply u32_small. eapply elt_inr; eauto.
  - intros i Hi. apply B. intros j Hj. rewrite map_length, Lxs in Hj. cbn [Nat.add]. auto.
Qed.
