(** Automatic width, header mode, read footprint, short and char. *)
From Coq Require Import ZArith List Lia Bool.
From Verif Require Import Bits BitIO BitIOFacts CompactInt CompactIntFacts SpecPack CompactIntMain CompactShort.
Import ListNotations.
Open Scope Z_scope.
Open Scope opt_scope.

Lemma bitlen_lor a b : 0 <= a -> 0 <= b -> bitlen (Z.lor a b) = Nat.max (bitlen a) (bitlen b).
Proof.
  intros Ha Hb. assert (0 <= Z.lor a b) by (apply Z.lor_nonneg; auto).
  destruct (Z.eq_dec a 0) as [->|]. { rewrite Z.lor_0_l. reflexivity. }
  destruct (Z.eq_dec b 0) as [->|]. { rewrite Z.lor_0_r. rewrite Nat.max_0_r. reflexivity. }
  assert (Z.lor a b <> 0) by (rewrite Z.lor_eq_0_iff; lia).
  unfold bitlen.
  destruct (Z.leb_spec a 0); [lia|]. destruct (Z.leb_spec b 0); [lia|]. destruct (Z.leb_spec (Z.lor a b) 0); [lia|].
  rewrite Z.log2_lor by lia.
  pose proof (Z.log2_nonneg a). pose proof (Z.log2_nonneg b). lia.
Qed.

Lemma fold_lor_spec l : forall x, 0 <= x -> Forall (fun v => 0 <= v) l ->
  0 <= fold_left Z.lor l x /\
  (bitlen x <= bitlen (fold_left Z.lor l x))%nat /\
  Forall (fun v => (bitlen v <= bitlen (fold_left Z.lor l x))%nat) l /\
  (forall k, (bitlen x <= k)%nat -> Forall (fun v => (bitlen v <= k)%nat) l -> (bitlen (fold_left Z.lor l x) <= k)%nat).
Proof.
  induction l as [|y l IH]; intros x Hx F; cbn [fold_left].
  - split; [|split; [|split]]; auto.
  - inversion F as [|? ? Hy F']; subst. specialize (IH (Z.lor x y) ltac:(apply Z.lor_nonneg; auto) F').
    rewrite bitlen_lor in IH by auto. destruct IH as (A & B & C & D).
    split; [auto|]. split; [lia|]. split; [constructor; [lia|auto]|].
    intros k Hk Hf. inversion Hf; subst. apply D; auto. lia.
Qed.

Lemma unsigned_auto_roundtrip orc unp pk n off stride :
  words_ok unp -> words_ok pk -> fits unp stride n -> (1 <= stride)%nat ->
  (off + n * 32 < 32 * length pk)%nat ->
  (exists j, (j < n)%nat /\ elt unp stride j <> 0) ->
  exists pk' r, (1 <= r <= 32)%nat /\
    compact_integer orc unp None pk n None off stride 1 = Some (mkci unp None pk' (Z.of_nat r)) /\
    (forall m, (forall j, (j < n)%nat -> elt unp stride j < 2 ^ Z.of_nat m) -> (r <= m)%nat) /\
    forall dst, fits dst stride n ->
      exists dst', compact_integer orc dst None pk' n (Some r) off stride 2 = Some (mkci dst' None pk' (Z.of_nat r)) /\
        updated dst dst' stride n (elt unp stride).
Proof.
  intros Fu Fp Hfit Hst Hlen (j0 & Hj0 & Hnz).
  set (xs := map (fun j => nth (j * stride) unp 0) (seq 0 n)).
  assert (Hxs : Forall inr32 xs) by (apply Forall_elts; intros; eapply elt_inr; eauto).
  destruct xs as [|x0 xr] eqn:Exs. { exfalso. unfold xs in Exs. destruct n; [lia|discriminate]. }
  inversion Hxs as [|? ? Hx0 Hxr]; subst.
  set (r := bitlen (fold_left Z.lor xr x0)).
  destruct (fold_lor_spec xr x0) as (A & B & C & D).
  { unfold inr32 in Hx0. lia. } { eapply Forall_impl; [|exact Hxr]. unfold inr32. intros; lia. }
  assert (Hall : forall j, (j < n)%nat -> (bitlen (elt unp stride j) <= r)%nat).
  { intros j Hj. assert (In (elt unp stride j) (x0 :: xr)).
    { rewrite <- Exs. unfold xs. apply in_map_iff. exists j. split; [reflexivity|apply in_seq; lia]. }
    destruct H as [<-|H]; [exact B|]. exact (proj1 (Forall_forall _ _) C _ H). }
  assert (Hlow : forall m, (forall j, (j < n)%nat -> elt unp stride j < 2 ^ Z.of_nat m) -> (r <= m)%nat).
  { intros m Hm.
    assert (HH : Forall (fun v => (bitlen v <= m)%nat) (x0 :: xr)).
    { rewrite <- Exs. unfold xs. apply (Forall_elts (fun v => (bitlen v <= m)%nat)). intros j Hj. apply bitlen_le.
      assert (inr32 (elt unp stride j)) by (eapply elt_inr; eauto). unfold inr32 in *. split; [lia|auto]. }
    inversion HH; subst. apply D; auto. }
  assert (Hr : (1 <= r <= 32)%nat).
  { split.
    - specialize (Hall j0 Hj0). assert (inr32 (elt unp stride j0)) by (eapply elt_inr; eauto). unfold inr32 in *.
      destruct r; [|lia]. assert (bitlen (elt unp stride j0) = 0%nat) as Hz by lia. apply bitlen_zero in Hz. lia.
    - apply Hlow. intros j Hj. assert (inr32 (elt unp stride j)) by (eapply elt_inr; eauto). unfold inr32 in *. lia. }
  assert (Hnr : (n * r <= n * 32)%nat) by (apply Nat.mul_le_mono_l; lia).
  destruct (unsigned_roundtrip orc unp pk n r off stride) as (pk' & E & H); auto; [lia| |].
  { intros j Hj. specialize (Hall j Hj). assert (inr32 (elt unp stride j)) by (eapply elt_inr; eauto). unfold inr32 in *.
    eapply Z.lt_le_trans; [apply bitlen_spec; lia|]. apply Z.pow_le_mono_r; lia. }
  exists pk', r. split; [auto|]. split; [|split; auto].
  rewrite <- E. unfold compact_integer. destruct r as [|r'] eqn:Er; [lia|]. rewrite <- Er.
  change (1 =? 1) with true. cbv iota. unfold ci_pack. rewrite gather_spec by exact Hfit. cbn [bind].
  fold xs. rewrite Exs. unfold elem. rewrite map_id. subst r. cbn [bind]. rewrite Er. reflexivity.
Qed.

Lemma signed_auto_roundtrip orc unp pk n off stride :
  words_ok unp -> words_ok pk -> fits unp stride n -> (1 <= stride)%nat -> (1 <= n)%nat ->
  (off + n * 32 < 32 * length pk)%nat ->
  (forall j, (j < n)%nat -> as_int (elt unp stride j) <> - 2 ^ 31) ->
  exists pk' r, (1 <= r <= 32)%nat /\
    compact_integer orc unp None pk n None off stride 3 = Some (mkci unp None pk' (Z.of_nat r)) /\
    forall dst, fits dst stride n ->
      exists dst', compact_integer orc dst None pk' n (Some r) off stride 4 = Some (mkci dst' None pk' (Z.of_nat r)) /\
        updated dst dst' stride n (elt unp stride).
Proof.
  intros Fu Fp Hfit Hst Hn Hlen Hmin.
  set (ws := map (fun j => nth (j * stride) unp 0) (seq 0 n)).
  set (xs := map (elem true) ws).
  destruct (find_min_max_spec xs) as (mn & mx & Hmm & Hin1 & Hin2 & HF).
  { unfold xs, ws. destruct n; [lia|discriminate]. }
  assert (Hin : forall j, (j < n)%nat -> In (s32 (elt unp stride j)) xs).
  { intros j Hj. unfold xs, ws. rewrite map_map. apply in_map_iff. exists j. split; [reflexivity|apply in_seq; lia]. }
  assert (Hbnd : forall x, In x xs -> - 2 ^ 31 < x < 2 ^ 31).
  { intros x Hx. unfold xs, ws in Hx. rewrite map_map in Hx. apply in_map_iff in Hx. destruct Hx as (j & <- & Hj).
    apply in_seq in Hj. change (nth (j * stride) unp 0) with (elt unp stride j). unfold elem.
    assert (inr32 (elt unp stride j)) by (eapply elt_inr; eauto; lia). specialize (Hmin j ltac:(lia)).
    rewrite <- s32_as_int in Hmin. unfold s32, inr32 in *. destruct (Z.ltb_spec (elt unp stride j) (2 ^ 31)); lia. }
  set (M := if mx <? Z.abs mn then Z.abs mn else mx).
  pose proof (Hbnd mn Hin1). pose proof (Hbnd mx Hin2).
  assert (HM : 0 <= M < 2 ^ 31 /\ - M <= mn /\ mx <= M).
  { unfold M. destruct (Z.ltb_spec mx (Z.abs mn)); lia. }
  set (r := S (bitlen M)).
  assert (Hr : (1 <= r <= 32)%nat).
  { unfold r. assert (bitlen M <= 31)%nat by (apply bitlen_le; simpl Z.of_nat; lia). lia. }
  pose proof (bitlen_spec M ltac:(lia)) as HbM.
  assert (Hnr : (n * r <= n * 32)%nat) by (apply Nat.mul_le_mono_l; lia).
  destruct (signed_roundtrip orc unp pk n r off stride) as (pk' & E & H1); auto; [lia| |].
  { intros j Hj. rewrite <- s32_as_int. specialize (Hin j Hj).
    pose proof (proj1 (Forall_forall _ _) HF _ Hin) as B. cbv beta in B.
    replace (r - 1)%nat with (bitlen M) by (unfold r; lia). lia. }
  exists pk', r. split; [auto|]. split; auto.
  rewrite <- E. unfold compact_integer. unfold r at 1. change (3 =? 1) with false. change (3 =? 3) with true. cbv iota.
  unfold ci_pack. rewrite gather_spec by exact Hfit. cbn [bind]. fold ws. fold xs. rewrite Hmm. cbn [bind].
  fold M. reflexivity.
Qed.

(** Header mode. *)
Lemma hdr_fixed orc signed unp pk n b off stride h0 :
  (1 <= b <= 32)%nat -> words_ok unp -> words_ok pk -> fits unp stride n -> (1 <= stride)%nat ->
  (1 <= n)%nat -> Z.of_nat n < 2 ^ 32 -> (off + n * b < 32 * length pk)%nat ->
  let val j := if signed : bool then as_int (elt unp stride j) else elt unp stride j in
  exists pk' h s jmn jmx, (jmn < n)%nat /\ (jmx < n)%nat /\
    (forall j, (j < n)%nat -> val jmn <= val j <= val jmx) /\
    (val jmx - val jmn < 2 ^ Z.of_nat (b + s) /\ (s = 0%nat \/ 2 ^ Z.of_nat (b + s - 1) <= val jmx - val jmn)) /\
    h = [0xFD000000 + Z.of_nat s * 64 + Z.of_nat b; Z.of_nat n; elt unp stride jmn; elt unp stride jmx] /\
    compact_integer orc unp (Some h0) pk n (Some b) off stride (if signed then 3 else 1)
      = Some (mkci unp (Some h) pk' (Z.of_nat b)) /\
    forall dst cnt, fits dst stride n ->
      exists dst', compact_integer orc dst (Some h) pk' cnt (Some b) off stride (if signed then 4 else 2)
                   = Some (mkci dst' (Some h) pk' (Z.of_nat b)) /\
        updated dst dst' stride n
          (fun j => (val jmn + (val j - val jmn) / 2 ^ Z.of_nat s * 2 ^ Z.of_nat s) mod 2 ^ 32).
Proof.
  intros Hb Fu Fp Hfit Hst Hn Hn32 Hlen val.
  assert (Hval : forall j, val j = elem signed (elt unp stride j)).
  { intros j. unfold val, elem. destruct signed; reflexivity. }
  set (xs := map (elem signed) (map (fun j => nth (j * stride) unp 0) (seq 0 n))).
  destruct (find_min_max_spec xs) as (mn & mx & Hmm & Hin1 & Hin2 & HF).
  { unfold xs. destruct n; [lia|discriminate]. }
  assert (Hin : forall j, (j < n)%nat -> In (val j) xs).
  { intros j Hj. rewrite Hval. unfold xs. rewrite map_map. apply in_map_iff. exists j. split; [reflexivity|apply in_seq; lia]. }
  assert (Hex : forall x, In x xs -> exists j, (j < n)%nat /\ x = val j).
  { intros x Hx. unfold xs in Hx. rewrite map_map in Hx. apply in_map_iff in Hx. destruct Hx as (j & <- & Hj).
    apply in_seq in Hj. exists j. split; [lia|]. rewrite Hval. reflexivity. }
  destruct (Hex mn Hin1) as (jmn & Hjmn & Emn). destruct (Hex mx Hin2) as (jmx & Hjmx & Emx).
  assert (Hle : forall j, (j < n)%nat -> val jmn <= val j <= val jmx).
  { intros j Hj. rewrite <- Emn, <- Emx. exact (proj1 (Forall_forall _ _) HF _ (Hin j Hj)). }
  assert (Hspan : 0 <= mx - mn < 2 ^ 32).
  { split; [rewrite Emn, Emx; specialize (Hle jmx Hjmx); lia|].
    rewrite Emn, Emx, !Hval. apply elem_diff; eapply elt_inr; eauto. }
  assert (Hro : range_of mn mx = mx - mn) by (apply range_of_spec; lia).
  set (s := (bitlen (mx - mn) - b)%nat).
  assert (Hbl : (bitlen (mx - mn) <= 32)%nat) by (apply bitlen_le; exact Hspan).
  pose proof (bitlen_spec (mx - mn) ltac:(lia)) as Hbl2.
  destruct (hdr_roundtrip_core orc signed unp pk n (Some b) off stride h0 mn mx s b) as (pk' & E & H); auto.
  { intros Hc. injection Hc. lia. }
  { lia. }
  { unfold header_shift. rewrite Hro. reflexivity. }
  { right. intros j Hj t. apply cleanup_mask_land. lia. }
  assert (Hh : header_words n mn mx s b = [0xFD000000 + Z.of_nat s * 64 + Z.of_nat b; Z.of_nat n; elt unp stride jmn; elt unp stride jmx]).
  { unfold header_words. rewrite header_word0 by lia. rewrite Emn, Emx, !Hval.
    rewrite !elem_u32 by (eapply elt_inr; eauto). unfold u32. rewrite Z.mod_small by lia. reflexivity. }
  rewrite Hh in *.
  exists pk', [0xFD000000 + Z.of_nat s * 64 + Z.of_nat b; Z.of_nat n; elt unp stride jmn; elt unp stride jmx], s, jmn, jmx.
  split; auto. split; auto. split; auto. split.
  { rewrite <- Emn, <- Emx. split.
    - eapply Z.lt_le_trans; [exact Hbl2|]. apply Z.pow_le_mono_r; lia.
    - destruct (Nat.eq_dec s 0) as [|Hs]; [auto|right].
      replace (b + s - 1)%nat with (bitlen (mx - mn) - 1)%nat by lia.
      unfold bitlen in *. destruct (Z.leb_spec (mx - mn) 0); [lia|].
      pose proof (Z.log2_nonneg (mx - mn)).
      replace (Z.of_nat (S (Z.to_nat (Z.log2 (mx - mn))) - 1)) with (Z.log2 (mx - mn)) by lia.
      apply Z.log2_spec. lia. }
  split; [reflexivity|]. split; [exact E|].
  intros dst cnt Hd. destruct (H dst cnt (Some b) Hd) as (d & r & Ed & U). { intros Hc; injection Hc; lia. }
  exists d. split.
  - rewrite Ed. f_equal. f_equal. unfold compact_integer in Ed. destruct b as [|b']; [lia|].
    assert (ci_unpack orc signed dst (Some [0xFD000000 + Z.of_nat s * 64 + Z.of_nat (S b'); Z.of_nat n; elt unp stride jmn; elt unp stride jmx])
              pk' cnt (Some (S b')) off stride = Some (mkci d (Some [0xFD000000 + Z.of_nat s * 64 + Z.of_nat (S b'); Z.of_nat n; elt unp stride jmn; elt unp stride jmx]) pk' r)) as Ed2.
    { destruct signed; exact Ed. }
    unfold ci_unpack in Ed2. destruct (hdr_bits _); [|discriminate]. cbn [bind] in Ed2.
    destruct (hdr_shift _); [|discriminate]. cbn [bind] in Ed2.
    destruct (rd _ 1); [|discriminate]. cbn [bind] in Ed2. destruct (rd _ 2); [|discriminate]. cbn [bind] in Ed2.
    destruct (unpack_tokens _ _ _ _ _ _ _ _); [|discriminate]. cbn [bind] in Ed2. injection Ed2. auto.
  - eapply updated_ext; [|exact U]. intros j Hj. cbv beta. unfold hdr_back, u32. rewrite <- Hval, <- Emn. reflexivity.
Qed.

(** Automatic width with header, on a machine that shifts modulo 32. *)
Lemma hdr_auto orc signed unp pk n off stride h0 :
  (forall x, orc false x 33%nat = x86 false x 33%nat) ->
  words_ok unp -> words_ok pk -> fits unp stride n -> (1 <= stride)%nat ->
  (1 <= n)%nat -> Z.of_nat n < 2 ^ 32 -> (off + n * 32 < 32 * length pk)%nat ->
  let val j := if signed : bool then as_int (elt unp stride j) else elt unp stride j in
  (exists i j, (i < n)%nat /\ (j < n)%nat /\ val i <> val j) ->
  (off mod 32 = 0)%nat \/ (forall i j, (i < n)%nat -> (j < n)%nat -> val i - val j < 2 ^ 31) ->
  exists pk' h r, (1 <= r <= 32)%nat /\
    compact_integer orc unp (Some h0) pk n None off stride (if signed then 3 else 1)
      = Some (mkci unp (Some h) pk' (Z.of_nat r)) /\
    forall dst cnt, fits dst stride n ->
      exists dst', compact_integer orc dst (Some h) pk' cnt None off stride (if signed then 4 else 2)
                   = Some (mkci dst' (Some h) pk' (-1)) /\
        updated dst dst' stride n (elt unp stride).
Proof.
  intros Horc Fu Fp Hfit Hst Hn Hn32 Hlen val Hne Hsm.
  assert (Hval : forall j, val j = elem signed (elt unp stride j)).
  { intros j. unfold val, elem. destruct signed; reflexivity. }
  set (xs := map (elem signed) (map (fun j => nth (j * stride) unp 0) (seq 0 n))).
  destruct (find_min_max_spec xs) as (mn & mx & Hmm & Hin1 & Hin2 & HF).
  { unfold xs. destruct n; [lia|discriminate]. }
  assert (Hin : forall j, (j < n)%nat -> In (val j) xs).
  { intros j Hj. rewrite Hval. unfold xs. rewrite map_map. apply in_map_iff. exists j. split; [reflexivity|apply in_seq; lia]. }
  assert (Hex : forall x, In x xs -> exists j, (j < n)%nat /\ x = val j).
  { intros x Hx. unfold xs in Hx. rewrite map_map in Hx. apply in_map_iff in Hx. destruct Hx as (j & <- & Hj).
    apply in_seq in Hj. exists j. split; [lia|]. rewrite Hval. reflexivity. }
  destruct (Hex mn Hin1) as (jmn & Hjmn & Emn). destruct (Hex mx Hin2) as (jmx & Hjmx & Emx).
  assert (Hle : forall j, (j < n)%nat -> mn <= val j <= mx).
  { intros j Hj. exact (proj1 (Forall_forall _ _) HF _ (Hin j Hj)). }
  assert (Hspan : 0 < mx - mn < 2 ^ 32).
  { split.
    - destruct Hne as (i & j & Hi & Hj & Hd). pose proof (Hle i Hi). pose proof (Hle j Hj). lia.
    - rewrite Emn, Emx, !Hval. apply elem_diff; eapply elt_inr; eauto. }
  assert (Hro : range_of mn mx = mx - mn) by (apply range_of_spec; lia).
  set (r := bitlen (mx - mn)).
  assert (Hbl : (r <= 32)%nat) by (apply bitlen_le; change (Z.of_nat 32) with 32; lia).
  assert (Hr1 : (1 <= r)%nat). { destruct r eqn:Er; [|lia]. apply bitlen_zero in Er. lia. }
  assert (Hnr : (n * r <= n * 32)%nat) by (apply Nat.mul_le_mono_l; lia).
  destruct (hdr_roundtrip_core orc signed unp pk n None off stride h0 mn mx 0 r) as (pk' & E & H); auto.
  { discriminate. }
  { unfold header_shift. rewrite Hro. reflexivity. }
  { lia. }
  { destruct (Nat.eq_dec r 32) as [R|R].
    - left. split; auto. destruct Hsm as [|Hsm]; auto. exfalso.
      specialize (Hsm jmx jmn Hjmx Hjmn). rewrite <- Emn, <- Emx in Hsm.
      assert (r <= 31)%nat by (apply bitlen_le; change (Z.of_nat 31) with 31; lia). lia.
    - right. intros j Hj t. unfold cleanup_mask, shr32. change (33 <? 32)%nat with false. cbv iota. rewrite Horc.
      change (x86 false (2 ^ 32 - 1) 33%nat mod 2 ^ 32) with (Z.ones 31). rewrite Z.land_ones by lia.
      pose proof (Hle j Hj) as Hj2. rewrite Hval in Hj2.
      assert (Et : t mod 2 ^ Z.of_nat 32 = (elem signed (elt unp stride j) - mn) / 2 ^ Z.of_nat 0 mod 2 ^ Z.of_nat 32).
      { unfold t. apply hdr_token_mod; lia. }
      change (2 ^ Z.of_nat 0) with 1 in Et. rewrite Z.div_1_r in Et.
      pose proof (hdr_token_range orc signed mn 0 (elem signed (elt unp stride j))) as Ht. fold t in Ht. unfold inr32 in Ht.
      rewrite !Z.mod_small in Et by (rewrite <- two32; lia).
      pose proof (bitlen_spec (mx - mn) ltac:(lia)) as Hbl2. fold r in Hbl2.
      assert (2 ^ Z.of_nat r <= 2 ^ 31) by (apply Z.pow_le_mono_r; lia).
      rewrite !Z.mod_small by lia. reflexivity. }
  exists pk', (header_words n mn mx 0 r), r. split; [lia|]. split; [exact E|].
  intros dst cnt Hd. destruct (H dst cnt None Hd) as (d & q & Ed & U); [discriminate|].
  exists d. split.
  - rewrite Ed. f_equal. f_equal.
    assert (Ed2 : ci_unpack orc signed dst (Some (header_words n mn mx 0 r)) pk' cnt None off stride
            = Some (mkci d (Some (header_words n mn mx 0 r)) pk' q)).
    { rewrite <- Ed. unfold compact_integer. destruct signed; reflexivity. }
    unfold ci_unpack in Ed2. destruct (hdr_bits _); [|discriminate]. cbn [bind] in Ed2.
    destruct (hdr_shift _); [|discriminate]. cbn [bind] in Ed2.
    destruct (rd _ 1); [|discriminate]. cbn [bind] in Ed2. destruct (rd _ 2); [|discriminate]. cbn [bind] in Ed2.
    destruct (unpack_tokens _ _ _ _ _ _ _ _); [|discriminate]. cbn [bind] in Ed2. injection Ed2. auto.
  - eapply updated_ext; [|exact U]. intros j Hj. cbv beta. unfold hdr_back.
    change (2 ^ Z.of_nat 0) with 1. rewrite Z.div_1_r, Z.mul_1_r.
    replace (mn + (elem signed (elt unp stride j) - mn)) with (elem signed (elt unp stride j)) by lia.
    apply elem_u32. eapply elt_inr; eauto.
Qed.

(** ** Short and char *)
Lemma small_roundtrip w op1 op2 orc unp pk n b off stride :
  (1 <= w <= 32)%nat -> op1 <> op2 ->
  (1 <= b <= 32)%nat -> Forall (fun v => 0 <= v < 2 ^ Z.of_nat w) unp -> words_ok pk -> fits unp stride n -> (1 <= stride)%nat ->
  (off + n * b < 32 * length pk)%nat ->
  exists pk', compact_small w op1 op2 orc unp None pk n (Some b) off stride op1 = Some (mkci unp None pk' (Z.of_nat b)) /\
    length pk' = length pk /\ words_ok pk' /\
    (forall i, (i < 32 * length pk)%nat -> (i < off \/ off + n * b <= i)%nat -> bit_at pk' i = bit_at pk i) /\
    forall dst, fits dst stride n ->
      exists dst', compact_small w op1 op2 orc dst None pk' n (Some b) off stride op2 = Some (mkci dst' None pk' (Z.of_nat b)) /\
        updated dst dst' stride n (fun j => elt unp stride j mod 2 ^ Z.of_nat b).
Proof.
  intros Hw Hop Hb Fu Fp Hfit Hst Hlen.
  set (toks := map (fun j => nth (j * stride) unp 0) (seq 0 n)).
  assert (Lt : length toks = n) by (unfold toks; rewrite map_length, seq_length; reflexivity).
  assert (Hel : forall j, (j < n)%nat -> 0 <= elt unp stride j < 2 ^ Z.of_nat w).
  { intros j Hj. eapply (proj1 (Forall_forall _ _) Fu). apply nth_In. auto. }
  assert (Hw32 : 2 ^ Z.of_nat w <= 2 ^ 32) by (apply Z.pow_le_mono_r; lia).
  assert (Ft : Forall inr32 toks).
  { apply (Forall_elts inr32). intros j Hj. specialize (Hel j Hj). unfold inr32. lia. }
  destruct (pack_tokens_spec orc pk off b (cleanup_mask orc (Some b)) toks) as (pk' & E & L & V & F); auto.
  { lia. } { rewrite Lt. lia. } { right. intros. apply cleanup_mask_land. lia. }
  exists pk'. split.
  { unfold compact_small. destruct b as [|b']; [lia|]. rewrite Z.eqb_refl. unfold cs_pack.
    rewrite gather_spec by exact Hfit. cbn [bind]. fold toks. rewrite E. reflexivity. }
  split; [auto|]. split; [auto|]. split.
  { intros i Hi Ho. rewrite !bit_at_mbits by lia. rewrite V. pose proof (mbits_length 32 pk).
    apply overwrite_nth_out; rewrite tbits_length, Lt; lia. }
  intros dst Hd.
  destruct (unpack_tokens_spec orc pk' off b (fun t => t mod 2 ^ Z.of_nat w) stride n dst toks)
    as (d & Ed & Ld & A & B); auto.
  { lia. }
  { rewrite V. replace (b * n)%nat with (length (tbits b toks)) by (rewrite tbits_length; lia).
    apply overwrite_slice. rewrite tbits_length, mbits_length, Lt. lia. }
  exists d. split.
  { unfold compact_small. destruct b as [|b']; [lia|]. replace (op2 =? op1) with false by (symmetry; apply Z.eqb_neq; congruence).
    rewrite Z.eqb_refl. unfold cs_unpack. cbn [bind]. rewrite Ed. reflexivity. }
  split; auto. split; auto. intros j Hj. rewrite A by auto. f_equal. unfold toks. rewrite nth_map_seq by auto.
  change (nth (j * stride) unp 0) with (elt unp stride j). specialize (Hel j Hj). pose proof (pow2_pos b).
  apply Z.mod_small.
  pose proof (Z.mod_pos_bound (elt unp stride j) (2 ^ Z.of_nat b) ltac:(lia)).
  pose proof (Z.mod_le (elt unp stride j) (2 ^ Z.of_nat b) ltac:(lia) ltac:(lia)). lia.
Qed.
