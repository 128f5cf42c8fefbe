(** Lemmas about the compact_integer model. *)
From Coq Require Import ZArith List Lia Bool.
From Verif Require Import Bits BitIO BitIOFacts CompactInt.
Import ListNotations.
Open Scope Z_scope.
Open Scope opt_scope.

Lemma gather_from_spec a stride k n :
  (forall j, (j < n)%nat -> ((k + j) * stride < length a)%nat) ->
  gather_from a stride k n = Some (map (fun j => nth (j * stride) a 0) (seq k n)).
Proof.
  revert k. induction n; intros k H; simpl; auto.
  assert (H0 : (k * stride < length a)%nat).
  { specialize (H 0%nat ltac:(lia)). rewrite Nat.add_0_r in H. exact H. }
  unfold rd. rewrite (nth_error_nth' a 0 H0). cbn [bind].
  rewrite IHn. { reflexivity. }
  intros j Hj. specialize (H (S j) ltac:(lia)). replace (S k + j)%nat with (k + S j)%nat by lia. exact H.
Qed.

Lemma gather_spec a stride n :
  (forall j, (j < n)%nat -> (j * stride < length a)%nat) ->
  gather a stride n = Some (map (fun j => nth (j * stride) a 0) (seq 0 n)).
Proof. intros. apply gather_from_spec. intros. simpl. auto. Qed.

Definition tbits (b : nat) (toks : list Z) : list bool := flat_map (bits_of b) toks.
Lemma tbits_length b toks : length (tbits b toks) = (b * length toks)%nat.
Proof. apply (mbits_length b toks). Qed.

Lemma tokbits_map b (g : Z -> Z) toks :
  (forall t, In t toks -> bits_of b (g t) = bits_of b t) ->
  tokbits (map (fun t => (g t, b)) toks) = tbits b toks.
Proof.
  induction toks; intros H; auto. unfold tokbits, tbits in *. simpl. rewrite H by (simpl; auto).
  f_equal. apply IHtoks. intros. apply H. simpl; auto.
Qed.

Lemma toklen_map b (g : Z -> Z) toks : toklen (map (fun t => (g t, b)) toks) = (b * length toks)%nat.
Proof. induction toks; simpl; [lia|]. unfold toklen in *. cbn [fold_right map]. rewrite IHtoks. lia. Qed.

Lemma put_words_spec mem p l :
  (p + length l <= length mem)%nat ->
  exists m, put_words mem p l = Some m /\ length m = length mem /\
    mbits 32 m = overwrite (32 * p) (tbits 32 l) (mbits 32 mem) /\
    (Forall inr32 mem -> Forall inr32 l -> Forall inr32 m).
Proof.
  revert mem p. induction l as [|w l IH]; intros mem p H; simpl put_words.
  - exists mem. split; auto. split; auto. split; auto. unfold tbits. simpl flat_map. rewrite overwrite_nil. reflexivity.
  - cbn [length] in H. destruct (wr_some mem p w) as [m Hm]; [lia|]. rewrite Hm. cbn [bind].
    pose proof (wr_length _ _ _ _ Hm).
    destruct (IH m (S p)) as (m' & E & L & V & F); [lia|].
    exists m'. split; auto. split; [lia|]. split.
    + rewrite V, (mbits_wr _ _ _ _ _ Hm). unfold tbits. cbn [flat_map]. fold (tbits 32 l).
      rewrite overwrite_app.
      * rewrite bits_of_length. f_equal. lia.
      * rewrite bits_of_length, tbits_length, mbits_length. lia.
    + intros Fm Fl. inversion Fl; subst. apply F; auto.
      apply wr_eq in Hm. subst m. apply Forall_app. split; [apply Forall_firstn; auto|].
      constructor; auto. apply Forall_skipn; auto.
Qed.

Lemma stuffs32_spec orc l s :
  wok s -> (0 < w_sp s < 32)%nat -> Forall inr32 l -> (wpos s + 32 * length l <= 32 * wlen s)%nat ->
  exists s', stuffs orc (map (fun t => (t, 32%nat)) l) s = Some s' /\ wok s' /\ wlen s' = wlen s /\
    wpos s' = (wpos s + 32 * length l)%nat /\
    wview s' = overwrite (wpos s) (tbits 32 l) (wview s) /\
    (Forall inr32 (w_mem s) -> Forall inr32 (w_mem s')).
Proof.
  revert s. induction l as [|t l IH]; intros s Hok Hsp HF Hlen.
  - exists s. cbn [map stuffs length]. unfold tbits. simpl flat_map. rewrite overwrite_nil.
    repeat split; auto; try lia; apply Hok.
  - inversion HF as [|? ? Ht HF']; subst. cbn [map stuffs length] in *.
    destruct (stuff_spec orc t 32 s) as (s1 & E1 & O1 & L1 & P1 & V1 & R1); auto; try lia.
    rewrite E1. cbn [bind].
    assert (Hs1 : w_sp s1 = w_sp s).
    { destruct O1 as [O1 _]. unfold wpos in P1. lia. }
    destruct (IH s1) as (s2 & E2 & O2 & L2 & P2 & V2 & R2); auto.
    { lia. } { lia. }
    exists s2. split; auto. split; auto. split; [congruence|]. split; [lia|]. split; [|auto].
    rewrite V2, V1, P1. unfold tbits. cbn [flat_map]. fold (tbits 32 l). rewrite overwrite_app.
    + rewrite bits_of_length. reflexivity.
    + rewrite bits_of_length, tbits_length. unfold wview. rewrite overwrite_length.
      * rewrite mbits_length. fold (wlen s). lia.
      * rewrite bits_of_length, mbits_length. unfold wpos, wlen in *. lia.
Qed.

(** Packing overwrites exactly the bits of the tokens. *)
Lemma pack_tokens_spec orc pk off b mask toks :
  (b <= 32)%nat -> Forall inr32 pk -> Forall inr32 toks ->
  (off + b * length toks <= 32 * length pk)%nat ->
  (b = 32%nat /\ (off mod 32 = 0)%nat \/ forall t, In t toks -> Z.land t mask = t mod 2 ^ Z.of_nat b) ->
  exists pk', pack_tokens orc pk off b mask toks = Some pk' /\ length pk' = length pk /\
    mbits 32 pk' = overwrite off (tbits b toks) (mbits 32 pk) /\ Forall inr32 pk'.
Proof.
  intros Hb Fp Ft Hlen Hm. unfold pack_tokens.
  destruct (winit_spec orc pk off) as (s & E & O & M & P & V & SP & PT); [lia|auto|].
  rewrite E. cbn [bind].
  pose proof (Nat.div_mod off 32 ltac:(lia)) as DM. pose proof (Nat.mod_upper_bound off 32 ltac:(lia)) as UB.
  destruct ((w_sp s =? 32) && (b =? 32))%nat eqn:EB.
  - apply andb_true_iff in EB. destruct EB as [E1 E2]. apply Nat.eqb_eq in E1, E2. subst b.
    rewrite M, PT. destruct (put_words_spec pk (off / 32) toks) as (m & Em & Lm & Vm & Fm); [lia|].
    exists m. split; auto. split; auto. split; auto. rewrite Vm. f_equal. lia.
  - assert (Hm' : forall t, In t toks -> Z.land t mask = t mod 2 ^ Z.of_nat b).
    { destruct Hm as [[-> Hal]|Hm]; auto. exfalso. rewrite andb_false_iff in EB.
      destruct EB as [EB|EB]; apply Nat.eqb_neq in EB; lia. }
    clear Hm.
    assert (Hstuff : exists s', stuffs orc (map (fun t => (Z.land t mask, b)) toks) s = Some s' /\ wok s' /\ wlen s' = wlen s /\
      wpos s' = (wpos s + b * length toks)%nat /\ wview s' = overwrite (wpos s) (tbits b toks) (wview s) /\
      (Forall inr32 (w_mem s) -> Forall inr32 (w_mem s'))).
    { destruct (Nat.eq_dec b 32) as [->|Hnb].
      - rewrite andb_true_r in EB. apply Nat.eqb_neq in EB.
        replace (map (fun t => (Z.land t mask, 32%nat)) toks) with (map (fun t => (t, 32%nat)) toks).
        + apply stuffs32_spec; auto. { destruct O as [O _]. lia. }
          rewrite P. unfold wlen. rewrite M. lia.
        + apply map_ext_in. intros t Ht. rewrite Hm' by auto. f_equal. symmetry. apply Z.mod_small.
          exact (proj1 (Forall_forall _ _) Ft t Ht).
      - destruct (stuffs_spec orc (map (fun t => (Z.land t mask, b)) toks) s) as (s' & E' & O' & L' & P' & V' & R'); auto.
        + apply Forall_forall. intros [t c] Hin. apply in_map_iff in Hin. destruct Hin as (t0 & Heq & Hin).
          inversion Heq; subst. split; cbn [fst snd]; [lia|]. rewrite Hm' by auto. apply Z.mod_pos_bound, pow2_pos.
        + rewrite P, toklen_map. unfold wlen. rewrite M. lia.
        + exists s'. rewrite toklen_map in P'. repeat split; auto; try apply O'.
          rewrite V'. rewrite tokbits_map; auto.
          intros t Ht. rewrite Hm' by auto. apply bits_of_inr. }
    destruct Hstuff as (s' & E' & O' & L' & P' & V' & R'). rewrite E'. cbn [bind].
    destruct (flush_spec orc s') as (m & Em & Lm & Vm & Fm); auto.
    { rewrite P', L', P. unfold wlen. rewrite M. lia. }
    exists m. split; auto. split. { rewrite Lm, L'. unfold wlen. rewrite M. reflexivity. }
    split. { rewrite Vm, V', P, V. reflexivity. }
    apply Fm, R'. rewrite M. auto.
Qed.

(** Unpacking returns the bits it finds. *)
Lemma unpack_loop_spec orc pk b f stride k n s dst toks :
  Forall inr32 pk -> rok pk s -> (1 <= b <= 32)%nat -> (1 <= stride)%nat -> length toks = n ->
  (rpos s + b * n < 32 * length pk)%nat ->
  slice (rpos s) (b * n) (mbits 32 pk) = tbits b toks ->
  (forall j, (j < n)%nat -> ((k + j) * stride < length dst)%nat) ->
  exists dst', unpack_loop orc pk b 0 f stride k n s dst = Some dst' /\ length dst' = length dst /\
    (forall j, (j < n)%nat -> nth_error dst' ((k + j) * stride) = Some (f (nth j toks 0 mod 2 ^ Z.of_nat b))) /\
    (forall i, (forall j, (j < n)%nat -> i <> ((k + j) * stride)%nat) -> nth_error dst' i = nth_error dst i).
Proof.
  intros F. revert k s dst toks. induction n; intros k s dst toks Hr Hb Hst Hl Hlen Hs Hd.
  - exists dst. simpl. split; auto. split; auto. split; auto. lia.
  - destruct toks as [|t toks]; [discriminate|]. cbn [length] in Hl. injection Hl as Hl.
    cbn [unpack_loop].
    destruct (extract_spec orc pk b s) as (t' & s1 & E1 & O1 & P1 & R1 & B1); auto; [lia|].
    rewrite E1. cbn [bind]. change (0 <? 0)%nat with false. cbn [bind].
    replace (b * S n)%nat with (b + b * n)%nat in Hs by lia. rewrite slice_app in Hs.
    unfold tbits in Hs. cbn [flat_map] in Hs. fold (tbits b toks) in Hs.
    assert (L : length (slice (rpos s) b (mbits 32 pk)) = b).
    { apply slice_length. rewrite mbits_length. lia. }
    apply app_inj_len in Hs; [|rewrite L, bits_of_length; reflexivity]. destruct Hs as [X Y].
    assert (Et : t' = t mod 2 ^ Z.of_nat b).
    { apply (bits_of_inj b); auto; [apply Z.mod_pos_bound, pow2_pos|]. rewrite bits_of_inr. congruence. }
    assert (Hk : (k * stride < length dst)%nat).
    { specialize (Hd 0%nat ltac:(lia)). rewrite Nat.add_0_r in Hd. exact Hd. }
    destruct (wr_some dst (k * stride) (f t')) as [d Ed]; auto. rewrite Ed. cbn [bind].
    pose proof (wr_length _ _ _ _ Ed) as Ld.
    destruct (IHn (S k) s1 d toks) as (dst' & E2 & L2 & A2 & B2); auto.
    { lia. }
    { rewrite P1. exact Y. }
    { intros j Hj. rewrite Ld. specialize (Hd (S j) ltac:(lia)). replace (S k + j)%nat with (k + S j)%nat by lia. exact Hd. }
    exists dst'. split; auto. split; [lia|]. split.
    + intros [|j] Hj.
      * rewrite Nat.add_0_r. cbn [nth]. rewrite B2.
        -- rewrite (wr_same _ _ _ _ Ed). congruence.
        -- intros j Hj'. nia.
      * cbn [nth]. rewrite <- A2 by lia. f_equal. lia.
    + intros i Hi. rewrite B2.
      * apply (wr_other _ _ _ _ _ Ed). specialize (Hi 0%nat ltac:(lia)). rewrite Nat.add_0_r in Hi. congruence.
      * intros j Hj. specialize (Hi (S j) ltac:(lia)). replace (S k + j)%nat with (k + S j)%nat by lia. exact Hi.
Qed.

Lemma unpack_tokens_spec orc pk off b f stride n dst toks :
  Forall inr32 pk -> (1 <= b <= 32)%nat -> (1 <= stride)%nat -> length toks = n ->
  (off + b * n < 32 * length pk)%nat ->
  slice off (b * n) (mbits 32 pk) = tbits b toks ->
  (forall j, (j < n)%nat -> (j * stride < length dst)%nat) ->
  exists dst', unpack_tokens orc pk off b f stride n dst = Some dst' /\ length dst' = length dst /\
    (forall j, (j < n)%nat -> nth_error dst' (j * stride) = Some (f (nth j toks 0 mod 2 ^ Z.of_nat b))) /\
    (forall i, (forall j, (j < n)%nat -> i <> (j * stride)%nat) -> nth_error dst' i = nth_error dst i).
Proof.
  intros F Hb Hst Hl Hlen Hs Hd. unfold unpack_tokens.
  destruct (rinit_spec orc pk off) as (s & E & O & P); auto; [lia|]. rewrite E. cbn [bind].
  replace (32 <? b)%nat with false by (symmetry; apply Nat.ltb_ge; lia).
  destruct (unpack_loop_spec orc pk b f stride 0 n s dst toks) as (d & E' & L & A & B); auto; try (rewrite P; auto).
  exists d. auto.
Qed.

Lemma cleanup_mask_land orc b t : (1 <= b <= 32)%nat ->
  Z.land t (cleanup_mask orc (Some b)) = t mod 2 ^ Z.of_nat b.
Proof.
  intros. unfold cleanup_mask, shr32.
  replace (32 - b <? 32)%nat with true by (symmetry; apply Nat.ltb_lt; lia).
  rewrite <- Z.land_ones by lia. f_equal.
  rewrite Z.shiftr_div_pow2 by lia. rewrite Z.ones_equiv.
  symmetry. apply (Z.div_unique_pos _ _ _ (2 ^ Z.of_nat (32 - b) - 1)).
  - pose proof (pow2_pos (32 - b)). lia.
  - rewrite two32, (pow2_split b 32) by lia. pose proof (pow2_pos b). nia.
Qed.

Lemma u32_range x : inr32 (u32 x).
Proof. apply Z.mod_pos_bound. lia. Qed.

Lemma positive_mask_signed b : (1 <= b <= 32)%nat -> positive_mask true b = 2 ^ Z.of_nat (b - 1).
Proof.
  intros. unfold positive_mask. rewrite Z.shiftl_mul_pow2, Z.mul_1_l by lia.
  apply Z.mod_small. split; [apply Z.lt_le_incl, pow2_pos|].
  apply Z.pow_lt_mono_r; lia.
Qed.

Lemma nth_map_seq {A} (g : nat -> A) n j d : (j < n)%nat -> nth j (map g (seq 0 n)) d = g j.
Proof.
  intros. rewrite nth_indep with (d' := g 0%nat) by (rewrite map_length, seq_length; lia).
  rewrite map_nth, seq_nth by lia. reflexivity.
Qed.
