(** The bit packing macros write and read a big-endian bit stream. *)
From Coq Require Import ZArith List Lia Bool.
From Verif Require Import Bits BitIO.
Import ListNotations.
Open Scope Z_scope.
Open Scope opt_scope.

Definition inr32 (v : Z) := 0 <= v < 2 ^ 32.

Lemma pow2_pos n : 0 < 2 ^ Z.of_nat n.
Proof. apply Z.pow_pos_nonneg; lia. Qed.

Lemma pow2_split n m : (n <= m)%nat -> 2 ^ Z.of_nat m = 2 ^ Z.of_nat n * 2 ^ Z.of_nat (m - n).
Proof. intros. rewrite <- Z.pow_add_r by lia. f_equal. lia. Qed.

(** Concatenation of bit fields. *)
Lemma lor_shiftl_add x y k : 0 <= y < 2 ^ Z.of_nat k ->
  Z.lor (x * 2 ^ Z.of_nat k) y = x * 2 ^ Z.of_nat k + y.
Proof.
  intros. symmetry. rewrite Z.add_nocarry_lxor; [apply Z.lxor_lor|].
  - apply Z.bits_inj'. intros i Hi. rewrite Z.land_spec, Z.testbit_0_l.
    rewrite <- Z.shiftl_mul_pow2 by lia. rewrite Z.shiftl_spec by lia.
    destruct (Z.lt_ge_cases i (Z.of_nat k)).
    + rewrite Z.testbit_neg_r by lia. reflexivity.
    + rewrite <- (Z.mod_small y (2 ^ Z.of_nat k)) by lia.
      rewrite Z.mod_pow2_bits_high by lia. apply andb_false_r.
  - apply Z.bits_inj'. intros i Hi. rewrite Z.land_spec, Z.testbit_0_l.
    rewrite <- Z.shiftl_mul_pow2 by lia. rewrite Z.shiftl_spec by lia.
    destruct (Z.lt_ge_cases i (Z.of_nat k)).
    + rewrite Z.testbit_neg_r by lia. reflexivity.
    + rewrite <- (Z.mod_small y (2 ^ Z.of_nat k)) by lia.
      rewrite Z.mod_pow2_bits_high by lia. apply andb_false_r.
Qed.

Lemma bits_of_concat n k x y : 0 <= y < 2 ^ Z.of_nat k ->
  bits_of (n + k) (x * 2 ^ Z.of_nat k + y) = bits_of n x ++ bits_of k y.
Proof.
  intros. rewrite bits_of_app. f_equal.
  - rewrite Z.shiftr_div_pow2 by lia. f_equal.
    rewrite Z.div_add_l, Z.div_small by (pose proof (pow2_pos k); lia). lia.
  - rewrite <- (bits_of_mod k k) by lia. rewrite Z.add_comm, Z.mod_add by (pose proof (pow2_pos k); lia).
    rewrite bits_of_mod by lia. reflexivity.
Qed.

Lemma bits_of_inr n x : bits_of n (x mod 2 ^ Z.of_nat n) = bits_of n x.
Proof. apply bits_of_mod; lia. Qed.

Lemma two32 : 2 ^ 32 = 2 ^ Z.of_nat 32.
Proof. reflexivity. Qed.

Lemma shl32_range orc x n : inr32 (shl32 orc x n).
Proof. unfold shl32, inr32. destruct (n <? 32)%nat; apply Z.mod_pos_bound; lia. Qed.

Lemma shr32_range orc x n : inr32 x -> inr32 (shr32 orc x n).
Proof.
  unfold shr32, inr32. intros. destruct (n <? 32)%nat; [|apply Z.mod_pos_bound; lia].
  rewrite Z.shiftr_div_pow2 by lia. pose proof (pow2_pos n).
  split; [apply Z.div_pos; lia|]. apply Z.div_lt_upper_bound; nia.
Qed.

Lemma lor_range n x y : 0 <= n -> 0 <= x < 2 ^ n -> 0 <= y < 2 ^ n -> 0 <= Z.lor x y < 2 ^ n.
Proof.
  intros Hn Hx Hy.
  assert (0 <= Z.lor x y) by (apply Z.lor_nonneg; lia). split; auto.
  assert (Z.lor x y = Z.lor x y mod 2 ^ n) as ->.
  { apply Z.bits_inj'. intros i Hi. destruct (Z.lt_ge_cases i n).
    - rewrite Z.mod_pow2_bits_low by lia. reflexivity.
    - rewrite Z.mod_pow2_bits_high by lia. rewrite Z.lor_spec.
      rewrite <- (Z.mod_small x (2 ^ n)), <- (Z.mod_small y (2 ^ n)) by lia.
      rewrite !Z.mod_pow2_bits_high by lia. reflexivity. }
  apply Z.mod_pos_bound. lia.
Qed.

Definition slice {A} (p n : nat) (l : list A) : list A := firstn n (skipn p l).

Lemma slice_length {A} p n (l : list A) : (p + n <= length l)%nat -> length (slice p n l) = n.
Proof. intros. unfold slice. rewrite firstn_length, skipn_length. lia. Qed.

Lemma slice_app {A} p n m (l : list A) : slice p (n + m) l = slice p n l ++ slice (p + n) m l.
Proof.
  unfold slice. rewrite <- (skipn_skipn' n p). generalize (skipn p l). clear.
  induction n; intros [|h t]; simpl; auto.
  - rewrite firstn_nil. reflexivity.
  - f_equal. apply IHn.
Qed.

Lemma slice_mid {A} p n (x y z : list A) : length x = p -> length y = n -> slice p n (x ++ y ++ z) = y.
Proof.
  intros <- <-. unfold slice. rewrite skipn_app, skipn_all, Nat.sub_diag. simpl.
  rewrite firstn_app, firstn_all, Nat.sub_diag, firstn_O, app_nil_r. reflexivity.
Qed.

(** ** Writer *)
Definition wok (s : wst) : Prop := (w_sp s <= 32)%nat /\ inr32 (w_lws s).

(** Current bit position, and the bit content of the array with the pending
    bits of [w_lws] put in place. *)
Definition wpos (s : wst) : nat := 32 * w_ptr s + (32 - w_sp s).
Definition wview (s : wst) : list bool :=
  overwrite (32 * w_ptr s) (bits_of (32 - w_sp s) (w_lws s)) (mbits 32 (w_mem s)).
Definition wlen (s : wst) : nat := length (w_mem s).

Lemma stuff_spec orc tok b s :
  wok s -> (b < 32 \/ (b = 32 /\ 0 < w_sp s < 32))%nat ->
  0 <= tok < 2 ^ Z.of_nat b -> (wpos s + b <= 32 * wlen s)%nat ->
  exists s', stuff orc tok b s = Some s' /\ wok s' /\ wlen s' = wlen s /\
    wpos s' = (wpos s + b)%nat /\
    wview s' = overwrite (wpos s) (bits_of b tok) (wview s) /\
    (Forall inr32 (w_mem s) -> Forall inr32 (w_mem s')).
Proof.
  destruct s as [mem ptr lws sp]. unfold wok, wpos, wview, wlen, stuff; cbn [w_mem w_ptr w_lws w_sp].
  intros [Hsp Hl] Hb Ht Hlen.
  assert (Hb32 : (b <= 32)%nat) by lia.
  destruct (Nat.leb_spec b sp) as [Hfit|Hfit].
  - assert (b < 32)%nat by lia.
    eexists. split; [reflexivity|]. cbn [w_mem w_ptr w_lws w_sp]. unfold shl32.
    replace (b <? 32)%nat with true by (symmetry; apply Nat.ltb_lt; lia).
    assert (Ht32 : inr32 tok).
    { unfold inr32. rewrite two32. rewrite (pow2_split b 32) by lia. pose proof (pow2_pos (32 - b)). nia. }
    split; [split; [lia|apply lor_range; [lia| |exact Ht32]; apply Z.mod_pos_bound; lia]|].
    split; [reflexivity|]. split; [lia|]. split; [|auto].
    replace (32 - (sp - b))%nat with ((32 - sp) + b)%nat by lia.
    assert (E : bits_of (32 - sp + b) (Z.lor (Z.shiftl lws (Z.of_nat b) mod 2 ^ 32) tok)
                = bits_of (32 - sp) lws ++ bits_of b tok).
    { rewrite <- (bits_of_concat (32 - sp) b lws tok) by lia.
      rewrite <- lor_shiftl_add by lia.
      apply bits_of_testbit_ext. intros i Hi. rewrite !Z.lor_spec. f_equal.
      rewrite Z.mod_pow2_bits_low by lia. rewrite Z.shiftl_mul_pow2 by lia. reflexivity. }
    rewrite E. rewrite overwrite_app.
    + rewrite bits_of_length. reflexivity.
    + rewrite !bits_of_length, mbits_length. lia.
  - destruct (wr_some mem ptr (Z.lor (shl32 orc lws sp) (shr32 orc tok (b - sp)))) as [m Hm].
    { lia. }
    rewrite Hm. cbn [bind]. eexists. split; [reflexivity|]. cbn [w_mem w_ptr w_lws w_sp].
    pose proof (wr_length _ _ _ _ Hm) as Hml.
    assert (Ht32 : inr32 tok).
    { unfold inr32. rewrite two32. rewrite (pow2_split b 32) by lia. pose proof (pow2_pos (32 - b)). nia. }
    rewrite Z.shiftr_div_pow2 by lia.
    replace (-1 / 2 ^ Z.of_nat (32 - (b - sp))) with (-1).
    2:{ pose proof (pow2_pos (32 - (b - sp))).
        apply (Z.div_unique_pos (-1) _ (-1) (2 ^ Z.of_nat (32 - (b - sp)) - 1)); lia. }
    rewrite Z.land_m1_r.
    split; [split; [lia|auto]|]. split; [lia|]. split; [lia|]. split.
    2:{ intros F. apply wr_eq in Hm. subst m.
        apply Forall_app. split; [apply Forall_firstn; auto|].
        constructor; [|apply Forall_skipn; auto].
        apply lor_range; [lia|apply shl32_range|apply shr32_range; auto]. }
    replace (32 - (32 - (b - sp)))%nat with (b - sp)%nat by lia.
    rewrite (mbits_wr _ _ _ _ _ Hm).
    assert (E : bits_of 32 (Z.lor (shl32 orc lws sp) (shr32 orc tok (b - sp)))
                = bits_of (32 - sp) lws ++ bits_of sp (Z.shiftr tok (Z.of_nat (b - sp)))).
    { unfold shl32, shr32.
      replace (sp <? 32)%nat with true by (symmetry; apply Nat.ltb_lt; lia).
      replace (b - sp <? 32)%nat with true by (symmetry; apply Nat.ltb_lt; lia).
      assert (R : 0 <= Z.shiftr tok (Z.of_nat (b - sp)) < 2 ^ Z.of_nat sp).
      { rewrite Z.shiftr_div_pow2 by lia. pose proof (pow2_pos (b - sp)).
        split; [apply Z.div_pos; lia|]. apply Z.div_lt_upper_bound; [lia|].
        rewrite <- Z.pow_add_r by lia. replace (Z.of_nat (b - sp) + Z.of_nat sp) with (Z.of_nat b) by lia. lia. }
      rewrite <- (bits_of_concat (32 - sp) sp lws) by lia.
      rewrite <- lor_shiftl_add by lia.
      replace (32 - sp + sp)%nat with 32%nat by lia.
      apply bits_of_testbit_ext. intros i Hi. rewrite !Z.lor_spec. f_equal.
      rewrite Z.mod_pow2_bits_low by lia. rewrite Z.shiftl_mul_pow2 by lia. reflexivity. }
    rewrite E.
    assert (EB : bits_of b tok = bits_of sp (Z.shiftr tok (Z.of_nat (b - sp))) ++ bits_of (b - sp) tok).
    { rewrite <- bits_of_app. f_equal. lia. }
    rewrite EB.
    set (A := bits_of (32 - sp) lws). set (B := bits_of sp (Z.shiftr tok (Z.of_nat (b - sp)))).
    set (C := bits_of (b - sp) tok).
    assert (LA : length A = (32 - sp)%nat) by apply bits_of_length.
    assert (LB : length B = sp) by apply bits_of_length.
    assert (LC : length C = (b - sp)%nat) by apply bits_of_length.
    pose proof (mbits_length 32 mem) as LM.
    rewrite (overwrite_app (32 * ptr) A B) by lia.
    rewrite (overwrite_app (32 * ptr + (32 - sp)) B C).
    2:{ rewrite overwrite_length by lia. lia. }
    rewrite LA, LB. f_equal. lia.
Qed.

Lemma flush_spec orc s :
  wok s -> (wpos s <= 32 * wlen s)%nat ->
  exists m, flush orc s = Some m /\ length m = wlen s /\ mbits 32 m = wview s /\
    (Forall inr32 (w_mem s) -> Forall inr32 m).
Proof.
  destruct s as [mem ptr lws sp]. unfold wok, wpos, wview, wlen, flush; cbn [w_mem w_ptr w_lws w_sp].
  intros [Hsp Hl] Hlen.
  destruct (Nat.ltb_spec sp 32).
  - destruct (rd_some mem ptr) as [old Hold]; [lia|]. rewrite Hold. cbn [bind].
    destruct (wr_some mem ptr (Z.lor (shl32 orc lws sp) (Z.land old (Z.lnot (Z.shiftl (-1) (Z.of_nat sp)))))) as [m Hm]; [lia|].
    rewrite Hm. eexists. split; [reflexivity|]. split; [eapply wr_length; eauto|].
    assert (EM : Z.lnot (Z.shiftl (-1) (Z.of_nat sp)) = Z.ones (Z.of_nat sp)).
    { rewrite Z.ones_equiv. rewrite Z.shiftl_mul_pow2 by lia. unfold Z.lnot. lia. }
    split.
    + rewrite (mbits_wr _ _ _ _ _ Hm).
      rewrite EM, Z.land_ones by lia.
      assert (E : bits_of 32 (Z.lor (shl32 orc lws sp) (old mod 2 ^ Z.of_nat sp))
                  = bits_of (32 - sp) lws ++ bits_of sp old).
      { unfold shl32. replace (sp <? 32)%nat with true by (symmetry; apply Nat.ltb_lt; lia).
        rewrite <- (bits_of_inr sp old).
        rewrite <- (bits_of_concat (32 - sp) sp lws) by (apply Z.mod_pos_bound, pow2_pos).
        rewrite <- lor_shiftl_add by (apply Z.mod_pos_bound, pow2_pos).
        replace (32 - sp + sp)%nat with 32%nat by lia.
        apply bits_of_testbit_ext. intros i Hi. rewrite !Z.lor_spec. f_equal.
        rewrite Z.mod_pow2_bits_low by lia. rewrite Z.shiftl_mul_pow2 by lia. reflexivity. }
      rewrite E.
      pose proof (mbits_rd 32 _ _ _ Hold) as Hrd.
      pose proof (mbits_length 32 mem) as LM.
      destruct (split3 (mbits 32 mem) (32 * ptr) 32) as (x & y & z & EE & Lx & Ly); [lia|].
      rewrite EE in Hrd |- *.
      change (slice (32 * ptr) 32 (x ++ y ++ z) = bits_of 32 old) in Hrd.
      rewrite slice_mid in Hrd by lia. subst y.
      assert (EO : bits_of 32 old = bits_of (32 - sp) (Z.shiftr old (Z.of_nat sp)) ++ bits_of sp old).
      { rewrite <- bits_of_app. f_equal. lia. }
      rewrite EO in *. clear EO.
      rewrite overwrite_split.
      2: lia. 2:{ rewrite !app_length, !bits_of_length. lia. }
      rewrite <- !app_assoc.
      rewrite overwrite_split.
      2: lia. 2:{ rewrite !bits_of_length. lia. }
      reflexivity.
    + intros F. assert (Ho : inr32 old) by (eapply Forall_forall; eauto; eapply nth_error_In; eauto).
      apply wr_eq in Hm. subst m.
      apply Forall_app. split; [apply Forall_firstn; auto|].
      constructor; [|apply Forall_skipn; auto].
      apply lor_range; [lia|apply shl32_range|]. rewrite EM, Z.land_ones by lia.
      unfold inr32 in Ho. pose proof (pow2_pos sp).
      assert (old mod 2 ^ Z.of_nat sp <= old) by (apply Z.mod_le; lia).
      pose proof (Z.mod_pos_bound old (2 ^ Z.of_nat sp) ltac:(lia)). lia.
  - assert (sp = 32)%nat by lia. subst. exists mem. split; auto. split; auto. split; auto.
    simpl. rewrite overwrite_nil. reflexivity.
Qed.

Lemma winit_spec orc mem off :
  (off <= 32 * length mem)%nat -> Forall inr32 mem ->
  exists s, winit orc mem off = Some s /\ wok s /\ w_mem s = mem /\ wpos s = off /\
    wview s = mbits 32 mem /\ w_sp s = (32 - off mod 32)%nat /\ w_ptr s = (off / 32)%nat.
Proof.
  intros Hoff F. unfold winit.
  pose proof (Nat.div_mod off 32 ltac:(lia)) as DM. pose proof (Nat.mod_upper_bound off 32 ltac:(lia)) as UB.
  destruct (Nat.eqb_spec (32 - off mod 32) 32).
  - eexists. split; [reflexivity|]. unfold wok, wpos, wview; cbn [w_mem w_ptr w_lws w_sp].
    split; [split; [lia|unfold inr32; lia]|]. split; auto. split; [lia|].
    split; [|split; auto].
    replace (32 - (32 - off mod 32))%nat with 0%nat by lia. simpl bits_of. apply overwrite_nil.
  - destruct (rd_some mem (off / 32)) as [w Hw]; [lia|]. rewrite Hw. cbn [bind].
    eexists. split; [reflexivity|]. unfold wok, wpos, wview; cbn [w_mem w_ptr w_lws w_sp].
    assert (Hwr : inr32 w) by (eapply Forall_forall; eauto; eapply nth_error_In; eauto).
    split; [split; [lia|apply shr32_range; auto]|]. split; auto. split; [lia|].
    split; [|split; auto].
    set (r := (off mod 32)%nat) in *.
    replace (32 - (32 - r))%nat with r by lia.
    unfold shr32. replace (32 - r <? 32)%nat with true by (symmetry; apply Nat.ltb_lt; lia).
    pose proof (mbits_rd 32 _ _ _ Hw) as Hrd.
    assert (EW : bits_of 32 w = bits_of r (Z.shiftr w (Z.of_nat (32 - r))) ++ bits_of (32 - r) w).
    { rewrite <- bits_of_app. f_equal. lia. }
    rewrite EW in Hrd.
    pose proof (mbits_length 32 mem) as LM.
    destruct (split3 (mbits 32 mem) (32 * (off / 32)) 32) as (x & y & z & EE & Lx & Ly); [lia|].
    rewrite EE in Hrd |- *.
    change (slice (32 * (off / 32)) 32 (x ++ y ++ z) = bits_of r (Z.shiftr w (Z.of_nat (32 - r))) ++ bits_of (32 - r) w) in Hrd.
    rewrite slice_mid in Hrd by lia. subst y.
    rewrite <- app_assoc. rewrite overwrite_split; auto; lia.
Qed.

(** A whole list of tokens. *)
Definition tokbits (l : list (Z * nat)) : list bool :=
  flat_map (fun '(t, b) => bits_of b t) l.
Definition toklen (l : list (Z * nat)) : nat := fold_right (fun '(_, b) a => (b + a)%nat) 0%nat l.

Lemma tokbits_length l : length (tokbits l) = toklen l.
Proof.
  induction l as [|[t b] l IH]; auto. unfold tokbits, toklen in *. simpl.
  rewrite app_length, bits_of_length, IH. reflexivity.
Qed.

Definition tokok (p : Z * nat) : Prop := (snd p < 32)%nat /\ 0 <= fst p < 2 ^ Z.of_nat (snd p).

Lemma stuffs_spec orc l s :
  wok s -> Forall tokok l -> (wpos s + toklen l <= 32 * wlen s)%nat ->
  exists s', stuffs orc l s = Some s' /\ wok s' /\ wlen s' = wlen s /\
    wpos s' = (wpos s + toklen l)%nat /\
    wview s' = overwrite (wpos s) (tokbits l) (wview s) /\
    (Forall inr32 (w_mem s) -> Forall inr32 (w_mem s')).
Proof.
  revert s. induction l as [|[t b] l IH]; intros s Hok HF Hlen; simpl.
  - exists s. simpl in *. unfold tokbits. simpl. rewrite overwrite_nil. repeat split; auto; try lia; apply Hok.
  - inversion HF as [|? ? [Hb Ht] HF']; subst. simpl in *.
    destruct (stuff_spec orc t b s) as (s1 & E1 & O1 & L1 & P1 & V1 & R1); auto; try lia.
    rewrite E1. simpl.
    destruct (IH s1) as (s2 & E2 & O2 & L2 & P2 & V2 & R2); auto.
    { rewrite P1, L1. lia. }
    exists s2. split; auto. split; auto. split; [congruence|]. split; [lia|]. split; [|auto].
    rewrite V2, V1, P1. unfold tokbits. simpl. fold (tokbits l). rewrite overwrite_app.
    + rewrite bits_of_length. reflexivity.
    + rewrite bits_of_length, tokbits_length. unfold wview. rewrite overwrite_length.
      * rewrite mbits_length. fold (wlen s). lia.
      * rewrite bits_of_length, mbits_length. unfold wpos, wlen in *. lia.
Qed.

(** ** Reader *)
Definition rpos (s : rst) : nat := 32 * r_ptr s + (32 - r_bits s).
Definition rok (mem : list Z) (s : rst) : Prop :=
  (1 <= r_bits s <= 32)%nat /\
  exists t, r_word s = t * 2 ^ Z.of_nat (32 - r_bits s) /\ 0 <= t < 2 ^ Z.of_nat (r_bits s) /\
            bits_of (r_bits s) t = slice (rpos s) (r_bits s) (mbits 32 mem).

Lemma rok_word mem p w : rd mem p = Some w -> inr32 w -> rok mem (mkr p w 32).
Proof.
  intros H Hw. split; [cbn [r_bits]; lia|]. exists w. cbn [r_ptr r_word r_bits]. split.
  - change (32 - 32)%nat with 0%nat. simpl. lia.
  - split; [exact Hw|]. unfold rpos. cbn [r_ptr r_bits].
    change (32 - 32)%nat with 0%nat. rewrite Nat.add_0_r. unfold slice. symmetry. apply mbits_rd; auto.
Qed.

Lemma rok_word_shift orc mem p w k : rd mem p = Some w -> inr32 w -> (k < 32)%nat ->
  rok mem (mkr p (shl32 orc w k) (32 - k)).
Proof.
  intros H Hw Hk. split; [cbn [r_bits]; lia|]. exists (w mod 2 ^ Z.of_nat (32 - k)).
  cbn [r_ptr r_word r_bits]. unfold shl32.
  replace (k <? 32)%nat with true by (symmetry; apply Nat.ltb_lt; lia).
  split; [|split].
  - replace (32 - (32 - k))%nat with k by lia. rewrite Z.shiftl_mul_pow2 by lia.
    rewrite two32, (pow2_split k 32), (Z.mul_comm (2 ^ Z.of_nat k)) by lia.
    pose proof (pow2_pos k). pose proof (pow2_pos (32 - k)).
    rewrite Z.mul_mod_distr_r by lia. reflexivity.
  - apply Z.mod_pos_bound, pow2_pos.
  - rewrite bits_of_inr. unfold rpos; cbn [r_ptr r_bits].
    replace (32 - (32 - k))%nat with k by lia.
    pose proof (mbits_rd 32 _ _ _ H) as Hrd.
    change (slice (32 * p) 32 (mbits 32 mem) = bits_of 32 w) in Hrd.
    assert (EW : bits_of 32 w = bits_of k (Z.shiftr w (Z.of_nat (32 - k))) ++ bits_of (32 - k) w).
    { rewrite <- bits_of_app. f_equal. lia. }
    assert (ES : slice (32 * p) 32 (mbits 32 mem) = slice (32 * p) k (mbits 32 mem) ++ slice (32 * p + k) (32 - k) (mbits 32 mem)).
    { rewrite <- slice_app. f_equal. lia. }
    rewrite EW, ES in Hrd.
    pose proof (rd_lt _ _ _ H) as Hlt.
    assert (L : length (slice (32 * p) k (mbits 32 mem)) = length (bits_of k (Z.shiftr w (Z.of_nat (32 - k))))).
    { rewrite bits_of_length, slice_length; auto. rewrite mbits_length. lia. }
    apply app_inj_len in Hrd; [|exact L]. symmetry. apply Hrd.
Qed.

Lemma refill_spec mem p w bits : 
  Forall inr32 mem -> (32 * p + (32 - bits) < 32 * length mem)%nat -> (bits <= 32)%nat ->
  (bits <> 0%nat -> rok mem (mkr p w bits)) ->
  exists s', refill mem (mkr p w bits) = Some s' /\ rok mem s' /\ rpos s' = (32 * p + (32 - bits))%nat.
Proof.
  intros F Hlt Hb Hr. unfold refill. cbn [r_bits].
  destruct (Nat.eqb_spec bits 0).
  - subst. cbn [r_ptr]. destruct (rd_some mem (S p)) as [v Hv]; [lia|]. rewrite Hv. simpl.
    eexists. split; [reflexivity|]. split.
    + apply rok_word; auto. eapply Forall_forall; eauto; eapply nth_error_In; eauto.
    + unfold rpos. simpl. lia.
  - eexists. split; [reflexivity|]. split; auto.
Qed.

Lemma extract_spec orc mem b s :
  Forall inr32 mem -> rok mem s -> (1 <= b <= 32)%nat -> (rpos s + b < 32 * length mem)%nat ->
  exists t s', extract orc mem b s = Some (t, s') /\ rok mem s' /\ rpos s' = (rpos s + b)%nat /\
    0 <= t < 2 ^ Z.of_nat b /\ bits_of b t = slice (rpos s) b (mbits 32 mem).
Proof.
  destruct s as [p w bits]. intros F [Hbits (t & Hw & Ht & Hs)] Hb Hlen.
  unfold extract, rpos in *; cbn [r_ptr r_word r_bits] in *.
  assert (Hshr : shr32 orc w (32 - b) = w / 2 ^ Z.of_nat (32 - b)).
  { unfold shr32. replace (32 - b <? 32)%nat with true by (symmetry; apply Nat.ltb_lt; lia).
    apply Z.shiftr_div_pow2. lia. }
  destruct (Nat.leb_spec b bits) as [Hle|Hgt].
  - assert (Etok : w / 2 ^ Z.of_nat (32 - b) = t / 2 ^ Z.of_nat (bits - b)).
    { rewrite Hw. rewrite (pow2_split (32 - bits) (32 - b)) by lia.
      replace (32 - b - (32 - bits))%nat with (bits - b)%nat by lia.
      rewrite (Z.mul_comm t). pose proof (pow2_pos (32 - bits)). pose proof (pow2_pos (bits - b)).
      apply Z.div_mul_cancel_l; lia. }
    assert (HS : slice (32 * p + (32 - bits)) bits (mbits 32 mem)
                = bits_of b (Z.shiftr t (Z.of_nat (bits - b))) ++ bits_of (bits - b) t).
    { rewrite <- Hs. rewrite <- bits_of_app. f_equal. lia. }
    assert (ES : slice (32 * p + (32 - bits)) bits (mbits 32 mem)
      = slice (32 * p + (32 - bits)) b (mbits 32 mem) ++ slice (32 * p + (32 - bits) + b) (bits - b) (mbits 32 mem)).
    { rewrite <- slice_app. f_equal. lia. }
    rewrite ES in HS.
    assert (L : length (slice (32 * p + (32 - bits)) b (mbits 32 mem)) = b).
    { apply slice_length. rewrite mbits_length. lia. }
    apply app_inj_len in HS; [|rewrite L, bits_of_length; reflexivity]. destruct HS as [HS1 HS2].
    destruct (refill_spec mem p (shl32 orc w b) (bits - b)) as (s' & E' & O' & P'); auto; try lia.
    { intros Hnz. split; [cbn [r_bits]; lia|]. exists (t mod 2 ^ Z.of_nat (bits - b)).
      cbn [r_ptr r_word r_bits]. unfold shl32.
      replace (b <? 32)%nat with true by (symmetry; apply Nat.ltb_lt; lia).
      split; [|split].
      - rewrite Hw, Z.shiftl_mul_pow2 by lia. rewrite <- Z.mul_assoc, <- Z.pow_add_r by lia.
        replace (Z.of_nat (32 - bits) + Z.of_nat b) with (Z.of_nat (32 - (bits - b))) by lia.
        rewrite two32, (pow2_split (32 - (bits - b)) 32) by lia.
        replace (32 - (32 - (bits - b)))%nat with (bits - b)%nat by lia.
        rewrite (Z.mul_comm (2 ^ Z.of_nat (32 - (bits - b)))).
        pose proof (pow2_pos (bits - b)). pose proof (pow2_pos (32 - (bits - b))).
        rewrite Z.mul_mod_distr_r by lia. reflexivity.
      - apply Z.mod_pos_bound, pow2_pos.
      - rewrite bits_of_inr. unfold rpos; cbn [r_ptr r_bits].
        replace (32 * p + (32 - (bits - b)))%nat with (32 * p + (32 - bits) + b)%nat by lia.
        symmetry. exact HS2. }
    rewrite E'. cbn [bind]. do 2 eexists. split; [reflexivity|]. split; auto.
    split; [unfold rpos in P'; lia|]. rewrite Hshr, Etok. split.
    + pose proof (pow2_pos (bits - b)). split; [apply Z.div_pos; lia|].
      apply Z.div_lt_upper_bound; [lia|]. rewrite <- Z.pow_add_r by lia.
      replace (Z.of_nat (bits - b) + Z.of_nat b) with (Z.of_nat bits) by lia. lia.
    + rewrite HS1, Z.shiftr_div_pow2 by lia. reflexivity.
  - set (k := (b - bits)%nat).
    assert (Etok : w / 2 ^ Z.of_nat (32 - b) = t * 2 ^ Z.of_nat k).
    { rewrite Hw. rewrite (pow2_split (32 - b) (32 - bits)) by lia.
      replace (32 - bits - (32 - b))%nat with k by lia.
      rewrite Z.mul_assoc, (Z.mul_comm t), <- Z.mul_assoc. rewrite Z.mul_comm.
      apply Z.div_mul. pose proof (pow2_pos (32 - b)). lia. }
    destruct (rd_some mem (S p)) as [v Hv]; [lia|]. rewrite Hv. cbn [bind].
    assert (Hvr : inr32 v) by (eapply Forall_forall; eauto; eapply nth_error_In; eauto).
    destruct (refill_spec mem (S p) (shl32 orc v k) (32 - k)) as (s' & E' & O' & P'); auto; try lia.
    { intros _. apply rok_word_shift; auto. lia. }
    rewrite E'. cbn [bind]. do 2 eexists. split; [reflexivity|]. split; auto.
    split; [unfold rpos in P'; lia|].
    rewrite Hshr, Etok.
    assert (Hshr2 : shr32 orc v (32 - k) = v / 2 ^ Z.of_nat (32 - k)).
    { unfold shr32. replace (32 - k <? 32)%nat with true by (symmetry; apply Nat.ltb_lt; lia).
      apply Z.shiftr_div_pow2. lia. }
    assert (R2 : 0 <= v / 2 ^ Z.of_nat (32 - k) < 2 ^ Z.of_nat k).
    { pose proof (pow2_pos (32 - k)). unfold inr32 in Hvr. split; [apply Z.div_pos; lia|].
      apply Z.div_lt_upper_bound; [lia|]. rewrite <- Z.pow_add_r by lia.
      replace (Z.of_nat (32 - k) + Z.of_nat k) with 32 by lia. lia. }
    rewrite Hshr2, lor_shiftl_add by lia. split.
    + replace (Z.of_nat b) with (Z.of_nat bits + Z.of_nat k) by lia. rewrite Z.pow_add_r by lia. nia.
    + replace b with (bits + k)%nat by lia. rewrite bits_of_concat by lia.
      rewrite slice_app. rewrite Hs. f_equal.
      replace (32 * p + (32 - bits) + bits)%nat with (32 * S p)%nat by lia.
      pose proof (mbits_rd 32 _ _ _ Hv) as Hrd.
      change (slice (32 * S p) 32 (mbits 32 mem) = bits_of 32 v) in Hrd.
      assert (EW : bits_of 32 v = bits_of k (Z.shiftr v (Z.of_nat (32 - k))) ++ bits_of (32 - k) v).
      { rewrite <- bits_of_app. f_equal. lia. }
      assert (ES : slice (32 * S p) 32 (mbits 32 mem) = slice (32 * S p) k (mbits 32 mem) ++ slice (32 * S p + k) (32 - k) (mbits 32 mem)).
      { rewrite <- slice_app. f_equal. lia. }
      rewrite EW, ES in Hrd.
      assert (L : length (slice (32 * S p) k (mbits 32 mem)) = k).
      { apply slice_length. rewrite mbits_length. pose proof (rd_lt _ _ _ Hv). lia. }
      apply app_inj_len in Hrd; [|rewrite L, bits_of_length; reflexivity].
      destruct Hrd as [X _]. rewrite X. rewrite Z.shiftr_div_pow2 by lia. reflexivity.
Qed.

Lemma discard_spec orc mem d s :
  Forall inr32 mem -> rok mem s -> (1 <= d < 32)%nat -> (rpos s + d < 32 * length mem)%nat ->
  exists s', discard orc mem d s = Some s' /\ rok mem s' /\ rpos s' = (rpos s + d)%nat.
Proof.
  intros F Hr Hd Hlen. pose proof Hr as Hr0. destruct s as [p w bits]. destruct Hr as [Hbits (t & Hw & Ht & Hs)].
  unfold discard. cbn [r_ptr r_word r_bits] in *.
  destruct (Nat.ltb_spec d bits).
  - destruct (extract_spec orc mem d (mkr p w bits)) as (t' & s' & E & O & P & _); auto; [lia|].
    exists s'. split; [|auto]. unfold extract in E. cbn [r_ptr r_word r_bits] in E.
    replace (d <=? bits)%nat with true in E by (symmetry; apply Nat.leb_le; lia).
    destruct (refill mem _); simpl in E; [|discriminate]. congruence.
  - unfold rpos in *. cbn [r_ptr r_word r_bits] in *.
    destruct (rd_some mem (S p)) as [v Hv]; [lia|]. rewrite Hv. cbn [bind].
    assert (Hvr : inr32 v) by (eapply Forall_forall; eauto; eapply nth_error_In; eauto).
    destruct (refill_spec mem (S p) (shl32 orc v (d - bits)) (32 - (d - bits))) as (s' & E' & O' & P'); auto; try lia.
    { intros _. apply rok_word_shift; auto. lia. }
    exists s'. split; auto. split; auto. unfold rpos in P'. lia.
Qed.

Lemma rinit_spec orc mem off :
  Forall inr32 mem -> (off < 32 * length mem)%nat ->
  exists s, rinit orc mem off = Some s /\ rok mem s /\ rpos s = off.
Proof.
  intros F Hoff. unfold rinit.
  pose proof (Nat.div_mod off 32 ltac:(lia)) as DM. pose proof (Nat.mod_upper_bound off 32 ltac:(lia)) as UB.
  destruct (rd_some mem (off / 32)) as [w Hw]; [lia|]. rewrite Hw. cbn [bind].
  eexists. split; [reflexivity|]. set (r := (off mod 32)%nat) in *.
  replace (32 - (32 - r))%nat with r by lia. split.
  - apply rok_word_shift; [auto| |lia]. eapply Forall_forall; eauto; eapply nth_error_In; eauto.
  - unfold rpos. cbn [r_ptr r_bits]. lia.
Qed.

(** A whole list of widths. *)
Lemma extracts_spec orc mem l s :
  Forall inr32 mem -> rok mem s -> Forall (fun p => (1 <= snd p <= 32)%nat /\ 0 <= fst p < 2 ^ Z.of_nat (snd p)) l ->
  (rpos s + toklen l < 32 * length mem)%nat ->
  slice (rpos s) (toklen l) (mbits 32 mem) = tokbits l ->
  exists s', extracts orc mem (map snd l) s = Some (map fst l, s') /\ rok mem s' /\ rpos s' = (rpos s + toklen l)%nat.
Proof.
  revert s. induction l as [|[t b] l IH]; intros s F Hr HF Hlen Hs.
  - exists s. simpl. repeat split; auto; try apply Hr; lia.
  - inversion HF as [|? ? [Hb Ht] HF']; subst. cbn [fst snd] in *.
    simpl toklen in *. unfold tokbits in Hs. simpl in Hs. fold (tokbits l) in Hs.
    destruct (extract_spec orc mem b s) as (t' & s1 & E1 & O1 & P1 & R1 & B1); auto; [lia|].
    rewrite slice_app in Hs.
    assert (L : length (slice (rpos s) b (mbits 32 mem)) = b).
    { apply slice_length. rewrite mbits_length. lia. }
    apply app_inj_len in Hs; [|rewrite L, bits_of_length; reflexivity]. destruct Hs as [X Y].
    assert (t' = t) by (apply (bits_of_inj b); auto; congruence). subst t'.
    destruct (IH s1) as (s2 & E2 & O2 & P2); auto.
    { lia. }
    { rewrite P1. exact Y. }
    exists s2. cbn [map extracts fst snd]. rewrite E1. simpl. rewrite E2. simpl. split; auto. split; auto. lia.
Qed.
