(** The key functions of BURP files do what the generic ones do in files whose
    key descriptors are those of mrfopn.F90. *)
From Coq Require Import ZArith List Lia Bool.
From Verif Require Import Bits Handles WaFile Xdf XdfLib XdfInv XdfKeys XdfKeysFacts Fst Burp.
Import ListNotations.
Open Scope Z_scope.
Open Scope opt_scope.

Lemma getf_bit w s n i : 0 <= s -> 0 <= n -> 0 <= i -> Z.testbit (getf w s n) i = (i <? n) && Z.testbit w (i + s).
Proof.
  intros S N I. unfold getf. destruct (Z.ltb_spec i n) as [L|G]; cbn [andb].
  - rewrite Z.mod_pow2_bits_low by exact L. rewrite Z.div_pow2_bits by lia. reflexivity.
  - apply Z.mod_pow2_bits_high. lia.
Qed.
Lemma putf_bit v s n i : 0 <= s -> 0 <= n -> 0 <= i -> Z.testbit (putf v s n) i = (s <=? i) && (i <? s + n) && Z.testbit v (i - s).
Proof.
  intros S N I. unfold putf. rewrite Z.mul_pow2_bits by lia. destruct (Z.leb_spec s i) as [L|G]; cbn [andb].
  - destruct (Z.ltb_spec i (s + n)); cbn [andb]; [apply Z.mod_pow2_bits_low; lia|apply Z.mod_pow2_bits_high; lia].
  - apply Z.testbit_neg_r. lia.
Qed.
(** Sum of numbers without common bits. *)
Lemma add_lor a b : Z.land a b = 0 -> a + b = Z.lor a b.
Proof. intros H. rewrite Z.add_nocarry_lxor by exact H. apply Z.lxor_lor, H. Qed.
Lemma setbits_lor w s n v : 0 <= s -> 0 <= n -> setbits w s n v = Z.lor (Z.ldiff w (putf (-1) s n)) (putf v s n).
Proof.
  intros S N. unfold setbits.
  assert (A : w - putf (getf w s n) s n = Z.ldiff w (putf (-1) s n)).
  { assert (E : w = Z.ldiff w (putf (-1) s n) + putf (getf w s n) s n).
    { rewrite add_lor.
      - apply Z.bits_inj'. intros i I. rewrite Z.lor_spec, Z.ldiff_spec, !putf_bit by lia. destruct (Z.leb_spec s i) as [L|G]; cbn [andb negb].
        + destruct (Z.ltb_spec i (s + n)); cbn [andb negb].
          * rewrite Z.bits_m1 by lia. rewrite getf_bit by lia. rewrite (proj2 (Z.ltb_lt _ _)) by lia. cbn [negb andb]. rewrite andb_false_r. cbn [orb]. f_equal. lia.
          * rewrite andb_true_r, orb_false_r. reflexivity.
        + rewrite andb_true_r, orb_false_r. reflexivity.
      - apply Z.bits_inj'. intros i I. rewrite Z.land_spec, Z.ldiff_spec, !putf_bit, Z.testbit_0_l by lia. destruct (Z.leb_spec s i), (Z.ltb_spec i (s + n)); cbn [andb negb]; rewrite ?andb_false_r; try reflexivity.
        rewrite Z.bits_m1 by lia. cbn [negb]. rewrite andb_false_r. reflexivity. }
    lia. }
  rewrite A. apply add_lor. apply Z.bits_inj'. intros i I. rewrite Z.land_spec, Z.ldiff_spec, !putf_bit, Z.testbit_0_l by lia. destruct (Z.leb_spec s i), (Z.ltb_spec i (s + n)); cbn [andb negb]; rewrite ?andb_false_r; try reflexivity.
  rewrite Z.bits_m1 by lia. cbn [negb]. rewrite andb_false_r. reflexivity.
Qed.
Lemma setbits_bit w s n v i : 0 <= s -> 0 <= n -> 0 <= i -> Z.testbit (setbits w s n v) i = if (s <=? i) && (i <? s + n) then Z.testbit v (i - s) else Z.testbit w i.
Proof.
  intros S N I. rewrite setbits_lor by lia. rewrite Z.lor_spec, Z.ldiff_spec, !putf_bit by lia.
  destruct (Z.leb_spec s i) as [L|]; cbn [andb]; [|cbn [negb]; rewrite andb_true_r, orb_false_r; reflexivity].
  destruct (Z.ltb_spec i (s + n)); cbn [andb negb]; [|rewrite andb_true_r, orb_false_r; reflexivity].
  rewrite Z.bits_m1 by lia. cbn [negb]. rewrite andb_false_r. reflexivity.
Qed.
Lemma setbits_word w s n v : word_ok w -> 0 <= s -> 0 <= n -> s + n <= 32 -> word_ok (setbits w s n v).
Proof.
  intros W S N B. apply word_of_bits.
  - rewrite setbits_lor by lia. apply Z.lor_nonneg. split; [apply Z.ldiff_nonneg; left; apply W|]. unfold putf. pose proof (Z.mod_pos_bound v (2 ^ n) ltac:(apply Z.pow_pos_nonneg; lia)). pose proof (Z.pow_pos_nonneg 2 s ltac:(lia) S). nia.
  - intros b Hb. rewrite setbits_bit by lia. rewrite (proj2 (Z.ltb_ge b (s + n))) by lia. rewrite andb_false_r. destruct W as [W0 W1]. destruct (Z.eq_dec w 0) as [->|NZ]; [apply Z.testbit_0_l|].
    apply Z.bits_above_log2; [lia|]. apply Z.lt_le_trans with 32; [|lia]. apply Z.log2_lt_pow2; lia.
Qed.
Lemma getf_setbits w s n v : 0 <= s -> 0 <= n -> getf (setbits w s n v) s n = v mod 2 ^ n.
Proof.
  intros S N. apply Z.bits_inj'. intros i I. rewrite getf_bit by lia. destruct (Z.ltb_spec i n) as [L|G]; cbn [andb].
  - rewrite setbits_bit by lia. rewrite (proj2 (Z.leb_le _ _)), (proj2 (Z.ltb_lt _ _)) by lia. cbn [andb]. rewrite Z.mod_pow2_bits_low by lia. f_equal. lia.
  - rewrite Z.mod_pow2_bits_high by lia. reflexivity.
Qed.
Lemma getf_setbits_other w s n v s' n' : 0 <= s -> 0 <= n -> 0 <= s' -> 0 <= n' -> s + n <= s' \/ s' + n' <= s -> getf (setbits w s n v) s' n' = getf w s' n'.
Proof.
  intros S N S' N' D. apply Z.bits_inj'. intros i I. rewrite !getf_bit by lia. destruct (Z.ltb_spec i n') as [L|G]; cbn [andb]; [|reflexivity].
  rewrite setbits_bit by lia. destruct (Z.leb_spec s (i + s')), (Z.ltb_spec (i + s') (s + n)); cbn [andb]; try reflexivity. lia.
Qed.

(** ** The generic operations *)
Lemma get_field_getf f w : fits f -> get_field f w = getf w (fd_s f) (fd_n f).
Proof. intros F. pose proof F as (A & B & C). apply Z.bits_inj'. intros i I. rewrite get_field_bit, getf_bit by (assumption || lia). reflexivity. Qed.
Lemma upcase_byte k i : 0 <= i < 8 -> Z.testbit (upcase k) i = Z.testbit (upper_case k) i.
Proof.
  intros I. unfold upcase, upper_case. rewrite !Z.ldiff_spec, !Z.shiftr_spec, !Z.land_spec by lia. do 3 f_equal.
  assert (C : i = 0 \/ i = 1 \/ i = 2 \/ i = 3 \/ i = 4 \/ i = 5 \/ i = 6 \/ i = 7) by lia. destruct C as [->|[->|[->|[->|[->|[->|[->| ->]]]]]]]; reflexivity.
Qed.
Lemma set_field_setbits f w k : fits f -> (fd_up f = true -> fd_n f = 8) ->
  set_field f w k = setbits w (fd_s f) (fd_n f) (if fd_up f then upper_case k else k).
Proof.
  intros F U. pose proof F as (A & B & C). apply Z.bits_inj'. intros i I. rewrite setbits_bit by lia.
  destruct (Z.lt_ge_cases i 32) as [L|G].
  - rewrite set_field_bit by (assumption || lia). destruct (Z.leb_spec (fd_s f) i) as [D|]; cbn [andb]; [|reflexivity]. destruct (Z.ltb_spec i (fd_s f + fd_n f)) as [E|]; [|reflexivity].
    unfold key_of. destruct (fd_up f); [|reflexivity]. apply upcase_byte. specialize (U eq_refl). lia.
  - rewrite (proj2 (Z.ltb_ge i (fd_s f + fd_n f))) by lia. rewrite andb_false_r. unfold set_field. rewrite Z.lor_spec, Z.ldiff_spec, !w32_testbit. rewrite (proj2 (Z.ltb_ge i 32)) by lia. cbn [andb negb]. rewrite andb_true_r, orb_false_r. reflexivity.
Qed.
Definition byte_ups (fs : list field) : Prop := Forall (fun f => fits f /\ (fd_up f = true -> fd_n f = 8)) fs.

Lemma read_bits_eq fs src : byte_ups fs -> read_bits fs src = read_keys fs src.
Proof.
  induction 1 as [|f fs [F _] _ IH]; [reflexivity|]. unfold read_bits in *. cbn [fold_right read_keys]. destruct (nth_error src (fd_w f)) as [w|]; [|reflexivity]. cbn [bind]. rewrite IH.
  destruct (read_keys fs src); [|reflexivity]. cbn [bind]. rewrite get_field_getf by exact F. reflexivity.
Qed.
Lemma info_put_eq fs : byte_ups fs -> Forall (fun f => fd_up f = false) fs -> forall keys buf, info_put fs keys buf = each_key set_field fs keys buf.
Proof.
  induction 1 as [|f fs [F U] _ IH]; intros NU keys buf; [reflexivity|]. inversion NU as [|? ? N1 N2]; subst. destruct keys as [|k keys]; [reflexivity|]. cbn [info_put each_key].
  destruct (k =? 2 ^ 32 - 1); [apply IH; exact N2|]. destruct (Nat.ltb_spec (fd_w f) (length buf)) as [L|G].
  - rewrite (nth_error_nth' buf 0) by exact L. cbn [bind]. rewrite IH by exact N2. rewrite set_field_setbits by assumption. rewrite N1. reflexivity.
  - rewrite (proj2 (nth_error_None _ _)) by exact G. reflexivity.
Qed.

(** The mask: fields not asked for, cleared. *)
Fixpoint burp_mask (fs : list field) (keys mask : list Z) : list Z :=
  match fs, keys with
  | f :: fs', k :: keys' => burp_mask fs' keys' (if k =? 2 ^ 32 - 1 then upd mask (fd_w f) (setbits (nth (fd_w f) mask 0) (fd_s f) (fd_n f) 0) else mask)
  | _, _ => mask
  end.
Lemma burp_put_eq fs : byte_ups fs -> forall keys buf mask, Forall (fun f => (fd_w f < length mask)%nat) fs ->
  burp_put fs keys buf mask = (b <- each_key set_field fs keys buf ;; Some (b, burp_mask fs keys mask)).
Proof.
  induction 1 as [|f fs [F U] _ IH]; intros keys buf mask W; [destruct keys; reflexivity|]. inversion W as [|? ? W1 W2]; subst. destruct keys as [|k keys]; [reflexivity|]. cbn [burp_put each_key burp_mask].
  destruct (k =? 2 ^ 32 - 1).
  - rewrite (nth_error_nth' mask 0) by exact W1. cbn [bind]. apply IH. eapply Forall_impl; [|exact W2]. cbn beta. intros. rewrite upd_length. assumption.
  - destruct (Nat.ltb_spec (fd_w f) (length buf)) as [L|G].
    + rewrite (nth_error_nth' buf 0) by exact L. cbn [bind]. rewrite IH by exact W2. rewrite set_field_setbits by assumption. reflexivity.
    + rewrite (proj2 (nth_error_None _ _)) by exact G. reflexivity.
Qed.
Lemma burp_mask_length fs : forall keys mask, length (burp_mask fs keys mask) = length mask.
Proof. induction fs as [|f fs IH]; intros [|k keys] mask; try reflexivity. cbn [burp_mask]. rewrite IH. destruct (_ =? _); [apply upd_length|reflexivity]. Qed.
(** Bit [b] of word [j] belongs to a field asked for / not asked for. *)
Definition hit (given : bool) (fs : list field) (keys : list Z) (j : nat) (b : Z) : bool :=
  existsb (fun fk => (fd_w (fst fk) =? j)%nat && ((fd_s (fst fk) <=? b) && (b <? fd_s (fst fk) + fd_n (fst fk))) && Bool.eqb (snd fk =? 2 ^ 32 - 1) (negb given)) (combine fs keys).
Lemma burp_mask_bit fs : Forall fits fs -> forall keys mask j b, 0 <= b -> Forall (fun f => (fd_w f < length mask)%nat) fs ->
  Z.testbit (nth j (burp_mask fs keys mask) 0) b = negb (hit false fs keys j b) && Z.testbit (nth j mask 0) b.
Proof.
  induction 1 as [|f fs F _ IH]; intros keys mask j b B W; [reflexivity|]. destruct keys as [|k keys]; [reflexivity|]. inversion W as [|? ? W1 W2]; subst. pose proof F as (F1 & F2 & F3). cbn [burp_mask]. unfold hit. cbn [combine existsb fst snd negb].
  fold (hit false fs keys j b). destruct (k =? 2 ^ 32 - 1); cbn [Bool.eqb].
  - rewrite IH; [|exact B|]. 2: { eapply Forall_impl; [|exact W2]. cbn beta. intros. rewrite upd_length. assumption. }
    rewrite upd_nthd. rewrite (proj2 (Nat.ltb_lt _ _) W1). rewrite andb_true_r. destruct (Nat.eqb_spec j (fd_w f)) as [->|N].
    + rewrite Nat.eqb_refl. cbn [andb]. rewrite setbits_bit by lia. destruct ((fd_s f <=? b) && (b <? fd_s f + fd_n f)); cbn [andb orb negb]; [rewrite Z.testbit_0_l, andb_false_r; reflexivity|reflexivity].
    + rewrite (proj2 (Nat.eqb_neq (fd_w f) j)) by congruence. cbn [andb orb]. reflexivity.
  - rewrite IH by assumption. rewrite andb_false_r. reflexivity.
Qed.
Lemma gen_mask_bit fs : Forall fits fs -> forall keys m0 m, each_key (fun f w _ => set_mask f w) fs keys m0 = Some m -> forall j b, 0 <= b < 32 ->
  Z.testbit (nth j m 0) b = hit true fs keys j b || Z.testbit (nth j m0 0) b.
Proof.
  induction 1 as [|f fs F _ IH]; intros keys m0 m E j b B; cbn [each_key] in E; [injection E as <-; reflexivity|]. destruct keys as [|k keys]; [discriminate|]. unfold hit. cbn [combine existsb fst snd negb]. fold (hit true fs keys j b).
  destruct (k =? 2 ^ 32 - 1); cbn [Bool.eqb].
  - rewrite andb_false_r. cbn [orb]. apply IH; assumption.
  - destruct (Nat.ltb_spec (fd_w f) (length m0)) as [L|]; [|discriminate]. rewrite (IH _ _ _ E) by exact B. rewrite upd_nthd, (proj2 (Nat.ltb_lt _ _) L), !andb_true_r.
    destruct (Nat.eqb_spec j (fd_w f)) as [->|N].
    + rewrite Nat.eqb_refl. cbn [andb]. rewrite set_mask_bit by assumption. destruct ((fd_s f <=? b) && (b <? fd_s f + fd_n f)); cbn [orb]; [rewrite orb_true_r; reflexivity|reflexivity].
    + rewrite (proj2 (Nat.eqb_neq (fd_w f) j)) by congruence. cbn [andb orb]. reflexivity.
Qed.

Lemma burp_byte_ups : byte_ups burp_fields.
Proof. unfold byte_ups, burp_fields, fits. repeat constructor; cbn; lia. Qed.
Lemma info_byte_ups : byte_ups burp_info.
Proof. unfold byte_ups, burp_info, fits. repeat constructor; cbn; try lia; discriminate. Qed.
Lemma byte_fits fs : byte_ups fs -> Forall fits fs.
Proof. intros H. eapply Forall_impl; [|exact H]. intros a X. apply X. Qed.

(** Exactly one field covers each bit of the six key words. *)
Lemma burp_tiling j b : 0 <= b < 32 -> length (filter (fun f => (fd_w f =? j)%nat && ((fd_s f <=? b) && (b <? fd_s f + fd_n f))) burp_fields) = if (j <? 6)%nat then 1%nat else 0%nat.
Proof.
  intros B. destruct (Nat.ltb_spec j 6) as [J|J].
  - assert (C : (j = 0 \/ j = 1 \/ j = 2 \/ j = 3 \/ j = 4 \/ j = 5)%nat) by lia.
    assert (D : 0 <= b < 6 \/ 6 <= b < 8 \/ 8 <= b < 12 \/ 12 <= b < 16 \/ 16 <= b < 24 \/ 24 <= b < 32) by lia.
    destruct C as [->|[->|[->|[->|[->| ->]]]]]; cbn [burp_fields filter fd_w fd_s fd_n Nat.eqb andb length];
    destruct D as [D|[D|[D|[D|[D|D]]]]]; repeat (match goal with |- context [?x <=? ?y] => destruct (Z.leb_spec x y) | |- context [?x <? ?y] => destruct (Z.ltb_spec x y) end; try lia; cbn [andb length]); lia.
  - destruct j as [|[|[|[|[|[|j]]]]]]; try lia. reflexivity.
Qed.
Lemma hit_tiling fs keys j b : (length fs <= length keys)%nat ->
  let n := length (filter (fun f => (fd_w f =? j)%nat && ((fd_s f <=? b) && (b <? fd_s f + fd_n f))) fs) in
  (n = 0%nat -> hit true fs keys j b = false /\ hit false fs keys j b = false) /\ (n = 1%nat -> hit true fs keys j b = negb (hit false fs keys j b)).
Proof.
  revert keys. induction fs as [|f fs IH]; intros [|k keys] L; cbn [length] in L; try lia; cbv zeta in *.
  - split; [intros _; split; reflexivity|discriminate].
  - split; [intros _; split; reflexivity|discriminate].
  - destruct (IH keys ltac:(lia)) as [I0 I1]. unfold hit. cbn [combine existsb fst snd filter]. fold (hit true fs keys j b). fold (hit false fs keys j b).
    destruct ((fd_w f =? j)%nat && ((fd_s f <=? b) && (b <? fd_s f + fd_n f))); cbn [andb orb length].
    + split; [discriminate|]. intros N. assert (N0 : length (filter (fun f => (fd_w f =? j)%nat && ((fd_s f <=? b) && (b <? fd_s f + fd_n f))) fs) = 0%nat) by lia. destruct (I0 N0) as [-> ->]. destruct (k =? 2 ^ 32 - 1); reflexivity.
    + split; [exact I0|exact I1].
Qed.

Lemma each_key_some put put' fs keys : forall m m', length m = length m' -> (exists x, each_key put fs keys m = Some x) -> exists x, each_key put' fs keys m' = Some x.
Proof.
  revert keys. induction fs as [|f fs IH]; intros keys m m' L [x X]; cbn [each_key] in *; [eauto|]. destruct keys as [|k keys]; [discriminate|]. destruct (k =? 2 ^ 32 - 1); [eapply IH; eauto|].
  rewrite <- L. destruct (_ <? _)%nat; [|discriminate]. eapply (IH keys (upd m (fd_w f) (put f (nth (fd_w f) m 0) k))); [rewrite !upd_length; exact L|eauto].
Qed.

Lemma nth_map_seq (g : nat -> Z) n j : (j < n)%nat -> nth j (map g (seq 0 n)) 0 = g j.
Proof. intros L. rewrite (nth_indep _ 0 (g 0%nat)) by (rewrite map_length, seq_length; exact L). rewrite map_nth. rewrite seq_nth by exact L. reflexivity. Qed.
Lemma nth_repeat_lt (x : Z) n j : (j < n)%nat -> nth j (repeat x n) 0 = x.
Proof. revert j. induction n as [|n IH]; intros [|j] L; try lia; [reflexivity|]. cbn [repeat nth]. apply IH. lia. Qed.
Lemma nth_skipn_d (l : list Z) a j : nth j (skipn a l) 0 = nth (a + j) l 0.
Proof. revert l. induction a as [|a IH]; intros [|x l]; try reflexivity; [destruct j; reflexivity|]. cbn [skipn Nat.add nth]. apply IH. Qed.
Lemma each_key_len put fs : forall keys m x, each_key put fs keys m = Some x -> (length fs <= length keys)%nat.
Proof.
  induction fs as [|f fs IH]; intros [|k keys] m x E; cbn [each_key length] in *; try lia; [discriminate|].
  destruct (k =? 2 ^ 32 - 1); [apply IH in E; lia|]. destruct (_ <? _)%nat; [|discriminate]. apply IH in E. lia.
Qed.
Lemma skipn_skipn_8 (l : list Z) : skipn 6 (skipn 2 l) = skipn 8 l.
Proof. destruct l as [|a [|b l]]; reflexivity. Qed.

Theorem burp_generic : as_generic burp_kp burp_fields.
Proof.
  intros h PF. split.
  2: { intros src. cbn [burp_kp kp_read]. unfold burp_read, gen_read. rewrite PF. cbn [burp_fields length Nat.leb MAX_PRIMARY_LNG]. apply read_bits_eq, burp_byte_ups. }
  intros dst keys mask msk. cbn [burp_kp kp_write]. unfold burp_write, gen_write. rewrite PF.
  destruct (Nat.ltb_spec (length dst) 2) as [|LD]; [reflexivity|]. cbn [orb].
  destruct (Nat.ltb_spec (length mask) 8) as [LM|LM].
  - destruct (Nat.ltb_spec (length mask) 2) as [|L2]; [reflexivity|].
    assert (C0 : clear_mask burp_fields (skipn 2 mask) = None).
    { unfold clear_mask, burp_fields. cbn [last fd_w]. rewrite skipn_length. rewrite (proj2 (Nat.ltb_ge 5 _)) by lia. reflexivity. }
    rewrite C0. reflexivity.
  - rewrite (proj2 (Nat.ltb_ge _ 2)) by lia.
    assert (C0 : exists m0, clear_mask burp_fields (skipn 2 mask) = Some m0 /\ length m0 = (length mask - 2)%nat /\ forall j, nth j m0 0 = if (j <? 6)%nat then 0 else nth j (skipn 2 mask) 0).
    { unfold clear_mask, burp_fields. cbn [last fd_w]. rewrite skipn_length. rewrite (proj2 (Nat.ltb_lt 5 _)) by lia. cbn [orb]. eexists. split; [reflexivity|]. split; [rewrite map_length, seq_length; reflexivity|].
      intros j. destruct (Nat.lt_ge_cases j (length mask - 2)) as [J|J].
      - rewrite nth_map_seq by exact J. cbn [Nat.leb andb]. destruct (Nat.leb_spec j 5), (Nat.ltb_spec j 6); try lia; reflexivity.
      - rewrite nth_overflow by (rewrite map_length, seq_length; exact J). rewrite (proj2 (Nat.ltb_ge j 6)) by lia. rewrite nth_overflow by (rewrite skipn_length; exact J). reflexivity. }
    destruct C0 as (m0 & C0 & L0 & N0). rewrite C0. cbn [bind].
    assert (LM0 : length (repeat (2 ^ 32 - 1) 6 ++ skipn 8 mask) = (length mask - 2)%nat) by (rewrite app_length, repeat_length, skipn_length; lia).
    assert (FW : forall l : list Z, (6 <= length l)%nat -> Forall (fun f => (fd_w f < length l)%nat) burp_fields). { intros l L. unfold burp_fields. repeat constructor; cbn [fd_w]; lia. }
    rewrite burp_put_eq; [|apply burp_byte_ups|apply FW; rewrite LM0; lia].
    destruct (each_key set_field burp_fields keys (skipn 2 dst)) as [b|] eqn:B; [|reflexivity]. cbn [bind fst snd].
    pose proof (each_key_len _ _ _ _ _ B) as LK.
    destruct (each_key_total (fun f w _ => set_mask f w) burp_fields keys m0 LK) as (m1 & M1). { apply FW. lia. }
    rewrite M1. cbn [bind]. do 2 f_equal. cbn [app]. do 2 f_equal.
    pose proof (each_key_length _ _ _ _ _ M1) as LM1.
    apply (nth_ext _ _ 0 0); [rewrite burp_mask_length; lia|]. intros j _. apply Z.bits_inj'. intros c C.
    pose proof (byte_fits _ burp_byte_ups) as BF.
    rewrite burp_mask_bit; [|exact BF|exact C|apply FW; lia].
    destruct (Z.lt_ge_cases c 32) as [C32|C32].
    + rewrite (gen_mask_bit _ BF _ _ _ M1 j c) by lia. rewrite N0. destruct (hit_tiling burp_fields keys j c LK) as [T0 T1]. rewrite burp_tiling in T0, T1 by lia.
      destruct (Nat.ltb_spec j 6) as [J|J].
      * rewrite T1 by reflexivity. rewrite Z.testbit_0_l, orb_false_r. rewrite app_nth1 by (rewrite repeat_length; exact J). rewrite nth_repeat_lt by exact J.
        rewrite mask_testbit by lia. rewrite (proj2 (Z.leb_le 0 c)), (proj2 (Z.ltb_lt c 32)) by lia. apply andb_true_r.
      * destruct (T0 eq_refl) as [-> ->]. cbn [negb andb orb]. rewrite app_nth2 by (rewrite repeat_length; exact J). rewrite repeat_length. rewrite <- skipn_skipn_8, nth_skipn_d. do 2 f_equal. lia.
    + (* above bit 31 *)
      assert (H0 : hit false burp_fields keys j c = false).
      { unfold hit. apply not_true_is_false. intros H. apply existsb_exists in H. destruct H as ([f k] & I & H). apply in_combine_l in I. rewrite Forall_forall in BF. destruct (BF f I) as (_ & _ & F3). cbn [fst] in H.
        apply andb_prop in H. destruct H as [H _]. apply andb_prop in H. destruct H as [_ H]. apply andb_prop in H. destruct H as [_ H]. apply Z.ltb_lt in H. lia. }
      rewrite H0. cbn [negb andb].
      assert (HM : Z.testbit (nth j m1 0) c = Z.testbit (nth j m0 0) c).
      { clear - M1 C32 BF. revert keys m0 m1 M1. generalize burp_fields BF. clear BF. induction 1 as [|f fs F _ IH]; intros keys m0 m1 E; cbn [each_key] in E; [congruence|]. destruct keys as [|k keys]; [discriminate|].
        destruct (k =? 2 ^ 32 - 1); [eapply IH; exact E|]. destruct (Nat.ltb_spec (fd_w f) (length m0)) as [L|]; [|discriminate]. rewrite (IH _ _ _ E), upd_nthd, (proj2 (Nat.ltb_lt _ _) L). rewrite andb_true_r.
        destruct (Nat.eqb_spec j (fd_w f)) as [->|]; [|reflexivity]. unfold set_mask. rewrite Z.lor_spec, Z.ldiff_spec, !w32_testbit. rewrite (proj2 (Z.ltb_ge c 32)) by lia. cbn [andb negb]. rewrite andb_true_r, orb_false_r. reflexivity. }
      rewrite HM, N0. destruct (Nat.ltb_spec j 6) as [J|J].
      * rewrite app_nth1 by (rewrite repeat_length; exact J). rewrite nth_repeat_lt by exact J. rewrite mask_testbit by lia. rewrite (proj2 (Z.ltb_ge c 32)) by lia. rewrite andb_false_r, Z.testbit_0_l. reflexivity.
      * rewrite app_nth2 by (rewrite repeat_length; exact J). rewrite repeat_length. rewrite <- skipn_skipn_8, nth_skipn_d. do 2 f_equal. lia.
Qed.

(** The info keys. *)
Lemma burp_info_generic h keys buf : info_fields h = burp_info -> info_put burp_info keys buf = info_write h buf keys.
Proof. intros E. unfold info_write. rewrite E. apply info_put_eq; [apply info_byte_ups|]. unfold burp_info. repeat constructor. Qed.
