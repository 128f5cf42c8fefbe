(** Facts about generic keys. *)
From Coq Require Import ZArith List Lia Bool.
From Verif Require Import Bits Handles WaFile Xdf XdfLib XdfInv XdfKeys HandlesFacts.
Import ListNotations.
Open Scope Z_scope.
Open Scope opt_scope.

(** A field within its word. *)
Definition fits (f : field) : Prop := 0 <= fd_s f /\ 1 <= fd_n f /\ fd_s f + fd_n f <= 32.
Definition apart_fields (f g : field) : Prop :=
  fd_w f <> fd_w g \/ fd_s f + fd_n f <= fd_s g \/ fd_s g + fd_n g <= fd_s f.
(** Bit [b] of word [j] belongs to the field. *)
Definition covers (f : field) (j : nat) (b : Z) : Prop := fd_w f = j /\ fd_s f <= b < fd_s f + fd_n f.

Lemma word_of_bits x : (0 <= x) -> (forall b, 32 <= b -> Z.testbit x b = false) -> word_ok x.
Proof.
  intros P H. split; [exact P|]. destruct (Z.eq_dec x 0) as [->|N]; [reflexivity|]. apply Z.log2_lt_pow2; [lia|].
  destruct (Z.lt_ge_cases (Z.log2 x) 32) as [|GE]; [assumption|]. specialize (H _ GE). rewrite Z.bit_log2 in H by lia. discriminate.
Qed.
Lemma w32_testbit x b : Z.testbit (w32 x) b = (b <? 32) && Z.testbit x b.
Proof.
  unfold w32. destruct (Z.ltb_spec b 32) as [L|G]; cbn [andb].
  - apply Z.mod_pow2_bits_low. exact L.
  - apply Z.mod_pow2_bits_high. lia.
Qed.
Lemma w32_nonneg x : 0 <= w32 x.
Proof. apply (proj1 (w32_range x)). Qed.

Lemma mask_testbit n b : 0 <= n -> Z.testbit (2 ^ n - 1) b = (0 <=? b) && (b <? n).
Proof.
  intros N. replace (2 ^ n - 1) with (Z.ones n) by (rewrite Z.ones_equiv; lia). destruct (Z.leb_spec 0 b) as [P|P]; cbn [andb].
  - destruct (Z.ltb_spec b n); [apply Z.ones_spec_low; lia|apply Z.ones_spec_high; lia].
  - apply Z.testbit_neg_r. exact P.
Qed.

Lemma set_field_bit f w key b : fits f -> 0 <= b < 32 ->
  Z.testbit (set_field f w key) b = if (fd_s f <=? b) && (b <? fd_s f + fd_n f) then Z.testbit (key_of f key) (b - fd_s f) else Z.testbit w b.
Proof.
  intros (S0 & N1 & S32) B. unfold set_field, fd_mask. rewrite Z.lor_spec, Z.ldiff_spec, !w32_testbit, !Z.shiftl_spec, Z.land_spec, mask_testbit by lia.
  rewrite (proj2 (Z.ltb_lt b 32)) by lia. cbn [andb].
  destruct (Z.leb_spec (fd_s f) b); cbn [andb].
  - rewrite (proj2 (Z.leb_le 0 (b - fd_s f))) by lia. cbn [andb]. destruct (Z.ltb_spec b (fd_s f + fd_n f)).
    + rewrite (proj2 (Z.ltb_lt (b - fd_s f) (fd_n f))) by lia. cbn [negb]. rewrite !andb_false_r, andb_true_r. reflexivity.
    + rewrite (proj2 (Z.ltb_ge (b - fd_s f) (fd_n f))) by lia. cbn [negb]. rewrite andb_true_r, andb_false_r, orb_false_r. reflexivity.
  - rewrite (proj2 (Z.leb_gt 0 (b - fd_s f))) by lia. cbn [andb negb]. rewrite andb_true_r, andb_false_r, orb_false_r. reflexivity.
Qed.

Lemma set_field_word f w key : word_ok w -> word_ok (set_field f w key).
Proof.
  intros W. apply word_of_bits.
  - unfold set_field. apply Z.lor_nonneg. split; [apply Z.ldiff_nonneg; left; apply W|apply w32_nonneg].
  - intros b B. unfold set_field. rewrite Z.lor_spec, Z.ldiff_spec, !w32_testbit. rewrite (proj2 (Z.ltb_ge b 32)) by lia. cbn [andb negb]. rewrite andb_true_r, orb_false_r.
    apply (Z.bits_above_log2 w b); [apply W|]. destruct (Z.eq_dec w 0) as [->|]; [cbn; lia|]. apply Z.log2_lt_pow2; [destruct W; lia|]. destruct W. eapply Z.lt_le_trans; [eassumption|]. apply Z.pow_le_mono_r; lia.
Qed.

Lemma set_mask_bit f w b : fits f -> 0 <= b < 32 ->
  Z.testbit (set_mask f w) b = ((fd_s f <=? b) && (b <? fd_s f + fd_n f)) || Z.testbit w b.
Proof.
  intros (S0 & N1 & S32) B. unfold set_mask, fd_mask. rewrite Z.lor_spec, Z.ldiff_spec, !w32_testbit, !Z.shiftl_spec, mask_testbit by lia.
  rewrite (proj2 (Z.ltb_lt b 32)) by lia. cbn [andb]. replace (0 <=? b - fd_s f) with (fd_s f <=? b) by (destruct (Z.leb_spec (fd_s f) b), (Z.leb_spec 0 (b - fd_s f)); lia).
  replace (b - fd_s f <? fd_n f) with (b <? fd_s f + fd_n f) by (destruct (Z.ltb_spec b (fd_s f + fd_n f)), (Z.ltb_spec (b - fd_s f) (fd_n f)); lia).
  destruct ((fd_s f <=? b) && (b <? fd_s f + fd_n f)); cbn [negb]; destruct (Z.testbit w b); reflexivity.
Qed.
Lemma set_mask_word f w : word_ok w -> word_ok (set_mask f w).
Proof.
  intros W. apply word_of_bits.
  - unfold set_mask. apply Z.lor_nonneg. split; [apply Z.ldiff_nonneg; left; apply W|apply w32_nonneg].
  - intros b B. unfold set_mask. rewrite Z.lor_spec, Z.ldiff_spec, !w32_testbit. rewrite (proj2 (Z.ltb_ge b 32)) by lia. cbn [andb negb]. rewrite andb_true_r, orb_false_r.
    apply (Z.bits_above_log2 w b); [apply W|]. destruct (Z.eq_dec w 0) as [->|]; [cbn; lia|]. apply Z.log2_lt_pow2; [destruct W; lia|]. destruct W. eapply Z.lt_le_trans; [eassumption|]. apply Z.pow_le_mono_r; lia.
Qed.

Lemma get_field_bit f w b : fits f -> 0 <= b -> Z.testbit (get_field f w) b = (b <? fd_n f) && Z.testbit w (b + fd_s f).
Proof.
  intros (S0 & N1 & S32) B. unfold get_field, fd_mask. rewrite Z.land_spec, Z.shiftr_spec, mask_testbit by lia. rewrite (proj2 (Z.leb_le 0 b)) by lia. cbn [andb]. apply andb_comm.
Qed.

Lemma get_set_same f w key : fits f -> get_field f (set_field f w key) = key_of f key mod 2 ^ fd_n f.
Proof.
  intros F. pose proof F as (S0 & N1 & S32). apply Z.bits_inj'. intros b B. rewrite get_field_bit by assumption. destruct (Z.ltb_spec b (fd_n f)); cbn [andb].
  - rewrite set_field_bit by (assumption || lia). rewrite (proj2 (Z.leb_le _ _)), (proj2 (Z.ltb_lt _ _)) by lia. cbn [andb]. rewrite Z.mod_pow2_bits_low by lia. f_equal. lia.
  - rewrite Z.mod_pow2_bits_high by lia. reflexivity.
Qed.
Lemma get_set_apart f g w key : fits f -> fits g -> fd_s f + fd_n f <= fd_s g \/ fd_s g + fd_n g <= fd_s f -> get_field g (set_field f w key) = get_field g w.
Proof.
  intros F G A. pose proof F as (S0 & N1 & S32). pose proof G as (S0' & N1' & S32'). apply Z.bits_inj'. intros b B. rewrite !get_field_bit by assumption.
  destruct (Z.ltb_spec b (fd_n g)); cbn [andb]; [|reflexivity]. rewrite set_field_bit by (assumption || lia).
  destruct (Z.leb_spec (fd_s f) (b + fd_s g)), (Z.ltb_spec (b + fd_s g) (fd_s f + fd_n f)); cbn [andb]; try reflexivity. lia.
Qed.

(** The loop. *)
Lemma each_key_length put fs : forall keys buf buf', each_key put fs keys buf = Some buf' -> length buf' = length buf.
Proof.
  induction fs as [|f fs IH]; intros keys buf buf' H; cbn [each_key] in H; [injection H as <-; reflexivity|]. destruct keys as [|k keys]; [discriminate|].
  destruct (k =? 2 ^ 32 - 1); [exact (IH _ _ _ H)|]. destruct (Nat.ltb_spec (fd_w f) (length buf)); [|discriminate]. rewrite (IH _ _ _ H). apply upd_length.
Qed.

Lemma each_key_words put fs : (forall f w k, word_ok w -> word_ok (put f w k)) -> forall keys buf buf', each_key put fs keys buf = Some buf' -> all_words buf -> all_words buf'.
Proof.
  intros P. induction fs as [|f fs IH]; intros keys buf buf' H W; cbn [each_key] in H; [injection H as <-; exact W|]. destruct keys as [|k keys]; [discriminate|].
  destruct (k =? 2 ^ 32 - 1); [exact (IH _ _ _ H W)|]. destruct (Nat.ltb_spec (fd_w f) (length buf)); [|discriminate]. apply (IH _ _ _ H).
  apply upd_words; [exact W|]. apply P. apply all_words_nth. exact W.
Qed.

Lemma each_key_total put fs : forall keys buf, (length fs <= length keys)%nat -> Forall (fun f => (fd_w f < length buf)%nat) fs -> exists buf', each_key put fs keys buf = Some buf'.
Proof.
  induction fs as [|f fs IH]; intros keys buf L B; cbn [each_key]; [eauto|]. destruct keys as [|k keys]; [cbn [length] in L; lia|]. inversion B; subst. cbn [length] in L.
  destruct (k =? 2 ^ 32 - 1); [apply IH; [lia|assumption]|]. rewrite (proj2 (Nat.ltb_lt _ _)) by assumption. apply IH; [lia|]. rewrite upd_length. assumption.
Qed.

(** A bit that no field with a given key covers keeps its value. *)
Lemma each_key_frame fs : forall keys buf buf', each_key set_field fs keys buf = Some buf' -> Forall fits fs ->
  forall j b, 0 <= b < 32 -> (forall i f k, nth_error fs i = Some f -> nth_error keys i = Some k -> k <> 2 ^ 32 - 1 -> ~ covers f j b) ->
  Z.testbit (nth j buf' 0) b = Z.testbit (nth j buf 0) b.
Proof.
  induction fs as [|f fs IH]; intros keys buf buf' H F j b B N; cbn [each_key] in H; [injection H as <-; reflexivity|]. destruct keys as [|k keys]; [discriminate|].
  inversion F; subst. assert (N' : forall i f k, nth_error fs i = Some f -> nth_error keys i = Some k -> k <> 2 ^ 32 - 1 -> ~ covers f j b) by (intros i; exact (N (S i))).
  destruct (Z.eqb_spec k (2 ^ 32 - 1)) as [E|E]; [exact (IH _ _ _ H H3 _ _ B N')|]. destruct (Nat.ltb_spec (fd_w f) (length buf)); [|discriminate].
  rewrite (IH _ _ _ H H3 _ _ B N'). specialize (N 0%nat f k eq_refl eq_refl E). destruct (Nat.eq_dec j (fd_w f)) as [->|NE].
  - rewrite upd_nthd, Nat.eqb_refl, (proj2 (Nat.ltb_lt _ _)) by assumption; cbn [andb]. rewrite set_field_bit by assumption. destruct (Z.leb_spec (fd_s f) b), (Z.ltb_spec b (fd_s f + fd_n f)); cbn [andb]; try reflexivity.
    exfalso. apply N. split; [reflexivity|lia].
  - rewrite upd_nthd, (proj2 (Nat.eqb_neq _ _)) by congruence; cbn [andb]. reflexivity.
Qed.

Lemma each_key_field fs : forall keys buf buf', each_key set_field fs keys buf = Some buf' -> Forall fits fs ->
  forall g, fits g -> Forall (fun f => apart_fields f g) fs -> get_field g (nth (fd_w g) buf' 0) = get_field g (nth (fd_w g) buf 0).
Proof.
  intros keys buf buf' H F g G A. apply Z.bits_inj'. intros b B. rewrite !get_field_bit by assumption. destruct (Z.ltb_spec b (fd_n g)); cbn [andb]; [|reflexivity].
  destruct G as (G1 & G2 & G3). eapply each_key_frame; [exact H|exact F|lia|]. intros i f k I _ _ (C1 & C2). rewrite Forall_forall in A. destruct (A f (nth_error_In _ _ I)) as [X|X]; [congruence|lia].
Qed.

(** What reading gives after writing. *)
Definition after_write (f : field) (k old : Z) : Z := if k =? 2 ^ 32 - 1 then old else key_of f k mod 2 ^ fd_n f.

Lemma each_key_get fs : forall keys buf buf', each_key set_field fs keys buf = Some buf' -> Forall fits fs -> ForallOrdPairs apart_fields fs ->
  forall i f k, nth_error fs i = Some f -> nth_error keys i = Some k ->
  get_field f (nth (fd_w f) buf' 0) = after_write f k (get_field f (nth (fd_w f) buf 0)).
Proof.
  induction fs as [|g fs IH]; intros keys buf buf' H F D i f k I K; [destruct i; discriminate|]. inversion F as [|? ? Fg Ffs]; subst. inversion D as [|? ? Dg Dfs]; subst. cbn [each_key] in H.
  destruct keys as [|k0 keys]; [discriminate|]. destruct i as [|i]; cbn [nth_error] in I, K.
  - injection I as <-. injection K as <-. unfold after_write. destruct (Z.eqb_spec k0 (2 ^ 32 - 1)) as [E|E].
    + apply (each_key_field _ _ _ _ H Ffs _ Fg). eapply Forall_impl; [|exact Dg]. intros a [A|A]; [left; congruence|right; lia].
    + destruct (Nat.ltb_spec (fd_w g) (length buf)); [|discriminate]. rewrite (each_key_field _ _ _ _ H Ffs _ Fg). 2: { eapply Forall_impl; [|exact Dg]. intros a [A|A]; [left; congruence|right; lia]. }
      rewrite upd_nthd, Nat.eqb_refl, (proj2 (Nat.ltb_lt _ _)) by assumption; cbn [andb]. apply get_set_same. exact Fg.
  - destruct (Z.eqb_spec k0 (2 ^ 32 - 1)) as [E|E]; [exact (IH _ _ _ H Ffs Dfs _ _ _ I K)|]. destruct (Nat.ltb_spec (fd_w g) (length buf)); [|discriminate].
    rewrite (IH _ _ _ H Ffs Dfs _ _ _ I K). f_equal. rewrite Forall_forall in Ffs, Dg. pose proof (Ffs f (nth_error_In _ _ I)) as FF. destruct (Nat.eq_dec (fd_w f) (fd_w g)) as [EW|NW].
    + rewrite EW, upd_nthd, Nat.eqb_refl, (proj2 (Nat.ltb_lt _ _)) by assumption; cbn [andb]. apply get_set_apart; [assumption|assumption|]. destruct (Dg f (nth_error_In _ _ I)) as [X|X]; [congruence|exact X].
    + rewrite upd_nthd, (proj2 (Nat.eqb_neq _ _)) by congruence; cbn [andb]. reflexivity.
Qed.

Lemma read_keys_spec fs buf ks : read_keys fs buf = Some ks <->
  length ks = length fs /\ forall i f, nth_error fs i = Some f -> (fd_w f < length buf)%nat /\ nth_error ks i = Some (get_field f (nth (fd_w f) buf 0)).
Proof.
  revert ks. induction fs as [|f fs IH]; intros ks; cbn [read_keys].
  - split; [intros H; injection H as <-; split; [reflexivity|]; intros [|i] f; discriminate|]. intros [L _]. destruct ks; [reflexivity|discriminate].
  - destruct (nth_error buf (fd_w f)) as [w|] eqn:W; cbn [bind].
    + assert (WB : (fd_w f < length buf)%nat) by (apply nth_error_Some; congruence). pose proof (nth_error_nth _ _ 0 W) as WN.
      destruct (read_keys fs buf) as [ks'|] eqn:R; cbn [bind].
      * split.
        -- intros H. injection H as <-. destruct (proj1 (IH ks') eq_refl) as [L X]. split; [cbn; congruence|]. intros [|i] g I; cbn [nth_error] in *; [injection I as <-; rewrite WN; auto|]. apply X. exact I.
        -- intros [L X]. destruct ks as [|k ks]; [discriminate|]. cbn [length] in L. assert (Some ks' = Some ks) as E. { apply IH. split; [congruence|]. intros i g I. exact (X (S i) g I). }
           destruct (X 0%nat f eq_refl) as [_ Y]. cbn [nth_error] in Y. rewrite WN in Y. congruence.
      * split; [discriminate|]. intros [L X]. destruct ks as [|k ks]; [discriminate|]. cbn [length] in L. assert (@None (list Z) = Some ks) as E; [|discriminate E]. apply IH. split; [congruence|]. intros i g I. exact (X (S i) g I).
    + split; [discriminate|]. intros [L X]. destruct (X 0%nat f eq_refl) as [Y _]. apply nth_error_None in W. lia.
Qed.


Lemma field_of_bounds w2 : 0 <= fd_s (field_of w2) <= 31 /\ 1 <= fd_n (field_of w2) <= 32.
Proof.
  unfold field_of. cbn [fd_s fd_n]. pose proof (Z.mod_pos_bound (w2 / 2 ^ 19) 32 ltac:(lia)). pose proof (Z.mod_pos_bound (w2 / 2 ^ 14) 32 ltac:(lia)). lia.
Qed.
Lemma get_field_word w2 w : word_ok w -> word_ok (get_field (field_of w2) w).
Proof.
  intros W. pose proof (field_of_bounds w2) as [S N]. unfold get_field, fd_mask. set (f := field_of w2) in *. rewrite land_ones_mod by lia.
  pose proof (Z.mod_pos_bound (Z.shiftr w (fd_s f)) (2 ^ fd_n f) ltac:(lia)) as B. split; [lia|]. assert (2 ^ fd_n f <= 2 ^ 32) by (apply Z.pow_le_mono_r; lia). lia.
Qed.
Lemma read_keys_words h off n buf ks : read_keys (fields h off n) buf = Some ks -> all_words buf -> all_words ks.
Proof.
  unfold fields. generalize (seq off n) as l. intros l. revert ks. induction l as [|i l IH]; intros ks H W; cbn [map read_keys] in H; [injection H as <-; constructor|].
  destruct (nth_error buf (fd_w (field_of (nth (17 + 2 * i) h 0)))) as [w|] eqn:E; [|discriminate]. cbn [bind] in H.
  destruct (read_keys _ buf) as [ks'|] eqn:R in H; [|discriminate]. cbn [bind] in H. injection H as <-.
  constructor; [|apply IH; [exact R|exact W]]. apply get_field_word. unfold all_words in W. rewrite Forall_forall in W. apply W. eapply nth_error_In. exact E.
Qed.

Lemma clear_mask_length fs m m' : clear_mask fs m = Some m' -> length m' = length m.
Proof. destruct fs; [discriminate|]. cbn [clear_mask]. cbv zeta. destruct (_ || _); [|discriminate]. intros H. assert (E : m' = map (fun j => if (fd_w f <=? j)%nat && (j <=? fd_w (last (f :: fs) f))%nat then 0 else nth j m 0) (seq 0 (length m))) by congruence. rewrite E, map_length, seq_length. reflexivity. Qed.

Lemma gen_write_inv h dst keys mask msk d m : gen_write h dst keys mask msk = Some (d, m) ->
  (2 <= length dst)%nat /\ (2 <= length mask)%nat /\ exists m0 b m1, clear_mask (prim_fields h) (skipn 2 mask) = Some m0 /\
  each_key set_field (prim_fields h) keys (skipn 2 dst) = Some b /\ each_key (fun f w _ => set_mask f w) (prim_fields h) keys m0 = Some m1 /\
  d = firstn 2 dst ++ b /\ m = [0; 0] ++ m1.
Proof.
  unfold gen_write. intros H. destruct (Nat.ltb_spec (length dst) 2); [discriminate|]. destruct (Nat.ltb_spec (length mask) 2); [discriminate|]. cbn [orb] in H. cbv zeta in H.
  destruct (clear_mask _ _) as [m0|]; [|discriminate]. cbn [bind] in H. destruct (each_key set_field _ _ _) as [b|]; [|discriminate]. cbn [bind] in H.
  destruct (each_key _ _ _ m0) as [m1|] eqn:M; [|discriminate]. cbn [bind] in H. split; [lia|]. split; [lia|]. exists m0, b, m1. rewrite M. assert (firstn 2 dst ++ b = d /\ [0; 0] ++ m1 = m) as [<- <-] by (split; congruence). auto.
Qed.

Lemma gen_kp_ok : kp_ok gen_kp.
Proof.
  split.
  - intros h dst ks m mk dst' m' H. cbn [gen_kp kp_write] in H. destruct (gen_write_inv _ _ _ _ _ _ _ H) as (L1 & L2 & m0 & b & m1 & C & B & M & -> & ->).
    pose proof (each_key_length _ _ _ _ _ B) as LB. pose proof (each_key_length _ _ _ _ _ M) as LM. pose proof (clear_mask_length _ _ _ C) as LC. rewrite skipn_length in *.
    rewrite !app_length, firstn_length. cbn [length]. split; [lia|]. split; [lia|]. intros W _. apply all_words_app. split; [apply all_words_firstn; exact W|].
    eapply each_key_words; [|exact B|apply all_words_skipn; exact W]. intros. apply set_field_word. assumption.
  - intros h src ks H W. cbn [gen_kp kp_read] in H. unfold gen_read in H. destruct (_ <=? _)%nat; [|discriminate]. eapply read_keys_words; [exact H|]. apply all_words_skipn. exact W.
Qed.
