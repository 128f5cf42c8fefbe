(** Facts about the keys of standard files. *)
From Coq Require Import ZArith List Lia Bool.
From Verif Require Import Bits WaFile Xdf XdfSearch XdfOpen XdfHist XdfLib XdfInv XdfSpec Dates DatesSpec DatesCal DatesFacts DatesConv DatesModes DatesThm Fst FstSpec.
Import ListNotations.
Open Scope Z_scope.

(** ** Bit fields *)
Lemma getf_range w s n : 0 <= n -> 0 <= getf w s n < 2 ^ n.
Proof. intros. unfold getf. apply Z.mod_pos_bound. apply Z.pow_pos_nonneg; lia. Qed.
Lemma putf_range v s n : 0 <= n -> 0 <= s -> 0 <= putf v s n <= 2 ^ (s + n) - 2 ^ s.
Proof.
  intros. unfold putf. pose proof (Z.mod_pos_bound v (2 ^ n) ltac:(apply Z.pow_pos_nonneg; lia)). pose proof (Z.pow_pos_nonneg 2 s ltac:(lia) ltac:(lia)).
  rewrite Z.pow_add_r by lia. nia.
Qed.
Lemma two_fields a b s n : 0 <= s -> 0 <= n ->
  let w := putf a s n + putf b 0 s in
  getf w s n = a mod 2 ^ n /\ getf w 0 s = b mod 2 ^ s /\ 0 <= w < 2 ^ (s + n).
Proof.
  intros S N w. pose proof (putf_range a s n N S) as A. pose proof (putf_range b 0 s S ltac:(lia)) as B. rewrite Z.pow_0_r in B. rewrite Z.add_0_l in B.
  pose proof (Z.pow_pos_nonneg 2 s ltac:(lia) S) as P.
  assert (E : putf b 0 s = b mod 2 ^ s) by (unfold putf; rewrite Z.pow_0_r; lia).
  split; [|split].
  - unfold getf, w. rewrite E. unfold putf. rewrite Z.div_add_l by lia. rewrite (Z.div_small (b mod 2 ^ s)) by (apply Z.mod_pos_bound; lia).
    rewrite Z.add_0_r. apply Z.mod_mod. pose proof (Z.pow_pos_nonneg 2 n ltac:(lia) N). lia.
  - unfold getf, w. rewrite Z.pow_0_r, Z.div_1_r, E. unfold putf. rewrite Z.add_comm, Z.mod_add by lia. apply Z.mod_mod. lia.
  - unfold w. lia.
Qed.
Lemma one_field a : getf (putf a 0 32) 0 32 = a mod 2 ^ 32 /\ 0 <= putf a 0 32 < 2 ^ 32.
Proof.
  unfold getf, putf. rewrite Z.pow_0_r, Z.div_1_r, Z.mul_1_r. pose proof (Z.mod_pos_bound a (2 ^ 32) ltac:(lia)). rewrite Z.mod_mod by lia. lia.
Qed.
Lemma three_fields a b c : let w := putf a 20 12 + putf b 8 12 + putf c 0 8 in
  getf w 20 12 = a mod 2 ^ 12 /\ getf w 8 12 = b mod 2 ^ 12 /\ getf w 0 8 = c mod 2 ^ 8 /\ 0 <= w < 2 ^ 32.
Proof.
  intros w. pose proof (Z.mod_pos_bound a (2 ^ 12) ltac:(lia)) as A. pose proof (Z.mod_pos_bound b (2 ^ 12) ltac:(lia)) as B. pose proof (Z.mod_pos_bound c (2 ^ 8) ltac:(lia)) as C.
  unfold w, getf, putf. set (x := a mod 2 ^ 12) in *. set (y := b mod 2 ^ 12) in *. set (z := c mod 2 ^ 8) in *. clearbody x y z. clear w a b c.
  change (2 ^ 12) with 4096 in *. change (2 ^ 8) with 256 in *. change (2 ^ 20) with 1048576 in *. change (2 ^ 32) with 4294967296 in *. change (2 ^ 0) with 1.
  rewrite !Z.mul_1_r, Z.div_1_r. repeat split; Z.div_mod_to_equations; lia.
Qed.

Definition norm (k : keys) : keys :=
  mkkeys (k_deet k mod 2 ^ 24) (k_nbits k mod 2 ^ 8) (k_ni k mod 2 ^ 24) (k_gtyp k mod 2 ^ 8)
         (k_nj k mod 2 ^ 24) (k_datyp k mod 2 ^ 8) (k_nk k mod 2 ^ 20) (k_ubc k mod 2 ^ 12)
         (k_npas k mod 2 ^ 26) (k_pad7 k mod 2 ^ 6) (k_ig4 k mod 2 ^ 24) (k_ig2a k mod 2 ^ 8)
         (k_ig1 k mod 2 ^ 24) (k_ig2b k mod 2 ^ 8) (k_ig3 k mod 2 ^ 24) (k_ig2c k mod 2 ^ 8)
         (k_etik15 k mod 2 ^ 30) (k_pad1 k mod 2 ^ 2) (k_etik6a k mod 2 ^ 30) (k_pad2 k mod 2 ^ 2)
         (k_etikbc k mod 2 ^ 12) (k_typvar k mod 2 ^ 12) (k_pad3 k mod 2 ^ 8) (k_nomvar k mod 2 ^ 24) (k_pad4 k mod 2 ^ 8)
         (k_ip1 k mod 2 ^ 28) (k_levtyp k mod 2 ^ 4) (k_ip2 k mod 2 ^ 28) (k_pad5 k mod 2 ^ 4)
         (k_ip3 k mod 2 ^ 28) (k_pad6 k mod 2 ^ 4) (k_date k mod 2 ^ 32).
Lemma keys_round k : keys_of (key_words k) = norm k.
Proof.
  unfold keys_of, key_words, norm. cbn [nth].
  rewrite !(fun a b => proj1 (two_fields a b 8 24 ltac:(lia) ltac:(lia))), !(fun a b => proj1 (proj2 (two_fields a b 8 24 ltac:(lia) ltac:(lia)))).
  rewrite !(fun a b => proj1 (two_fields a b 12 20 ltac:(lia) ltac:(lia))), !(fun a b => proj1 (proj2 (two_fields a b 12 20 ltac:(lia) ltac:(lia)))).
  rewrite !(fun a b => proj1 (two_fields a b 6 26 ltac:(lia) ltac:(lia))), !(fun a b => proj1 (proj2 (two_fields a b 6 26 ltac:(lia) ltac:(lia)))).
  rewrite !(fun a b => proj1 (two_fields a b 2 30 ltac:(lia) ltac:(lia))), !(fun a b => proj1 (proj2 (two_fields a b 2 30 ltac:(lia) ltac:(lia)))).
  rewrite !(fun a b => proj1 (two_fields a b 4 28 ltac:(lia) ltac:(lia))), !(fun a b => proj1 (proj2 (two_fields a b 4 28 ltac:(lia) ltac:(lia)))).
  destruct (three_fields (k_etikbc k) (k_typvar k) (k_pad3 k)) as (-> & -> & -> & _). rewrite (proj1 (one_field _)). reflexivity.
Qed.
Lemma key_words_words k : all_words (key_words k).
Proof.
  unfold all_words, key_words. repeat apply Forall_cons; try apply Forall_nil;
    first [apply (two_fields _ _ 8 24)|apply (two_fields _ _ 12 20)|apply (two_fields _ _ 6 26)|apply (two_fields _ _ 2 30)|apply (two_fields _ _ 4 28)|apply three_fields|apply one_field]; lia.
Qed.
Lemma key_words_length k : length (key_words k) = 16%nat.
Proof. reflexivity. Qed.

(** ** Masked comparison *)
Lemma zero_split x s : 0 <= s -> (x = 0 <-> x / 2 ^ s = 0 /\ x mod 2 ^ s = 0).
Proof.
  intros S. pose proof (Z.pow_pos_nonneg 2 s ltac:(lia) S). split.
  - intros ->. split; [apply Z.div_0_l|apply Z.mod_0_l]; lia.
  - intros [A B]. rewrite (Z.div_mod x (2 ^ s)) by lia. rewrite A, B. lia.
Qed.
Lemma masked_split e q m s : 0 <= s ->
  Z.land (Z.lxor e q) m = 0 <-> Z.land (Z.lxor (e / 2 ^ s) (q / 2 ^ s)) (m / 2 ^ s) = 0 /\ Z.land (Z.lxor (e mod 2 ^ s) (q mod 2 ^ s)) (m mod 2 ^ s) = 0.
Proof.
  intros S. rewrite (zero_split _ s S). rewrite <- !Z.shiftr_div_pow2, <- !Z.land_ones by exact S.
  rewrite Z.shiftr_land, Z.shiftr_lxor.
  assert (E : Z.land (Z.land (Z.lxor e q) m) (Z.ones s) = Z.land (Z.lxor (Z.land e (Z.ones s)) (Z.land q (Z.ones s))) (Z.land m (Z.ones s))).
  { apply Z.bits_inj'. intros n N. rewrite !Z.land_spec, !Z.lxor_spec, !Z.land_spec. destruct (Z.testbit e n), (Z.testbit q n), (Z.testbit m n), (Z.testbit (Z.ones s) n); reflexivity. }
  rewrite E. tauto.
Qed.
(** One field, kept or ignored. *)
Lemma masked_field a b (no : bool) n : 0 <= n -> 0 <= a < 2 ^ n -> 0 <= b < 2 ^ n ->
  Z.land (Z.lxor a b) ((if no then 0 else -1) mod 2 ^ n) = 0 <-> (no = true \/ a = b).
Proof.
  intros N A B. pose proof (Z.pow_pos_nonneg 2 n ltac:(lia) N) as P. destruct no.
  - rewrite Z.mod_0_l by lia. rewrite Z.land_0_r. tauto.
  - rewrite <- Z.land_ones by exact N. rewrite Z.land_m1_l. rewrite Z.land_ones by exact N.
    rewrite Z.mod_small. 
    + rewrite Z.lxor_eq_0_iff. split; [tauto|intros [H|H]; [discriminate|exact H]].
    + destruct (Z.eq_dec n 0) as [->|N0]. { assert (a = 0) as -> by lia. assert (b = 0) as -> by lia. rewrite Z.lxor_0_r. lia. }
      split; [rewrite Z.lxor_nonneg; lia|]. apply Z.log2_lt_cancel. rewrite Z.log2_pow2 by lia.
      eapply Z.le_lt_trans; [apply Z.log2_lxor; lia|]. apply Z.max_lub_lt.
      * destruct (Z.eq_dec a 0) as [->|]; [rewrite Z.log2_nonpos by lia; lia|apply Z.log2_lt_pow2; lia].
      * destruct (Z.eq_dec b 0) as [->|]; [rewrite Z.log2_nonpos by lia; lia|apply Z.log2_lt_pow2; lia].
Qed.
Lemma field_div a b s n : 0 <= s -> 0 <= n -> (putf a s n + putf b 0 s) / 2 ^ s = a mod 2 ^ n /\ (putf a s n + putf b 0 s) mod 2 ^ s = b mod 2 ^ s.
Proof.
  intros S N. destruct (two_fields a b s n S N) as (A & B & C). unfold getf in A, B. rewrite Z.pow_0_r, Z.div_1_r in B. split; [|exact B].
  rewrite <- A. symmetry. apply Z.mod_small. rewrite Z.pow_add_r in C by lia. pose proof (Z.pow_pos_nonneg 2 s ltac:(lia) S). split; [apply Z.div_pos; lia|]. apply Z.div_lt_upper_bound; lia.
Qed.
Lemma top_field e s n : 0 <= s -> 0 <= n -> 0 <= e < 2 ^ (s + n) -> e / 2 ^ s = getf e s n.
Proof.
  intros S N E. unfold getf. symmetry. apply Z.mod_small. rewrite Z.pow_add_r in E by lia. pose proof (Z.pow_pos_nonneg 2 s ltac:(lia) S).
  split; [apply Z.div_pos; lia|]. apply Z.div_lt_upper_bound; lia.
Qed.
(** A word of one field above ignored bits. *)
Lemma masked_word e a (no : bool) s n : 0 <= s -> 0 <= n -> 0 <= e < 2 ^ (s + n) ->
  Z.land (Z.lxor e (putf a s n + putf 0 0 s)) (putf (if no then 0 else -1) s n + putf 0 0 s) = 0 <-> (no = true \/ getf e s n = a mod 2 ^ n).
Proof.
  intros S N E. rewrite (masked_split _ _ _ s S). destruct (field_div a 0 s n S N) as [-> ->]. destruct (field_div (if no then 0 else -1) 0 s n S N) as [-> ->].
  pose proof (Z.pow_pos_nonneg 2 s ltac:(lia) S). pose proof (Z.pow_pos_nonneg 2 n ltac:(lia) N). rewrite Z.mod_0_l by lia. rewrite Z.land_0_r. rewrite (top_field e s n) by assumption.
  rewrite masked_field; [tauto|lia|apply getf_range; lia|apply Z.mod_pos_bound; lia].
Qed.
Lemma ignored_word e s n : 0 <= s -> 0 <= n -> Z.land (Z.lxor e (putf 0 s n + putf 0 0 s)) (putf 0 s n + putf 0 0 s) = 0.
Proof. intros S N. assert (putf 0 s n + putf 0 0 s = 0) as ->. { unfold putf. rewrite !Z.mod_0_l by (pose proof (Z.pow_pos_nonneg 2 s ltac:(lia) S); pose proof (Z.pow_pos_nonneg 2 n ltac:(lia) N); lia). lia. } apply Z.land_0_r. Qed.
Lemma masked_word3 e a b (na nb : bool) : 0 <= e < 2 ^ 32 ->
  Z.land (Z.lxor e (putf a 20 12 + putf b 8 12 + putf 0 0 8)) (putf (if na then 0 else -1) 20 12 + putf (if nb then 0 else -1) 8 12 + putf 0 0 8) = 0 <->
  (na = true \/ getf e 20 12 = a mod 2 ^ 12) /\ (nb = true \/ getf e 8 12 = b mod 2 ^ 12).
Proof.
  intros E.
  assert (X : forall u v, putf u 20 12 + putf v 8 12 + putf 0 0 8 = putf ((u mod 2 ^ 12) * 2 ^ 12 + v mod 2 ^ 12) 8 24 + putf 0 0 8).
  { intros u v. pose proof (Z.mod_pos_bound u (2 ^ 12) ltac:(lia)). pose proof (Z.mod_pos_bound v (2 ^ 12) ltac:(lia)). unfold putf.
    rewrite (Z.mod_small (u mod 2 ^ 12 * 2 ^ 12 + v mod 2 ^ 12)) by lia. lia. }
  rewrite !X. rewrite (masked_split _ _ _ 8) by lia.
  destruct (field_div (a mod 2 ^ 12 * 2 ^ 12 + b mod 2 ^ 12) 0 8 24 ltac:(lia) ltac:(lia)) as [-> ->].
  destruct (field_div ((if na then 0 else -1) mod 2 ^ 12 * 2 ^ 12 + (if nb then 0 else -1) mod 2 ^ 12) 0 8 24 ltac:(lia) ltac:(lia)) as [-> ->].
  rewrite Z.land_0_r. rewrite (masked_split _ _ _ 12) by lia.
  assert (Y : forall u v, ((u mod 2 ^ 12 * 2 ^ 12 + v mod 2 ^ 12) mod 2 ^ 24) / 2 ^ 12 = u mod 2 ^ 12 /\ ((u mod 2 ^ 12 * 2 ^ 12 + v mod 2 ^ 12) mod 2 ^ 24) mod 2 ^ 12 = v mod 2 ^ 12).
  { intros u v. pose proof (Z.mod_pos_bound u (2 ^ 12) ltac:(lia)). pose proof (Z.mod_pos_bound v (2 ^ 12) ltac:(lia)). rewrite (Z.mod_small (_ + _)) by lia.
    split; [rewrite Z.div_add_l, (Z.div_small (v mod 2 ^ 12)) by lia; lia|rewrite Z.add_comm, Z.mod_add, Z.mod_mod by lia; reflexivity]. }
  destruct (Y a b) as [-> ->]. destruct (Y (if na then 0 else -1) (if nb then 0 else -1)) as [-> ->].
  assert (E1 : e / 2 ^ 8 / 2 ^ 12 = getf e 20 12). { rewrite Z.div_div by lia. rewrite <- Z.pow_add_r by lia. apply (top_field e 20 12); lia. }
  assert (E2 : (e / 2 ^ 8) mod 2 ^ 12 = getf e 8 12) by reflexivity.
  rewrite E1, E2. rewrite !masked_field by (lia || (apply getf_range; lia) || (apply Z.mod_pos_bound; lia)). tauto.
Qed.
Lemma masked_date e a (no : bool) : 0 <= e < 2 ^ 32 ->
  Z.land (Z.lxor e (putf a 0 32)) (putf (if no then 0 else 2 ^ 32 - 8) 0 32) = 0 <-> (no = true \/ e / 8 = (a mod 2 ^ 32) / 8).
Proof.
  intros E. rewrite (masked_split _ _ _ 3) by lia.
  assert (A : putf a 0 32 = a mod 2 ^ 32) by (unfold putf; lia). rewrite A. change (2 ^ 3) with 8.
  pose proof (Z.mod_pos_bound a (2 ^ 32) ltac:(lia)) as B.
  replace (putf (if no then 0 else 2 ^ 32 - 8) 0 32 / 8) with ((if no then 0 else -1) mod 2 ^ 29) by (destruct no; reflexivity).
  replace (putf (if no then 0 else 2 ^ 32 - 8) 0 32 mod 8) with 0 by (destruct no; reflexivity). rewrite Z.land_0_r.
  rewrite masked_field; [tauto|lia| |].
  - split; [apply Z.div_pos; lia|apply Z.div_lt_upper_bound; lia].
  - split; [apply Z.div_pos; lia|apply Z.div_lt_upper_bound; lia].
Qed.

(** ** Text *)
Lemma ascii6_ok c : printable c -> ascii6 c = kept_char c - 32 /\ 0 <= ascii6 c < 64.
Proof.
  intros P. unfold printable in P.
  assert (H : forallb (fun c => (ascii6 c =? kept_char c - 32) && (0 <=? ascii6 c) && (ascii6 c <? 64)) (map Z.of_nat (seq 32 96)) = true) by (vm_compute; reflexivity).
  rewrite forallb_forall in H. specialize (H c). rewrite in_map_iff in H.
  assert (X : exists x, Z.of_nat x = c /\ In x (seq 32 96)). { exists (Z.to_nat c). rewrite in_seq. lia. }
  apply H in X. rewrite !andb_true_iff, Z.eqb_eq, Z.leb_le, Z.ltb_lt in X. lia.
Qed.
Lemma blank_filled_padded n s : padded n s = blank_filled n s.
Proof.
  unfold padded, blank_filled. apply nth_ext with (d := 32) (d' := 32).
  - rewrite firstn_length, app_length, repeat_length, map_length, seq_length. lia.
  - intros i I. rewrite firstn_length, app_length, repeat_length in I. assert (I' : (i < n)%nat) by lia.
    rewrite (nth_indep (map _ _) 32 (nth 0%nat s 32)) by (rewrite map_length, seq_length; exact I').
    rewrite (map_nth (fun i => nth i s 32) (seq 0 n) 0%nat i), seq_nth by exact I'. cbn [Nat.add].
    assert (E : nth i (firstn n (s ++ repeat 32 n)) 32 = nth i (s ++ repeat 32 n) 32).
    { rewrite <- (firstn_skipn n (s ++ repeat 32 n)) at 2. rewrite app_nth1; [reflexivity|]. rewrite firstn_length, app_length, repeat_length. lia. }
    rewrite E. destruct (Nat.lt_ge_cases i (length s)) as [L|L]; [apply app_nth1; exact L|].
    rewrite app_nth2, (nth_overflow s) by lia. apply nth_repeat.
Qed.
Lemma blank_filled_printable n s : Forall printable s -> Forall printable (blank_filled n s).
Proof.
  intros F. unfold blank_filled. apply Forall_forall. intros c C. apply in_map_iff in C. destruct C as (i & <- & _).
  destruct (Nat.lt_ge_cases i (length s)) as [L|L]; [rewrite Forall_forall in F; apply F, nth_In, L|]. rewrite nth_overflow by lia. unfold printable. lia.
Qed.
Lemma blank_filled_length n s : length (blank_filled n s) = n.
Proof. unfold blank_filled. rewrite map_length, seq_length. reflexivity. Qed.

(** Base 64 digits. *)
Definition value (l : list Z) (a : Z) : Z := fold_left (fun a c => a * 64 + c) l a.
Lemma value_snoc l c a : value (l ++ [c]) a = value l a * 64 + c.
Proof. unfold value. rewrite fold_left_app. reflexivity. Qed.
Lemma lor_shift a c : 0 <= a -> 0 <= c < 64 -> Z.lor (Z.shiftl a 6) c = a * 64 + c.
Proof.
  intros A C. assert (N0 : Z.land (Z.shiftl a 6) c = 0).
  { apply Z.bits_inj'. intros n N. rewrite Z.land_spec, Z.bits_0. destruct (Z_lt_le_dec n 6) as [L|L].
    - rewrite Z.shiftl_spec_low by lia. reflexivity.
    - rewrite (Z.bits_above_log2 c n), andb_false_r; [reflexivity|lia|]. destruct (Z.eq_dec c 0) as [->|]; [cbn; lia|]. apply Z.log2_lt_pow2; [lia|]. apply Z.lt_le_trans with (2 ^ 6); [cbn; lia|apply Z.pow_le_mono_r; lia]. }
  rewrite <- Z.lxor_lor, <- Z.add_nocarry_lxor by exact N0. rewrite Z.shiftl_mul_pow2 by lia. reflexivity.
Qed.
Lemma fold_value l : forall a, 0 <= a -> Forall printable l -> fold_left (fun a c => Z.lor (Z.shiftl a 6) (ascii6 c)) l a = value (map (fun c => kept_char c - 32) l) a.
Proof.
  induction l as [|c l IH]; intros a A F; [reflexivity|]. inversion F as [|x y PC PL]; subst. cbn [fold_left map].
  destruct (ascii6_ok c PC) as [E B]. rewrite lor_shift by assumption. unfold value. cbn [fold_left]. rewrite <- E. rewrite IH by (lia || assumption). reflexivity.
Qed.
Lemma value_range l : Forall (fun c => 0 <= c < 64) l -> 0 <= value l 0 < 64 ^ Z.of_nat (length l).
Proof.
  induction l as [|c l IH] using rev_ind; intros F; [cbn; lia|]. apply Forall_app in F. destruct F as [F C]. apply IH in F. rewrite value_snoc, app_length. cbn [length].
  inversion C; subst. rewrite Nat2Z.inj_add. rewrite Z.pow_add_r by lia. change (64 ^ Z.of_nat 1) with 64. nia.
Qed.
Lemma unsix_snoc a c n : 0 <= a -> 0 <= c < 64 -> unsix (a * 64 + c) (S n) = unsix a n ++ [c + 32].
Proof.
  intros A C. unfold unsix. rewrite seq_S, map_app. cbn [map Nat.add]. f_equal.
  - apply map_ext_in. intros i I. apply in_seq in I. f_equal. f_equal.
    replace (Z.of_nat (S n - 1 - i) * 6) with (6 + Z.of_nat (n - 1 - i) * 6) by lia. rewrite <- Z.shiftr_shiftr by lia. f_equal.
    rewrite Z.shiftr_div_pow2 by lia. change (2 ^ 6) with 64. rewrite Z.div_add_l by lia. rewrite Z.div_small by lia. lia.
  - replace (S n - 1 - n)%nat with 0%nat by lia. cbn [Z.of_nat Z.mul]. rewrite Z.shiftr_0_r. change 0x3f with (Z.ones 6). rewrite Z.land_ones by lia.
    change (2 ^ 6) with 64. rewrite (Z.add_comm (a * 64) c), Z.mod_add, Z.mod_small by lia. reflexivity.
Qed.
Lemma unsix_value l : Forall (fun c => 0 <= c < 64) l -> unsix (value l 0) (length l) = map (fun c => c + 32) l.
Proof.
  induction l as [|c l IH] using rev_ind; intros F; [reflexivity|]. apply Forall_app in F. destruct F as [F C]. inversion C; subst.
  rewrite value_snoc, app_length. cbn [length]. replace (length l + 1)%nat with (S (length l)) by lia. rewrite unsix_snoc by (apply value_range in F; lia).
  rewrite (IH F), map_app. reflexivity.
Qed.
Lemma value_unsix n : forall v, 0 <= v < 64 ^ Z.of_nat n -> value (map (fun c => c - 32) (unsix v n)) 0 = v.
Proof.
  induction n as [|n IH]; intros v V; [cbn in *; lia|]. rewrite (Z.div_mod v 64) at 1 by lia. rewrite Z.mul_comm.
  pose proof (Z.mod_pos_bound v 64 ltac:(lia)). assert (0 <= v / 64) by (apply Z.div_pos; lia).
  rewrite unsix_snoc by lia. rewrite map_app. cbn [map]. rewrite value_snoc. rewrite IH.
  - rewrite (Z.div_mod v 64) at 3 by lia. lia.
  - split; [lia|]. apply Z.div_lt_upper_bound; [lia|]. replace (Z.of_nat (S n)) with (1 + Z.of_nat n) in V by lia. rewrite Z.pow_add_r in V by lia. lia.
Qed.
Lemma six_value s i n : Forall printable s -> six s i n = value (map (fun c => kept_char c - 32) (firstn n (skipn i s))) 0.
Proof.
  intros F. unfold six. apply fold_value; [lia|]. apply Forall_forall. intros c C. rewrite Forall_forall in F. apply F.
  rewrite <- (firstn_skipn i s). apply in_or_app. right. rewrite <- (firstn_skipn n (skipn i s)). apply in_or_app. left. exact C.
Qed.
Lemma kept_char_range c : printable c -> 0 <= kept_char c - 32 < 64.
Proof. intros P. destruct (ascii6_ok c P) as [E B]. lia. Qed.
Lemma unsix_six s i n : Forall printable s -> (i + n <= length s)%nat -> unsix (six s i n) n = map kept_char (firstn n (skipn i s)) /\ 0 <= six s i n < 64 ^ Z.of_nat n.
Proof.
  intros F L. rewrite six_value by exact F. set (l := firstn n (skipn i s)).
  assert (LL : length l = n). { unfold l. rewrite firstn_length, skipn_length. lia. }
  assert (FL : Forall (fun c => 0 <= c < 64) (map (fun c => kept_char c - 32) l)).
  { apply Forall_forall. intros c C. apply in_map_iff in C. destruct C as (x & <- & X). apply kept_char_range. rewrite Forall_forall in F. apply F.
    rewrite <- (firstn_skipn i s). apply in_or_app. right. rewrite <- (firstn_skipn n (skipn i s)). apply in_or_app. left. exact X. }
  pose proof (unsix_value _ FL) as U. rewrite map_length, LL in U. split.
  - rewrite U, map_map. apply map_ext. intros c. lia.
  - pose proof (value_range _ FL) as V. rewrite map_length, LL in V. exact V.
Qed.
(** Equality of packed characters. *)
Lemma six_eq s i n v : Forall printable s -> (i + n <= length s)%nat -> 0 <= v < 64 ^ Z.of_nat n -> (v = six s i n <-> map kept_char (firstn n (skipn i s)) = unsix v n).
Proof.
  intros F L V. destruct (unsix_six s i n F L) as [U R]. rewrite <- U. split; [intros ->; reflexivity|]. intros E.
  rewrite <- (value_unsix n v V), <- (value_unsix n (six s i n) R), E. reflexivity.
Qed.
Lemma value_zero l : Forall (fun c => 0 <= c < 64) l -> (value l 0 = 0 <-> Forall (fun c => c = 0) l).
Proof.
  induction l as [|c l IH] using rev_ind; intros F; [split; [constructor|reflexivity]|]. apply Forall_app in F. destruct F as [F C]. inversion C; subst.
  rewrite value_snoc, Forall_app. pose proof (value_range _ F). rewrite <- (IH F). split.
  - intros E. split; [lia|]. constructor; [lia|constructor].
  - intros [E1 E2]. inversion E2; subst. lia.
Qed.
Lemma six_zero s i n : Forall printable s -> (six s i n =? 0) = blank (firstn n (skipn i s)).
Proof.
  intros F. rewrite six_value by exact F. set (l := firstn n (skipn i s)).
  assert (FP : Forall printable l).
  { apply Forall_forall. intros c C. rewrite Forall_forall in F. apply F. rewrite <- (firstn_skipn i s). apply in_or_app. right. rewrite <- (firstn_skipn n (skipn i s)). apply in_or_app. left. exact C. }
  clearbody l. clear F s i n. apply eq_true_iff_eq. rewrite Z.eqb_eq. rewrite value_zero.
  - unfold blank. rewrite forallb_forall, Forall_map, Forall_forall. split; intros H c C; specialize (H c C); rewrite Forall_forall in FP; pose proof (FP c C) as P; unfold printable in P.
    + apply Z.eqb_eq. unfold kept_char in H. destruct (Z.leb_spec 96 c); lia.
    + apply Z.eqb_eq in H. subst c. reflexivity.
  - apply Forall_map. eapply Forall_impl; [|exact FP]. intros c. apply kept_char_range.
Qed.

(** ** Dates *)
Lemma octal_range d : 0 <= octal_date d < 2 ^ 32.
Proof. unfold octal_date. pose proof (Z.mod_pos_bound d (2 ^ 32) ltac:(lia)) as B. fold (w32 d) in B. set (u := w32 d) in *. clearbody u. cbv zeta. change (2 ^ 32) with 4294967296 in *. Z.div_mod_to_equations; lia. Qed.
Lemma octal_decimal d : w32 d mod 10 <= 7 -> decimal_date (octal_date d) = w32 d.
Proof.
  intros L. unfold decimal_date, octal_date. cbv zeta. pose proof (Z.mod_pos_bound d (2 ^ 32) ltac:(lia)) as B. fold (w32 d) in B. set (u := w32 d) in *. clearbody u.
  replace ((8 * (u / 10) + u mod 10) / 8 * 10 + (8 * (u / 10) + u mod 10) mod 8) with u; [unfold w32; apply Z.mod_small; exact B|].
  Z.div_mod_to_equations; lia.
Qed.
Lemma int32_w32 d : - 2 ^ 31 <= d < 2 ^ 31 -> int32 (w32 d) = d.
Proof.
  intros B. unfold int32, w32. rewrite Z.mod_mod by lia. cbv zeta. destruct (Z_lt_le_dec d 0) as [N|N].
  - assert (d mod 2 ^ 32 = d + 2 ^ 32) as -> by (symmetry; apply (Z.mod_unique d (2 ^ 32) (-1)); lia). rewrite (proj2 (Z.ltb_ge _ _)) by lia. lia.
  - rewrite Z.mod_small by lia. rewrite (proj2 (Z.ltb_lt _ _)) by lia. reflexivity.
Qed.
Lemma w32_int32 u : int32 u mod 2 ^ 32 = w32 u.
Proof.
  unfold int32. cbv zeta. fold (w32 u). assert (0 <= w32 u < 2 ^ 32) by (apply Z.mod_pos_bound; lia). destruct (Z.ltb_spec (w32 u) (2 ^ 31)).
  - apply Z.mod_small; lia.
  - replace (w32 u - 2 ^ 32) with (w32 u + (-1) * 2 ^ 32) by lia. rewrite Z.mod_add by lia. apply Z.mod_small; lia.
Qed.
(** The date of an entry and the one looked for, but for the last digit. *)
Lemma same_decade d q : w32 q mod 10 <= 7 -> (octal_date d / 8 = octal_date q / 8 <-> q mod 2 ^ 32 / 10 = int32 (decimal_date (octal_date d)) mod 2 ^ 32 / 10).
Proof.
  intros L. rewrite w32_int32. fold (w32 q). unfold decimal_date, octal_date. cbv zeta.
  pose proof (Z.mod_pos_bound d (2 ^ 32) ltac:(lia)) as B. fold (w32 d) in B. set (u := w32 d) in *. clearbody u.
  pose proof (Z.mod_pos_bound q (2 ^ 32) ltac:(lia)) as Q. fold (w32 q) in Q. set (v := w32 q) in *. clearbody v.
  assert (E : w32 (w32 ((8 * (u / 10) + u mod 10) / 8 * 10 + (8 * (u / 10) + u mod 10) mod 8)) = (8 * (u / 10) + u mod 10) / 8 * 10 + (8 * (u / 10) + u mod 10) mod 8).
  { unfold w32. rewrite Z.mod_mod by lia. apply Z.mod_small. change (2 ^ 32) with 4294967296 in *. clear Q L. Z.div_mod_to_equations; lia. }
  rewrite E. clear E. change (2 ^ 32) with 4294967296 in *.
  assert (E1 : (8 * (v / 10) + v mod 10) / 8 = v / 10) by (clear B; Z.div_mod_to_equations; lia). rewrite E1.
  set (t := (8 * (u / 10) + u mod 10) / 8). pose proof (Z.mod_pos_bound (8 * (u / 10) + u mod 10) 8 ltac:(lia)) as M. set (z := (8 * (u / 10) + u mod 10) mod 8) in *. clearbody t z.
  rewrite Z.div_add_l by lia. rewrite (Z.div_small z) by lia. lia.
Qed.
