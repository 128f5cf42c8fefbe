(** Facts on the checks of Crc.v, for P_Crc.v. *)
From Coq Require Import ZArith List Lia Bool Btauto.
From Verif Require Import Crc CrcSpec.
Import ListNotations.
Open Scope Z_scope.

Lemma lxor_mod a b n : 0 <= n -> Z.lxor a b mod 2 ^ n = Z.lxor (a mod 2 ^ n) (b mod 2 ^ n).
Proof.
  intros N. apply Z.bits_inj'. intros i I. rewrite Z.lxor_spec. destruct (Z.lt_ge_cases i n).
  - rewrite !Z.mod_pow2_bits_low, Z.lxor_spec by lia. reflexivity.
  - rewrite !Z.mod_pow2_bits_high by lia. reflexivity.
Qed.
Lemma lxor_range a b n : 0 <= n -> 0 <= a < 2 ^ n -> 0 <= b < 2 ^ n -> 0 <= Z.lxor a b < 2 ^ n.
Proof. intros N A B. rewrite <- (Z.mod_small a (2 ^ n)), <- (Z.mod_small b (2 ^ n)), <- lxor_mod by lia. apply Z.mod_pos_bound. lia. Qed.
Lemma lxor_swap a b c d : Z.lxor (Z.lxor a b) (Z.lxor c d) = Z.lxor (Z.lxor a c) (Z.lxor b d).
Proof. apply Z.bits_inj'. intros i I. rewrite !Z.lxor_spec. btauto. Qed.
Lemma lxor_if (s t : bool) (p : Z) : (if xorb s t then p else 0) = Z.lxor (if s then p else 0) (if t then p else 0).
Proof. destruct s, t; cbn [xorb]; rewrite ?Z.lxor_nilpotent, ?Z.lxor_0_r, ?Z.lxor_0_l; reflexivity. Qed.

Lemma right1_lxor p x y : right1 p (Z.lxor x y) = Z.lxor (right1 p x) (right1 p y).
Proof. unfold right1. rewrite Z.shiftr_lxor, <- !Z.bit0_odd, Z.lxor_spec, lxor_if. apply lxor_swap. Qed.
Lemma left1_lxor w p x y : 0 <= w -> left1 w p (Z.lxor x y) = Z.lxor (left1 w p x) (left1 w p y).
Proof. intros W. unfold left1. rewrite Z.shiftl_lxor, lxor_mod, Z.lxor_spec, lxor_if by exact W. apply lxor_swap. Qed.
Lemma iter_lxor f n : (forall x y, f (Z.lxor x y) = Z.lxor (f x) (f y)) -> forall x y, Nat.iter n f (Z.lxor x y) = Z.lxor (Nat.iter n f x) (Nat.iter n f y).
Proof. intros F x y. induction n as [|n IH]; [reflexivity|]. cbn [Nat.iter nat_rect]. rewrite <- F. f_equal. exact IH. Qed.
Lemma right_shift p n : forall y, Nat.iter n (right1 p) (y * 2 ^ Z.of_nat n) = y.
Proof.
  induction n as [|n IH]; intros y; [cbn; lia|]. replace (y * 2 ^ Z.of_nat (S n)) with ((2 * y) * 2 ^ Z.of_nat n) by (rewrite Nat2Z.inj_succ, Z.pow_succ_r by lia; ring).
  change (right1 p (Nat.iter n (right1 p) (2 * y * 2 ^ Z.of_nat n)) = y). rewrite IH. unfold right1. rewrite Z.odd_mul. cbn [Z.odd andb]. rewrite Z.lxor_0_r, Z.shiftr_div_pow2 by lia. rewrite Z.mul_comm. apply Z.div_mul. lia.
Qed.
Lemma left_shift w p n : 0 < w -> Z.of_nat n <= w -> forall y, 0 <= y < 2 ^ (w - Z.of_nat n) -> Nat.iter n (left1 w p) y = y * 2 ^ Z.of_nat n.
Proof.
  intros W. induction n as [|n IH]; intros N y Y; [cbn; lia|]. change (left1 w p (Nat.iter n (left1 w p) y) = y * 2 ^ Z.of_nat (S n)).
  assert (P : 2 ^ (w - Z.of_nat n) = 2 * 2 ^ (w - Z.of_nat (S n))) by (replace (w - Z.of_nat n) with (Z.succ (w - Z.of_nat (S n))) by lia; apply Z.pow_succ_r; lia).
  assert (Q : 2 ^ Z.of_nat (S n) = 2 * 2 ^ Z.of_nat n) by (rewrite Nat2Z.inj_succ; apply Z.pow_succ_r; lia).
  rewrite IH by lia. assert (R : 2 ^ (w - 1) = 2 ^ (w - Z.of_nat (S n)) * 2 ^ Z.of_nat n) by (rewrite <- Z.pow_add_r by lia; f_equal; lia).
  assert (R2 : 2 ^ w = 2 * 2 ^ (w - 1)) by (replace w with (Z.succ (w - 1)) at 1 by lia; apply Z.pow_succ_r; lia).
  assert (B : 0 <= y * 2 ^ Z.of_nat n < 2 ^ (w - 1)) by (rewrite R; split; [apply Z.mul_nonneg_nonneg; [lia|apply Z.pow_nonneg; lia]|]; apply Z.mul_lt_mono_pos_r; [apply Z.pow_pos_nonneg; lia|lia]).
  assert (T : Z.testbit (y * 2 ^ Z.of_nat n) (w - 1) = false) by (rewrite <- (Z.mod_small _ _ B); apply Z.mod_pow2_bits_high; lia).
  unfold left1. rewrite T, Z.lxor_0_r, Z.shiftl_mul_pow2 by lia. change (2 ^ 1) with 2. rewrite Z.mod_small; lia.
Qed.
Lemma split_low x n : 0 <= n -> x = Z.lxor (x mod 2 ^ n) (Z.shiftr x n * 2 ^ n).
Proof.
  intros N. rewrite <- Z.shiftl_mul_pow2 by lia. apply Z.bits_inj'. intros i I. rewrite Z.lxor_spec. destruct (Z.lt_ge_cases i n).
  - rewrite Z.mod_pow2_bits_low, Z.shiftl_spec_low by lia. destruct (Z.testbit x i); reflexivity.
  - rewrite Z.mod_pow2_bits_high, Z.shiftl_spec, Z.shiftr_spec by lia. replace (i - n + n) with i by lia. destruct (Z.testbit x i); reflexivity.
Qed.

(** Tables *)
Definition entries (f : Z -> Z) (t : list Z) : bool := forallb (fun k => f (Z.of_nat k) =? nth k t 0) (seq 0 256).
Lemma entries_ok f t v : entries f t = true -> 0 <= v < 256 -> nth (Z.to_nat v) t 0 = f v.
Proof. unfold entries. intros E V. rewrite forallb_forall in E. specialize (E (Z.to_nat v)). rewrite Z2Nat.id in E by lia. symmetry. apply Z.eqb_eq, E, in_seq. lia. Qed.
Lemma shiftr_small v n : 0 <= n -> 0 <= v < 2 ^ n -> Z.shiftr v n = 0.
Proof. intros N V. rewrite Z.shiftr_div_pow2 by lia. apply Z.div_small. exact V. Qed.

Lemma right_turn p t w c v : 8 <= w -> entries (fun k => Nat.iter 8 (right1 p) k) t = true -> forallb (fun x => (0 <=? x) && (x <? 2 ^ w)) t = true -> 0 <= c < 2 ^ w -> 0 <= v < 256 ->
  Z.land (Z.lxor (nth (Z.to_nat (Z.land (Z.lxor c v) 0xff)) t 0) (Z.shiftr c 8)) (Z.ones w) = right_byte p c v.
Proof.
  intros W E R C V. assert (W2 : 2 ^ 8 <= 2 ^ w) by (apply Z.pow_le_mono_r; lia). change 0xff with (Z.ones 8). rewrite !Z.land_ones by lia. change (2 ^ 8) with 256 in *. pose proof (Z.mod_pos_bound (Z.lxor c v) 256 ltac:(lia)) as B.
  pose proof (entries_ok _ _ _ E B) as T. cbn beta in T.
  assert (TR : 0 <= nth (Z.to_nat (Z.lxor c v mod 256)) t 0 < 2 ^ w).
  { destruct (nth_in_or_default (Z.to_nat (Z.lxor c v mod 256)) t 0) as [I|I]; [rewrite forallb_forall in R; specialize (R _ I); apply andb_true_iff in R; lia|rewrite I; lia]. }
  assert (CR : 0 <= Z.shiftr c 8 < 2 ^ w) by (rewrite Z.shiftr_div_pow2 by lia; split; [apply Z.div_pos; lia|]; apply Z.le_lt_trans with c; [apply Z.div_le_upper_bound; lia|lia]).
  rewrite Z.mod_small by (apply lxor_range; lia). unfold right_byte. rewrite T.
  assert (S : Z.lxor c v = Z.lxor (Z.lxor c v mod 256) (Z.shiftr c 8 * 2 ^ Z.of_nat 8)) by (rewrite (split_low (Z.lxor c v) 8) at 1 by lia; rewrite Z.shiftr_lxor, (shiftr_small v 8), Z.lxor_0_r by (change (2 ^ 8) with 256; lia); reflexivity).
  pose proof (iter_lxor (right1 p) 8 (right1_lxor p) (Z.lxor c v mod 256) (Z.shiftr c 8 * 2 ^ Z.of_nat 8)) as L. rewrite <- S, right_shift in L. symmetry. exact L.
Qed.
Lemma left_turn p t w c v : 8 < w -> entries (fun k => Nat.iter 8 (left1 w p) (k * 2 ^ (w - 8))) t = true -> forallb (fun x => (0 <=? x) && (x <? 2 ^ w)) t = true -> 0 <= c < 2 ^ w -> 0 <= v < 256 ->
  Z.land (Z.lxor (nth (Z.to_nat (Z.land (Z.lxor (Z.shiftr c (w - 8)) v) 0xff)) t 0) (Z.shiftl c 8)) (Z.ones w) = left_byte w p c v.
Proof.
  intros W E R C V. assert (W2 : 2 ^ w = 256 * 2 ^ (w - 8)) by (change 256 with (2 ^ 8); rewrite <- Z.pow_add_r by lia; f_equal; lia). assert (W3 : 0 < 2 ^ (w - 8)) by lia.
  assert (CH : 0 <= Z.shiftr c (w - 8) < 2 ^ 8) by (rewrite Z.shiftr_div_pow2 by lia; split; [apply Z.div_pos; lia|]; apply Z.div_lt_upper_bound; change (2 ^ 8) with 256; lia).
  change 0xff with (Z.ones 8). rewrite !Z.land_ones by lia. assert (B : 0 <= Z.lxor (Z.shiftr c (w - 8)) v < 2 ^ 8) by (apply lxor_range; [lia|lia|change (2 ^ 8) with 256; lia]). rewrite (Z.mod_small _ _ B). pose proof (entries_ok _ _ _ E B) as T. cbn beta in T.
  rewrite lxor_mod by lia.
  assert (TR : 0 <= nth (Z.to_nat (Z.lxor (Z.shiftr c (w - 8)) v)) t 0 < 2 ^ w).
  { destruct (nth_in_or_default (Z.to_nat (Z.lxor (Z.shiftr c (w - 8)) v)) t 0) as [I|I]; [rewrite forallb_forall in R; specialize (R _ I); apply andb_true_iff in R; lia|rewrite I; lia]. }
  rewrite (Z.mod_small _ _ TR), T. unfold left_byte.
  assert (V0 : Z.shiftl v (w - 8) mod 2 ^ (w - 8) = 0) by (rewrite Z.shiftl_mul_pow2 by lia; apply Z.mod_mul; lia).
  assert (S : Z.lxor c (Z.shiftl v (w - 8)) = Z.lxor (Z.lxor (Z.shiftr c (w - 8)) v * 2 ^ (w - 8)) (c mod 2 ^ (w - 8))) by (rewrite (split_low (Z.lxor c (Z.shiftl v (w - 8))) (w - 8)) at 1 by lia; rewrite lxor_mod, V0, Z.lxor_0_r, Z.shiftr_lxor, Z.shiftr_shiftl_l, Z.sub_diag, Z.shiftl_0_r by lia; apply Z.lxor_comm).
  pose proof (iter_lxor (left1 w p) 8 (fun x y => left1_lxor w p x y ltac:(lia)) (Z.lxor (Z.shiftr c (w - 8)) v * 2 ^ (w - 8)) (c mod 2 ^ (w - 8))) as L. rewrite <- S in L. rewrite (left_shift w p 8 ltac:(lia) ltac:(lia) (c mod 2 ^ (w - 8)) (Z.mod_pos_bound _ _ W3)) in L.
  rewrite L. f_equal. change (Z.of_nat 8) with 8. rewrite Z.shiftl_mul_pow2, W2 by lia. change (2 ^ 8) with 256. rewrite (Z.mul_comm c), Z.mul_mod_distr_l by lia. lia.
Qed.

(** Different bytes give different values. *)
Definition kernel (w : Z) (f : Z -> Z) : Prop := forall d, 0 <= d < 2 ^ w -> f d = 0 -> d = 0.
Lemma right1_kernel w p : 0 < w -> 2 ^ (w - 1) <= p < 2 ^ w -> kernel w (right1 p) /\ forall d, 0 <= d < 2 ^ w -> 0 <= right1 p d < 2 ^ w.
Proof.
  intros W P. assert (R2 : 2 ^ w = 2 * 2 ^ (w - 1)) by (replace w with (Z.succ (w - 1)) at 1 by lia; apply Z.pow_succ_r; lia).
  assert (S : forall d, 0 <= d < 2 ^ w -> 0 <= Z.shiftr d 1 < 2 ^ (w - 1)) by (intros d D; rewrite Z.shiftr_div_pow2 by lia; change (2 ^ 1) with 2; split; [apply Z.div_pos; lia|apply Z.div_lt_upper_bound; lia]). split.
  - intros d D E. specialize (S d D). unfold right1 in E. apply Z.lxor_eq in E. rewrite Z.shiftr_div_pow2 in * by lia. change (2 ^ 1) with 2 in *. destruct (Z.odd d) eqn:O; [lia|]. pose proof (Z.div_mod d 2 ltac:(lia)). rewrite Zmod_odd, O in *. lia.
  - intros d D. specialize (S d D). unfold right1. apply lxor_range; [lia|lia|]. destruct (Z.odd d); lia.
Qed.
Lemma left1_kernel w p : 0 < w -> Z.odd p = true -> 0 <= p < 2 ^ w -> kernel w (left1 w p) /\ forall d, 0 <= d < 2 ^ w -> 0 <= left1 w p d < 2 ^ w.
Proof.
  intros W O P. split.
  - intros d D E. unfold left1 in E. apply Z.lxor_eq in E. rewrite Z.shiftl_mul_pow2 in E by lia. change (2 ^ 1) with 2 in E. assert (R2 : 2 ^ w = 2 * 2 ^ (w - 1)) by (replace w with (Z.succ (w - 1)) at 1 by lia; apply Z.pow_succ_r; lia).
    rewrite (Z.mul_comm d), R2, Z.mul_mod_distr_l in E by lia. destruct (Z.testbit d (w - 1)) eqn:T.
    + rewrite <- E in O. rewrite Z.odd_mul in O. discriminate.
    + destruct (Z.lt_ge_cases d (2 ^ (w - 1))); [rewrite Z.mod_small in E by lia; lia|]. exfalso.
      assert (Z.testbit d (w - 1) = true); [|congruence]. rewrite Z.testbit_true by lia. replace (d / 2 ^ (w - 1)) with 1; [reflexivity|]. apply Z.div_unique with (d - 2 ^ (w - 1)); lia.
  - intros d D. unfold left1. apply lxor_range; [lia|apply Z.mod_pos_bound; lia|]. destruct (Z.testbit d (w - 1)); lia.
Qed.
Lemma iter_kernel w f n : kernel w f -> (forall d, 0 <= d < 2 ^ w -> 0 <= f d < 2 ^ w) -> kernel w (Nat.iter n f) /\ forall d, 0 <= d < 2 ^ w -> 0 <= Nat.iter n f d < 2 ^ w.
Proof.
  intros K R. induction n as [|n [IK IR]]; [split; [intros d D E; exact E|intros d D; exact D]|]. split.
  - intros d D E. apply IK; [exact D|]. apply K; [apply IR; exact D|exact E].
  - intros d D. apply (R (Nat.iter n f d)), IR, D.
Qed.
Lemma kernel_inj w f x y : 0 <= w -> (forall x y, f (Z.lxor x y) = Z.lxor (f x) (f y)) -> kernel w f -> 0 <= x < 2 ^ w -> 0 <= y < 2 ^ w -> f x = f y -> x = y.
Proof. intros W L K X Y E. apply Z.lxor_eq, K; [apply lxor_range; assumption|]. rewrite L, E. apply Z.lxor_nilpotent. Qed.

Definition poly_kernel (c : check) : exists f k, (forall x v, one_byte c x v = Nat.iter 8 f (Z.lxor x (Z.shiftl v k))) /\ (forall x y, f (Z.lxor x y) = Z.lxor (f x) (f y)) /\ 0 <= k /\ 8 + k <= width c /\ kernel (width c) f /\ forall d, 0 <= d < 2 ^ width c -> 0 <= f d < 2 ^ width c.
Proof.
  destruct c; cbn [one_byte width].
  - exists (right1 0xA001), 0. split; [intros; rewrite Z.shiftl_0_r; reflexivity|]. split; [apply right1_lxor|]. split; [lia|]. split; [lia|]. apply right1_kernel; [lia|]. cbn. lia.
  - exists (left1 24 0x864CFB), 16. split; [intros; reflexivity|]. split; [intros; apply left1_lxor; lia|]. split; [lia|]. split; [lia|]. apply left1_kernel; [lia|reflexivity|]. cbn. lia.
  - exists (right1 0xEDB88320), 0. split; [intros; rewrite Z.shiftl_0_r; reflexivity|]. split; [apply right1_lxor|]. split; [lia|]. split; [lia|]. apply right1_kernel; [lia|]. cbn. lia.
Qed.
Lemma shiftl_range v k w : 0 <= k -> 8 + k <= w -> 0 <= v < 256 -> 0 <= Z.shiftl v k < 2 ^ w.
Proof. intros K W V. rewrite Z.shiftl_mul_pow2 by lia. assert (2 ^ (8 + k) <= 2 ^ w) by (apply Z.pow_le_mono_r; lia). rewrite Z.pow_add_r in H by lia. change (2 ^ 8) with 256 in H. nia. Qed.
Lemma one_byte_range c x v : 0 <= x < 2 ^ width c -> 0 <= v < 256 -> 0 <= one_byte c x v < 2 ^ width c.
Proof. intros X V. destruct (poly_kernel c) as (f & k & E & L & K0 & KW & K & R). rewrite E. apply iter_kernel; [exact K|exact R|]. apply lxor_range; [lia|exact X|apply shiftl_range; lia]. Qed.
Lemma one_byte_inj c x v y u : 0 <= x < 2 ^ width c -> 0 <= y < 2 ^ width c -> 0 <= v < 256 -> 0 <= u < 256 -> one_byte c x v = one_byte c y u -> (x = y <-> v = u).
Proof.
  intros X Y V U H. destruct (poly_kernel c) as (f & k & E & L & K0 & KW & K & R). rewrite !E in H. pose proof (shiftl_range v k _ K0 KW V) as SV. pose proof (shiftl_range u k _ K0 KW U) as SU.
  apply (kernel_inj (width c)) in H; [|lia|apply iter_lxor; exact L|apply iter_kernel; assumption|apply lxor_range; [lia|assumption|assumption]|apply lxor_range; [lia|assumption|assumption]].
  split; intros ->.
  - assert (S : Z.shiftl v k = Z.shiftl u k) by (apply Z.bits_inj'; intros i I; apply (f_equal (fun z => Z.testbit z i)) in H; rewrite !Z.lxor_spec in H; destruct (Z.testbit y i), (Z.testbit (Z.shiftl v k) i), (Z.testbit (Z.shiftl u k) i); cbn in *; congruence).
    rewrite !Z.shiftl_mul_pow2 in S by lia. apply Z.mul_reg_r in S; [exact S|]. apply Z.pow_nonzero; lia.
  - apply Z.bits_inj'. intros i I. apply (f_equal (fun z => Z.testbit z i)) in H. rewrite !Z.lxor_spec in H. destruct (Z.testbit x i), (Z.testbit y i), (Z.testbit (Z.shiftl u k) i); cbn in *; congruence.
Qed.
