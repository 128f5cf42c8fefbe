(** Proofs about MD5. *)
From Coq Require Import ZArith List Lia Bool.
From Verif Require Import Md5 Md5Spec.
Import ListNotations.
Open Scope Z_scope.

Definition low (x : Z) : Z := x mod 2 ^ 32.
Definition low4 (r : regs) : regs := let '(a, b, c, d) := r in (low a, low b, low c, low d).
Definition byte (b : Z) : Prop := 0 <= b < 256.

Lemma low_bit x n : 0 <= n -> Z.testbit (low x) n = (n <? 32) && Z.testbit x n.
Proof.
  intros N. unfold low. destruct (Z.ltb_spec n 32); cbn [andb]; [apply Z.mod_pow2_bits_low; lia|apply Z.mod_pow2_bits_high; lia].
Qed.
Lemma ones_bit k n : 0 <= n -> 0 <= k -> Z.testbit (Z.ones k) n = (n <? k).
Proof. intros N K. apply Z.testbit_ones_nonneg; assumption. Qed.
Ltac bits := intros; apply Z.bits_inj'; intros n N; unfold F1, F2, F3, F4, rfc_F, rfc_G, rfc_H, rfc_I, not32; change 0xFFFFFFFF with (Z.ones 32); change 0xFFFFFFFFFFFFFFFF with (Z.ones 64);
  rewrite ?Z.lxor_spec, ?Z.lor_spec, ?Z.land_spec, ?Z.lxor_spec, ?low_bit, ?Z.lxor_spec, ?Z.lor_spec, ?Z.land_spec, ?Z.lxor_spec, ?low_bit, ?ones_bit, ?low_bit by lia.
Lemma low_F1 x y z : low (F1 x y z) = rfc_F (low x) (low y) (low z).
Proof. bits. destruct (n <? 32), (Z.testbit x n), (Z.testbit y n), (Z.testbit z n); reflexivity. Qed.
Lemma low_F2 x y z : low (F2 x y z) = rfc_G (low x) (low y) (low z).
Proof. bits. destruct (n <? 32), (Z.testbit x n), (Z.testbit y n), (Z.testbit z n); reflexivity. Qed.
Lemma low_F3 x y z : low (F3 x y z) = rfc_H (low x) (low y) (low z).
Proof. bits. destruct (n <? 32), (Z.testbit x n), (Z.testbit y n), (Z.testbit z n); reflexivity. Qed.
Lemma low_F4 x y z : low (F4 x y z) = rfc_I (low x) (low y) (low z).
Proof.
  bits. destruct (Z.ltb_spec n 32) as [A|A]; [rewrite (proj2 (Z.ltb_lt n 64)) by lia|]; cbn [andb orb xorb]; destruct (Z.testbit x n), (Z.testbit y n), (Z.testbit z n); reflexivity.
Qed.

Lemma disjoint_lor a b k : 0 <= k -> a mod 2 ^ k = 0 -> 0 <= b < 2 ^ k -> Z.lor a b = a + b.
Proof.
  intros K A B. assert (L : Z.land a b = 0).
  { apply Z.bits_inj'. intros n N. rewrite Z.land_spec, Z.bits_0. destruct (Z.lt_ge_cases n k).
    - rewrite <- (Z.mod_pow2_bits_low a k n), A, Z.bits_0 by lia. reflexivity.
    - rewrite <- (Z.mod_small b (2 ^ k)), (Z.mod_pow2_bits_high b k n) by lia. apply andb_false_r. }
  rewrite Z.add_nocarry_lxor by exact L. symmetry. apply Z.lxor_lor. exact L.
Qed.
Lemma mod_mod_pow x a b : 0 <= a <= b -> (x mod 2 ^ b) mod 2 ^ a = x mod 2 ^ a.
Proof.
  intros H. replace (2 ^ b) with (2 ^ a * 2 ^ (b - a)) by (rewrite <- Z.pow_add_r by lia; f_equal; lia). pose proof (Z.pow_pos_nonneg 2 a ltac:(lia) ltac:(lia)). pose proof (Z.pow_pos_nonneg 2 (b - a) ltac:(lia) ltac:(lia)).
  rewrite Z.rem_mul_r by lia. rewrite Z.mul_comm, Z.mod_add by lia. apply Z.mod_mod. lia.
Qed.
Lemma low_S64 x s : 0 < s < 32 -> low (S64 x s) = rotl (low x) s.
Proof.
  intros H. unfold S64, rotl. change 0xFFFFFFFF with (Z.ones 32). rewrite Z.land_ones, Z.shiftr_div_pow2, Z.shiftl_mul_pow2 by lia. fold (low x). unfold w64.
  pose proof (Z.pow_pos_nonneg 2 s ltac:(lia) ltac:(lia)) as PS. pose proof (Z.pow_pos_nonneg 2 (32 - s) ltac:(lia) ltac:(lia)) as PT.
  assert (LX : 0 <= low x < 2 ^ 32) by (apply Z.mod_pos_bound; lia). assert (E32 : 2 ^ 32 = 2 ^ (32 - s) * 2 ^ s) by (rewrite <- Z.pow_add_r by lia; f_equal; lia).
  assert (QB : 0 <= low x / 2 ^ (32 - s) < 2 ^ s) by (split; [apply Z.div_pos; lia|apply Z.div_lt_upper_bound; lia]).
  rewrite (disjoint_lor _ _ s) by (try lia; rewrite (mod_mod_pow _ s 64) by lia; apply Z.mod_mul; lia).
  unfold low at 1. rewrite Zplus_mod, (mod_mod_pow _ 32 64) by lia.
  assert (EX : (x * 2 ^ s) mod 2 ^ 32 = (low x * 2 ^ s) mod 2 ^ 32) by (unfold low; rewrite Z.mul_mod_idemp_l by lia; reflexivity). rewrite EX.
  assert (EM : (low x * 2 ^ s) mod 2 ^ 32 = (low x mod 2 ^ (32 - s)) * 2 ^ s) by (rewrite E32; apply Z.mul_mod_distr_r; lia). rewrite EM.
  assert (0 <= low x mod 2 ^ (32 - s) <= 2 ^ (32 - s) - 1) by (pose proof (Z.mod_pos_bound (low x) (2 ^ (32 - s)) PT); lia).
  rewrite (Z.mod_small (low x / _)) by nia. apply Z.mod_small. nia.
Qed.

Lemma low_w64 x : low (w64 x) = low x.
Proof. apply mod_mod_pow. lia. Qed.
Lemma low_add x y : low (x + y) = (low x + low y) mod 2 ^ 32.
Proof. apply Zplus_mod. Qed.
Lemma low_sum x y u v : (low x + low y + u + v) mod 2 ^ 32 = low (x + (y + u + v)).
Proof.
  unfold low. rewrite (Z.mod_eq x), (Z.mod_eq y) by lia. replace (x - 2 ^ 32 * (x / 2 ^ 32) + (y - 2 ^ 32 * (y / 2 ^ 32)) + u + v) with (x + (y + u + v) + (- (x / 2 ^ 32) - y / 2 ^ 32) * 2 ^ 32) by ring. apply Z.mod_add. lia.
Qed.
Lemma low_P F f X r p : (forall x y z, low (F x y z) = f (low x) (low y) (low z)) -> 0 < snd (fst p) < 32 -> low4 (P F X r p) = rfc_op f X (low4 r) p.
Proof.
  intros FF S. destruct r as [[[a b] c] d], p as [[k s] t]. cbn [fst snd] in S. unfold P, rfc_op, low4. f_equal. f_equal. f_equal.
  rewrite low_w64, low_add, low_S64, low_w64 by exact S. rewrite Z.add_comm. f_equal. f_equal. f_equal.
  rewrite <- FF. symmetry. apply low_sum.
Qed.
Lemma low_fold F f X l : (forall x y z, low (F x y z) = f (low x) (low y) (low z)) -> (forall p, In p l -> 0 < snd (fst p) < 32) ->
  forall r, low4 (fold_left (P F X) l r) = fold_left (rfc_op f X) l (low4 r).
Proof.
  intros FF. induction l as [|p l IH]; intros S r; [reflexivity|]. cbn [fold_left]. rewrite IH by (intros q Q; apply S; right; exact Q). f_equal. apply low_P; [exact FF|apply S; left; reflexivity].
Qed.
Lemma steps_rfc : steps1 = rfc_ops 0 (fun i => i) [7; 12; 17; 22] /\ steps2 = rfc_ops 16 (fun i => 5 * i + 1)%nat [5; 9; 14; 20] /\
  steps3 = rfc_ops 32 (fun i => 3 * i + 5)%nat [4; 11; 16; 23] /\ steps4 = rfc_ops 48 (fun i => 7 * i)%nat [6; 10; 15; 21].
Proof. repeat split; vm_compute; reflexivity. Qed.
Lemma steps_shift p : In p steps1 \/ In p steps2 \/ In p steps3 \/ In p steps4 -> 0 < snd (fst p) < 32.
Proof.
  assert (A : forallb (fun p : nat * Z * Z => (0 <? snd (fst p)) && (snd (fst p) <? 32)) (steps1 ++ steps2 ++ steps3 ++ steps4) = true) by (vm_compute; reflexivity).
  rewrite forallb_forall in A. intros I. specialize (A p). rewrite !in_app_iff in A. specialize (A I). apply andb_prop in A as [B C]. apply Z.ltb_lt in B. apply Z.ltb_lt in C. lia.
Qed.
Lemma low_process st data X : get_words data = X -> low4 (md5_process st data) = rfc_block (low4 st) X.
Proof.
  intros <-. unfold md5_process, rfc_block. destruct steps_rfc as (<- & <- & <- & <-).
  rewrite <- (low_fold F1 rfc_F _ steps1 low_F1), <- (low_fold F2 rfc_G _ steps2 low_F2), <- (low_fold F3 rfc_H _ steps3 low_F3), <- (low_fold F4 rfc_I _ steps4 low_F4) by (intros p I; apply steps_shift; auto).
  destruct st as [[[a0 b0] c0] d0]. destruct (fold_left _ steps4 _) as [[[a b] c] d]. unfold low4. rewrite !low_w64, !low_add. reflexivity.
Qed.

(** ** Bytes *)
Lemma word4 a b c d : byte a -> byte b -> byte c -> byte d ->
  Z.lor (Z.lor (Z.lor a (Z.shiftl b 8)) (Z.shiftl c 16)) (Z.shiftl d 24) = of_bytes [a; b; c; d].
Proof.
  unfold byte. intros A B C D. rewrite !Z.shiftl_mul_pow2 by lia. cbn [of_bytes].
  rewrite (Z.lor_comm a), (disjoint_lor _ a 8) by (try lia; apply Z.mod_mul; lia). rewrite (Z.lor_comm (b * 2 ^ 8 + a)), (disjoint_lor (c * 2 ^ 16) (b * 2 ^ 8 + a) 16) by (try lia; apply Z.mod_mul; lia).
  rewrite (Z.lor_comm (c * 2 ^ 16 + _)), (disjoint_lor (d * 2 ^ 24) _ 24) by (try lia; apply Z.mod_mul; lia). lia.
Qed.
Lemma words_pieces n : forall m, length m = (4 * n)%nat -> Forall byte m -> map (fun k => get_word m (4 * k)) (seq 0 n) = map of_bytes (pieces 4 n m).
Proof.
  induction n as [|n IH]; intros m L B; [reflexivity|]. do 4 (destruct m as [|? m]; [cbn [length] in L; lia|]). do 4 (apply Forall_cons_iff in B as [? B]).
  cbn [seq map pieces firstn skipn]. f_equal.
  - unfold get_word. cbn [Nat.mul Nat.add nth]. apply word4; assumption.
  - rewrite <- seq_shift, map_map, <- (IH m) by (cbn [length] in L; lia || exact B). apply map_ext. intros k. replace (4 * S k)%nat with (S (S (S (S (4 * k))))) by lia. reflexivity.
Qed.
Definition blk (r : regs) (b : list Z) : regs := rfc_block r (map of_bytes (pieces 4 16 b)).
Lemma process_blk st data : length data = 64%nat -> Forall byte data -> low4 (md5_process st data) = blk (low4 st) data.
Proof. intros L B. apply low_process. apply (words_pieces 16 data L B). Qed.

Lemma to_bytes_app a b : forall x, to_bytes (a + b) x = to_bytes a x ++ to_bytes b (x / 256 ^ Z.of_nat a).
Proof.
  induction a as [|a IH]; intros x; [cbn [Nat.add to_bytes app Z.of_nat]; rewrite Z.pow_0_r, Z.div_1_r; reflexivity|]. cbn [Nat.add to_bytes app]. rewrite IH. f_equal. f_equal. f_equal.
  rewrite Nat2Z.inj_succ, Z.pow_succ_r, Z.div_div by lia. reflexivity.
Qed.
Lemma to_bytes_mod n : forall x, to_bytes n (x mod 256 ^ Z.of_nat n) = to_bytes n x.
Proof.
  induction n as [|n IH]; intros x; [reflexivity|]. cbn [to_bytes]. rewrite Nat2Z.inj_succ, Z.pow_succ_r by lia. assert (0 < 256 ^ Z.of_nat n) by (apply Z.pow_pos_nonneg; lia). rewrite Z.rem_mul_r by lia.
  rewrite (Z.mul_comm 256), Z.mod_add, Z.mod_mod, Z.div_add, (Z.div_small (x mod 256)) by (try lia; apply Z.mod_pos_bound; lia). rewrite Z.add_0_l, IH. reflexivity.
Qed.
Lemma put_word_bytes n : put_word n = to_bytes 4 n.
Proof. unfold put_word. cbn [map to_bytes]. rewrite !Z.shiftr_div_pow2 by lia. cbn [Z.mul Pos.mul]. rewrite Z.div_1_r. rewrite !Z.div_div by lia. reflexivity. Qed.
Lemma put_word_low n : put_word n = to_bytes 4 (low n).
Proof. rewrite put_word_bytes. symmetry. apply (to_bytes_mod 4). Qed.
Lemma to_bytes_byte n : forall x, Forall byte (to_bytes n x).
Proof. induction n as [|n IH]; intros x; constructor; [unfold byte; apply Z.mod_pos_bound; lia|apply IH]. Qed.
Lemma to_bytes_length n : forall x, length (to_bytes n x) = n.
Proof. induction n as [|n IH]; intros x; cbn [to_bytes length]; [reflexivity|rewrite IH; reflexivity]. Qed.

(** ** Blocks *)
Definition run (r : regs) (m : list Z) : regs := fold_left blk (pieces 64 (length m / 64) m) r.
Lemma pieces_app k : forall n (a b : list Z), length a = (64 * k)%nat -> pieces 64 (k + n) (a ++ b) = pieces 64 k a ++ pieces 64 n b.
Proof.
  induction k as [|k IH]; intros n a b L; [destruct a; [reflexivity|cbn [length] in L; lia]|]. cbn [Nat.add pieces app]. rewrite firstn_app, skipn_app. replace (64 - length a)%nat with 0%nat by lia. rewrite firstn_O, skipn_O, app_nil_r. f_equal. apply IH. rewrite skipn_length. lia.
Qed.
Lemma run_app r a b k : length a = (64 * k)%nat -> run r (a ++ b) = run (run r a) b.
Proof.
  intros L. unfold run. rewrite app_length, L. rewrite (Nat.mul_comm 64 k), Nat.div_add_l, Nat.div_mul by lia. rewrite pieces_app by lia. apply fold_left_app.
Qed.
Lemma run_short r l : (length l < 64)%nat -> run r l = r.
Proof. intros L. unfold run. rewrite Nat.div_small by exact L. reflexivity. Qed.
Lemma run_one r l : length l = 64%nat -> run r l = blk r l.
Proof. intros L. unfold run. rewrite L. change (64 / 64)%nat with 1%nat. cbn [pieces fold_left]. rewrite firstn_all2 by lia. reflexivity. Qed.

Lemma whole_ok n : forall st x, (length x <= n)%nat -> Forall byte x ->
  exists a rest st', whole_blocks n st x = (st', rest) /\ x = a ++ rest /\ (exists k, length a = (64 * k)%nat) /\ (length rest < 64)%nat /\ low4 st' = run (low4 st) a.
Proof.
  induction n as [|n IH]; intros st x L B; cbn [whole_blocks]; [exists [], x, st; repeat split; auto; [exists 0%nat; reflexivity|lia]|].
  destruct (Nat.leb_spec 64 (length x)) as [X|X]; [|exists [], x, st; repeat split; auto; exists 0%nat; reflexivity].
  pose proof (firstn_skipn 64 x) as SP. assert (L1 : length (firstn 64 x) = 64%nat) by (rewrite firstn_length; lia). assert (BB : Forall byte (firstn 64 x) /\ Forall byte (skipn 64 x)) by (rewrite <- Forall_app, SP; exact B). destruct BB as [B1 B2].
  destruct (IH (md5_process st (firstn 64 x)) (skipn 64 x)) as (a & rest & st' & W & E & (k & K) & R & LS); [rewrite skipn_length; lia|exact B2|].
  exists (firstn 64 x ++ a), rest, st'. split; [exact W|]. split; [rewrite <- app_assoc, <- E; symmetry; exact SP|]. split; [exists (S k); rewrite app_length; lia|]. split; [exact R|].
  rewrite (run_app _ _ _ 1) by lia. rewrite LS, process_blk, (run_one _ (firstn 64 x)) by assumption. reflexivity.
Qed.

(** ** The context after a message *)
Record inv (ctx : md5_context) (m : list Z) : Prop := mkinv {
  i_split : exists a l, m = a ++ l /\ (exists k, length a = (64 * k)%nat) /\ (length l < 64)%nat /\ low4 (state ctx) = run rfc_start a /\ firstn (length l) (buffer ctx) = l;
  i_buf : length (buffer ctx) = 64%nat;
  i_t0 : total0 ctx = Z.of_nat (length m) mod 2 ^ 32;
  i_t1 : total1 ctx = (Z.of_nat (length m) / 2 ^ 32) mod 2 ^ 64 }.

Lemma starts_inv junk : length junk = 64%nat -> inv (md5_starts junk) [].
Proof. intros L. split; [|exact L|reflexivity|reflexivity]. exists [], []. repeat split; auto; [exists 0%nat; reflexivity|cbn; lia]. Qed.

Lemma used_len ctx m a l : inv ctx m -> m = a ++ l -> (exists k, length a = (64 * k)%nat) -> (length l < 64)%nat -> Z.land (total0 ctx) 0x3F = Z.of_nat (length l).
Proof.
  intros I E (k & K) L. change 0x3F with (Z.ones 6). rewrite Z.land_ones, (i_t0 _ _ I), (mod_mod_pow _ 6 32) by lia. rewrite E, app_length, K. change (2 ^ 6) with 64.
  replace (Z.of_nat (64 * k + length l)) with (Z.of_nat (length l) + Z.of_nat k * 64) by lia. rewrite Z.mod_add by lia. apply Z.mod_small. lia.
Qed.

Lemma update_inv ctx m x : inv ctx m -> Forall byte m -> Forall byte x -> Z.of_nat (length x) < 2 ^ 31 -> inv (md5_update ctx x) (m ++ x).
Proof.
  intros I BM BX LX. unfold md5_update. destruct (Nat.leb_spec (length x) 0) as [Z0|Z0]; [destruct x; [rewrite app_nil_r; exact I|cbn [length] in Z0; lia]|].
  destruct (i_split _ _ I) as (a & l & E & K & LL & ST & BF). rewrite (used_len _ _ _ _ I E K LL), Nat2Z.id. pose proof (i_buf _ _ I) as LB. destruct K as (k & K).
  assert (BL : Forall byte l) by (rewrite E in BM; apply Forall_app in BM; apply BM).
  set (t0 := Z.land _ 0xFFFFFFFF). set (t1 := if t0 <? _ then _ else _).
  assert (T0 : t0 = Z.of_nat (length (m ++ x)) mod 2 ^ 32).
  { unfold t0. change 0xFFFFFFFF with (Z.ones 32). rewrite Z.land_ones by lia. unfold w64. rewrite (mod_mod_pow _ 32 64), (i_t0 _ _ I), app_length, Nat2Z.inj_add by lia. apply Z.add_mod_idemp_l. lia. }
  assert (T1 : t1 = (Z.of_nat (length (m ++ x)) / 2 ^ 32) mod 2 ^ 64).
  { unfold t1. rewrite T0, (i_t1 _ _ I). rewrite app_length, Nat2Z.inj_add. set (u := Z.of_nat (length m)). set (v := Z.of_nat (length x)) in *. unfold w64.
    pose proof (Z.div_mod u (2 ^ 32) ltac:(lia)) as DM. pose proof (Z.mod_pos_bound u (2 ^ 32) ltac:(lia)) as MB. set (q := u / 2 ^ 32) in *. set (r := u mod 2 ^ 32) in *. rewrite DM.
    replace (2 ^ 32 * q + r + v) with ((r + v) + q * 2 ^ 32) by ring. rewrite Z.mod_add, Z.div_add by lia. assert (0 <= v) by (unfold v; lia).
    destruct (Z.lt_ge_cases (r + v) (2 ^ 32)) as [C|C].
    - rewrite (Z.mod_small (r + v)), (Z.div_small (r + v)) by lia. rewrite (proj2 (Z.ltb_ge _ _)) by lia. f_equal; lia.
    - assert (M1 : (r + v) mod 2 ^ 32 = r + v - 2 ^ 32) by (symmetry; apply Z.mod_unique with 1; lia). assert (D1 : (r + v) / 2 ^ 32 = 1) by (symmetry; apply Z.div_unique with (r + v - 2 ^ 32); lia). rewrite M1, D1, (proj2 (Z.ltb_lt _ _)) by lia. rewrite Z.add_mod_idemp_l by lia. f_equal; lia. }
  destruct (negb (length l =? 0)%nat && (64 - length l <=? length x)%nat) eqn:C.
  - apply andb_prop in C as [_ C]. apply Nat.leb_le in C. rewrite BF. set (fl := (64 - length l)%nat) in *. set (b := l ++ firstn fl x).
    assert (LBB : length b = 64%nat) by (unfold b; rewrite app_length, firstn_length; lia). pose proof (firstn_skipn fl x) as SP. assert (BB : Forall byte (firstn fl x) /\ Forall byte (skipn fl x)) by (rewrite <- Forall_app, SP; exact BX). destruct BB as [B1 B2].
    destruct (whole_ok (length (skipn fl x)) (md5_process (state ctx) b) (skipn fl x) (le_n _) B2) as (a' & rest & st' & W & E' & (k' & K') & R & LS). rewrite W.
    split; [|cbn [buffer]|exact T0|exact T1].
    + exists (a ++ b ++ a'), rest. cbn [state buffer]. split; [rewrite E; unfold b; rewrite <- !app_assoc, <- E', SP; reflexivity|]. split; [exists (k + 1 + k')%nat; rewrite !app_length; lia|]. split; [exact R|]. split.
      * rewrite LS, process_blk by (try exact LBB; unfold b; apply Forall_app; auto). rewrite ST, (run_app _ a _ k K), (run_app _ b _ 1), (run_one _ b) by (exact LBB || lia). reflexivity.
      * destruct (Nat.ltb_spec 0 (length rest)) as [X|X]; [|destruct rest; [reflexivity|cbn [length] in X; lia]]. cbn [firstn app Nat.add]. rewrite firstn_app, Nat.sub_diag, firstn_O, app_nil_r, firstn_all. reflexivity.
    + destruct (Nat.ltb_spec 0 (length rest)); [|exact LBB]. cbn [firstn app Nat.add]. rewrite app_length, skipn_length. lia.
  - destruct (whole_ok (length x) (state ctx) x (le_n _) BX) as (a' & rest & st' & W & E' & (k' & K') & R & LS). rewrite W.
    split; [|cbn [buffer]|exact T0|exact T1].
    + destruct (length l =? 0)%nat eqn:L0; cbn [negb andb] in C.
      * apply Nat.eqb_eq in L0. destruct l; [|discriminate]. rewrite app_nil_r in E. exists (a ++ a'), rest. cbn [state buffer length]. split; [rewrite E, E', app_assoc; reflexivity|]. split; [exists (k + k')%nat; rewrite app_length; lia|]. split; [exact R|]. split; [rewrite LS, ST, (run_app _ a _ k K); reflexivity|].
        destruct (Nat.ltb_spec 0 (length rest)) as [X|X]; [|destruct rest; [reflexivity|cbn [length] in X; lia]]. cbn [firstn app Nat.add]. rewrite firstn_app, Nat.sub_diag, firstn_O, app_nil_r, firstn_all. reflexivity.
      * apply Nat.leb_gt in C. assert (k' = 0%nat) as -> by (assert (length x = length a' + length rest)%nat by (rewrite E' at 1; apply app_length); lia). destruct a' as [|? ?]; [|cbn [length] in K'; lia]. cbn [app] in E'. subst rest.
        exists a, (l ++ x). cbn [state buffer]. split; [rewrite E, app_assoc; reflexivity|]. split; [exists k; exact K|]. split; [rewrite app_length; lia|]. split; [rewrite LS, ST; reflexivity|].
        rewrite (proj2 (Nat.ltb_lt 0 (length x))) by lia. rewrite BF, app_assoc. rewrite firstn_app, Nat.sub_diag, firstn_O, app_nil_r, firstn_all. reflexivity.
    + destruct (Nat.ltb_spec 0 (length rest)); [|exact LB]. rewrite !app_length, firstn_length, skipn_length. apply andb_false_iff in C.
      assert (LE : (length l + length rest <= 64)%nat). { destruct C as [C|C]; [apply negb_false_iff, Nat.eqb_eq in C; lia|]. apply Nat.leb_gt in C. assert (length x = length a' + length rest)%nat by (rewrite E' at 1; apply app_length). lia. } lia.
Qed.

Lemma length_field t0 t1 L : t0 = L mod 2 ^ 32 -> t1 = (L / 2 ^ 32) mod 2 ^ 64 -> 0 <= L ->
  put_word (w64 (Z.shiftl t0 3)) ++ put_word (Z.lor (Z.shiftr t0 29) (w64 (Z.shiftl t1 3))) = to_bytes 8 (8 * L).
Proof.
  intros T0 T1 L0. assert (B0 : 0 <= t0 < 2 ^ 32) by (rewrite T0; apply Z.mod_pos_bound; lia). pose proof (Z.div_mod L (2 ^ 32) ltac:(lia)) as DM. rewrite <- T0 in DM. set (q := L / 2 ^ 32) in *.
  rewrite Z.shiftr_div_pow2, !Z.shiftl_mul_pow2 by lia. change (2 ^ 3) with 8. change 8%nat with (4 + 4)%nat. rewrite to_bytes_app. change (256 ^ Z.of_nat 4) with (2 ^ 32).
  assert (B1 : 0 <= t0 / 2 ^ 29 < 2 ^ 3) by (split; [apply Z.div_pos; lia|apply Z.div_lt_upper_bound; lia]).
  rewrite Z.lor_comm, (disjoint_lor _ _ 3) by (try lia; unfold w64; rewrite (mod_mod_pow _ 3 64) by lia; apply Z.mod_mul; lia).
  rewrite !put_word_low. rewrite <- (to_bytes_mod 4 (8 * L)), <- (to_bytes_mod 4 (8 * L / 2 ^ 32)). change (256 ^ Z.of_nat 4) with (2 ^ 32). unfold low, w64. f_equal; f_equal.
  - rewrite (mod_mod_pow _ 32 64) by lia. rewrite DM. replace (8 * (2 ^ 32 * q + t0)) with (t0 * 8 + (8 * q) * 2 ^ 32) by ring. symmetry. apply Z.mod_add. lia.
  - rewrite Zplus_mod, (mod_mod_pow _ 32 64) by lia. rewrite <- Zplus_mod. rewrite T1.
    assert (E : 8 * L / 2 ^ 32 = t0 / 2 ^ 29 + q * 8). { rewrite DM. replace (8 * (2 ^ 32 * q + t0)) with (8 * t0 + (q * 8) * 2 ^ 32) by ring. rewrite Z.div_add by lia. f_equal. replace (2 ^ 32) with (8 * 2 ^ 29) by lia. apply Z.div_mul_cancel_l; lia. }
    rewrite E. rewrite Z.add_comm. rewrite <- (Z.add_mod_idemp_r (t0 / 2 ^ 29)) by lia. rewrite <- (Z.mul_mod_idemp_l (q mod 2 ^ 64)), (mod_mod_pow _ 32 64) by lia. rewrite Z.mul_mod_idemp_l, Z.add_mod_idemp_r by lia. reflexivity.
Qed.

Lemma finish_digest ctx m : inv ctx m -> Forall byte m -> md5_finish ctx = rfc_digest m.
Proof.
  intros I BM. destruct (i_split _ _ I) as (a & l & E & K & LL & _). pose proof (used_len _ _ _ _ I E K LL) as U. unfold md5_finish. rewrite (length_field _ _ _ (i_t0 _ _ I) (i_t1 _ _ I)) by lia. rewrite U.
  set (padn := if _ <? 56 then _ else _). assert (LM : (length m mod 64 = length l)%nat) by (destruct K as (k & K); rewrite E, app_length, K, Nat.add_comm, Nat.mul_comm, Nat.mod_add by lia; apply Nat.mod_small; exact LL).
  assert (PN : firstn (Z.to_nat padn) md5_padding = 0x80 :: repeat 0 ((119 - length m mod 64) mod 64)).
  { assert (Z.to_nat padn = S ((119 - length l) mod 64) /\ (119 - length l) mod 64 <= 63)%nat as [-> R].
    { split; [|pose proof (Nat.mod_upper_bound (119 - length l) 64); lia]. unfold padn. destruct (Z.ltb_spec (Z.of_nat (length l)) 56).
      - replace (119 - length l)%nat with (55 - length l + 1 * 64)%nat by lia. rewrite Nat.mod_add, Nat.mod_small by lia. lia.
      - rewrite Nat.mod_small by lia. lia. }
    rewrite LM. unfold md5_padding. cbn [firstn]. f_equal. revert R. generalize ((119 - length l) mod 64)%nat. intros n. generalize 63%nat. intros w. revert n. induction w as [|w IH]; intros n R; [replace n with 0%nat by lia; reflexivity|]. destruct n; [reflexivity|]. cbn [repeat firstn]. f_equal. apply IH. lia. }
  rewrite PN. set (pd := 0x80 :: _). assert (BP : Forall byte pd) by (constructor; [unfold byte; lia|apply Forall_forall; intros y Y; apply repeat_spec in Y; subst; unfold byte; lia]).
  assert (LP : (length pd <= 64)%nat) by (unfold pd; cbn [length]; rewrite repeat_length; pose proof (Nat.mod_upper_bound (119 - length m mod 64) 64); lia).
  pose proof (update_inv _ _ pd I BM BP ltac:(lia)) as I1. assert (BM1 : Forall byte (m ++ pd)) by (apply Forall_app; auto).
  pose proof (update_inv _ _ (to_bytes 8 (8 * Z.of_nat (length m))) I1 BM1 (to_bytes_byte _ _) ltac:(rewrite to_bytes_length; lia)) as I2.
  assert (EP : (m ++ pd) ++ to_bytes 8 (8 * Z.of_nat (length m)) = padded m) by (unfold padded, pd; rewrite <- app_assoc; reflexivity). rewrite EP in I2.
  destruct (i_split _ _ I2) as (a2 & l2 & E2 & (k2 & K2) & LL2 & ST2 & _). destruct (state _) as [[[x y] z] t].
  assert (R : run rfc_start a2 = run rfc_start (padded m)) by (rewrite E2, (run_app _ _ _ k2 K2); symmetry; apply run_short; exact LL2). rewrite R in ST2.
  unfold rfc_digest. fold blk. change (fold_left (fun (r : Z * Z * Z * Z) (b : list Z) => rfc_block r (map of_bytes (pieces 4 16 b))) (pieces 64 (length (padded m) / 64) (padded m)) rfc_start) with (run rfc_start (padded m)).
  rewrite <- ST2. unfold low4. rewrite !put_word_low. reflexivity.
Qed.
Lemma updates_inv ps : forall ctx m, inv ctx m -> Forall byte m -> (forall x, In x ps -> Forall byte x /\ Z.of_nat (length x) < 2 ^ 31) ->
  inv (fold_left md5_update ps ctx) (m ++ concat ps) /\ Forall byte (m ++ concat ps).
Proof.
  induction ps as [|x ps IH]; intros ctx m I B H; cbn [fold_left concat]; [rewrite app_nil_r; auto|]. destruct (H x (or_introl eq_refl)) as [BX LX]. rewrite app_assoc. apply IH; [apply update_inv; auto|apply Forall_app; auto|intros y Y; apply H; right; exact Y].
Qed.
