(** Arithmetic facts about handles. *)
From Coq Require Import ZArith Bool Lia.
From Verif Require Import Handles.
Open Scope Z_scope.

Lemma land_ones_mod a n : 0 <= n -> Z.land a (2 ^ n - 1) = a mod 2 ^ n.
Proof. intros. rewrite <- Z.land_ones by lia. f_equal. rewrite Z.ones_equiv. lia. Qed.


Lemma lor_add_disjoint a b n : 0 <= n -> 0 <= a < 2 ^ n -> Z.lor a (b * 2 ^ n) = a + b * 2 ^ n.
Proof.
  intros Hn Ha.
  assert (Hl : Z.land a (b * 2 ^ n) = 0).
  { apply Z.bits_inj'. intros k Hk. rewrite Z.land_spec, Z.bits_0.
    destruct (Z.ltb_spec k n) as [L|L].
    - rewrite Z.mul_pow2_bits_low by lia. apply andb_false_r.
    - rewrite <- (Z.mod_small a (2 ^ n)) by lia. rewrite Z.mod_pow2_bits_high by lia. reflexivity. }
  rewrite <- Z.lxor_lor by exact Hl. symmetry. apply Z.add_nocarry_lxor. exact Hl.
Qed.

Lemma make_rnd_sum page rec idx :
  0 <= page < 4096 -> 0 <= rec < 512 -> 0 <= idx < 1024 ->
  make_rnd_handle page rec idx = idx + rec * 2 ^ 10 + page * 2 ^ 19.
Proof.
  intros. unfold make_rnd_handle.
  change 0x3FF with (2 ^ 10 - 1). change 0x1FF with (2 ^ 9 - 1). change 0xFFF with (2 ^ 12 - 1).
  rewrite !land_ones_mod by lia. rewrite !Z.mod_small by lia.
  rewrite !Z.shiftl_mul_pow2 by lia.
  rewrite (lor_add_disjoint (rec * 2 ^ 10) page 19) by lia.
  replace (rec * 2 ^ 10 + page * 2 ^ 19) with ((rec + page * 2 ^ 9) * 2 ^ 10) by lia.
  rewrite lor_add_disjoint by lia. lia.
Qed.

Lemma rnd_range page rec idx :
  0 <= page < 4096 -> 0 <= rec < 512 -> 0 <= idx < 1024 ->
  0 <= make_rnd_handle page rec idx < 2 ^ 31.
Proof. intros. rewrite make_rnd_sum by lia. lia. Qed.

Lemma rnd_index_any page rec idx :
  0 <= page < 4096 -> 0 <= rec < 512 -> 0 <= idx < 1024 ->
  index_from_handle false (make_rnd_handle page rec idx) = idx.
Proof.
  intros. rewrite make_rnd_sum by lia. unfold index_from_handle. rewrite Z.land_comm.
  change 0x3FF with (2 ^ 10 - 1). rewrite land_ones_mod by lia.
  replace (idx + rec * 2 ^ 10 + page * 2 ^ 19) with (idx + (rec + page * 2 ^ 9) * 2 ^ 10) by lia.
  rewrite Z.mod_add by lia. apply Z.mod_small. lia.
Qed.

Lemma rnd_index_seq page rec idx :
  0 <= page < 4096 -> 0 <= rec < 512 -> 0 <= idx < 1024 ->
  index_from_handle true (make_rnd_handle page rec idx) = idx mod 128.
Proof.
  intros. rewrite make_rnd_sum by lia. unfold index_from_handle. rewrite Z.land_comm.
  change 0x7F with (2 ^ 7 - 1). rewrite land_ones_mod by lia.
  replace (idx + rec * 2 ^ 10 + page * 2 ^ 19) with (idx + (rec * 8 + page * 2 ^ 12) * 2 ^ 7) by lia.
  rewrite Z.mod_add by lia. reflexivity.
Qed.

Lemma rnd_record page rec idx :
  0 <= page < 4096 -> 0 <= rec < 512 -> 0 <= idx < 1024 ->
  record_from_handle (make_rnd_handle page rec idx) = rec.
Proof.
  intros. rewrite make_rnd_sum by lia. unfold record_from_handle. rewrite Z.land_comm.
  change 0x1FF with (2 ^ 9 - 1). rewrite land_ones_mod by lia. rewrite Z.shiftr_div_pow2 by lia.
  replace (idx + rec * 2 ^ 10 + page * 2 ^ 19) with (idx + (rec + page * 2 ^ 9) * 2 ^ 10) by lia.
  rewrite Z.div_add by lia. rewrite Z.div_small by lia. rewrite Z.add_0_l, Z.mod_add by lia.
  apply Z.mod_small. lia.
Qed.

Lemma rnd_page page rec idx :
  0 <= page < 4096 -> 0 <= rec < 512 -> 0 <= idx < 1024 ->
  pageno_from_handle (make_rnd_handle page rec idx) = page.
Proof.
  intros. rewrite make_rnd_sum by lia. unfold pageno_from_handle. rewrite Z.land_comm.
  change 0xFFF with (2 ^ 12 - 1). rewrite land_ones_mod by lia. rewrite Z.shiftr_div_pow2 by lia.
  rewrite Z.div_add by lia. rewrite Z.div_small by lia. apply Z.mod_small. lia.
Qed.

Lemma seq_sum c a idx :
  0 <= c < 4 -> 0 <= a < 2 ^ 22 -> 0 <= idx < 128 ->
  mk_seq_handle c a idx = idx + a * 2 ^ 7 + c * 2 ^ 29.
Proof.
  intros. unfold mk_seq_handle. change 0x3FFFFF with (2 ^ 22 - 1). rewrite land_ones_mod by lia.
  rewrite Z.mod_small by lia. rewrite !Z.shiftl_mul_pow2 by lia.
  rewrite (lor_add_disjoint (a * 2 ^ 7) c 29) by lia.
  replace (a * 2 ^ 7 + c * 2 ^ 29) with ((a + c * 2 ^ 22) * 2 ^ 7) by lia.
  rewrite lor_add_disjoint by lia. lia.
Qed.

Lemma seq_decode c a idx :
  0 <= c < 4 -> 0 <= a < 2 ^ 22 -> 0 <= idx < 128 ->
  address_from_hndl (mk_seq_handle c a idx) = a /\ cluster_from_handle (mk_seq_handle c a idx) = c /\
  index_from_handle true (mk_seq_handle c a idx) = idx /\ 0 <= mk_seq_handle c a idx < 2 ^ 31.
Proof.
  intros. rewrite seq_sum by lia. unfold address_from_hndl, cluster_from_handle, index_from_handle.
  rewrite (Z.land_comm 0x3FFFFF), (Z.land_comm 3), (Z.land_comm 0x7F).
  change 0x3FFFFF with (2 ^ 22 - 1). change 3 with (2 ^ 2 - 1). change 0x7F with (2 ^ 7 - 1).
  rewrite !land_ones_mod by lia. rewrite !Z.shiftr_div_pow2 by lia.
  split; [|split; [|split]].
  - replace (idx + a * 2 ^ 7 + c * 2 ^ 29) with (idx + (a + c * 2 ^ 22) * 2 ^ 7) by lia.
    rewrite Z.div_add by lia. rewrite Z.div_small, Z.add_0_l, Z.mod_add by lia. apply Z.mod_small. lia.
  - rewrite Z.div_add by lia. rewrite Z.div_small by lia. apply Z.mod_small. lia.
  - replace (idx + a * 2 ^ 7 + c * 2 ^ 29) with (idx + (a + c * 2 ^ 22) * 2 ^ 7) by lia.
    rewrite Z.mod_add by lia. apply Z.mod_small. lia.
  - lia.
Qed.

Lemma seq_vintage_roundtrip k idx :
  0 <= k < 2 ^ 22 -> 0 <= idx < 128 ->
  address_from_handle true (make_seq_handle true (30 * k + 1) idx) = 30 * k + 1 /\
  index_from_handle true (make_seq_handle true (30 * k + 1) idx) = idx.
Proof.
  intros. unfold make_seq_handle. cbv zeta. rewrite Z.shiftr_div_pow2 by lia.
  replace ((30 * k + 1 - 1) / 2 ^ 1) with (15 * k) by (replace (30 * k + 1 - 1) with (15 * k * 2 ^ 1) by lia; rewrite Z.div_mul; lia).
  replace (15 * k / 15) with k by (rewrite Z.mul_comm, Z.div_mul; lia).
  destruct (seq_decode 0 k idx) as (A & B & C & D); [lia|lia|lia|].
  split; [|exact C]. unfold address_from_handle. rewrite A, B. rewrite Z.shiftl_0_r. lia.
Qed.

(** Word offsets (origin 0) at which the library places sequential records. *)
Definition seq_aligned (w : Z) : Prop :=
  0 <= w < 2 ^ 29 /\
  (w mod 2 = 0) /\ (2 ^ 23 <= w -> w mod 8 = 0) /\ (2 ^ 25 <= w -> w mod 32 = 0) /\ (2 ^ 27 <= w -> w mod 128 = 0).

Lemma seq_shape q c a idx :
  0 <= c < 4 -> 0 <= q < 2 ^ 22 -> 0 <= idx < 128 -> a = q * 2 ^ (2 * c) ->
  address_from_handle false (mk_seq_handle c (Z.shiftr a (2 * c)) idx) = 2 * a + 1 /\
  index_from_handle true (mk_seq_handle c (Z.shiftr a (2 * c)) idx) = idx /\
  0 <= mk_seq_handle c (Z.shiftr a (2 * c)) idx < 2 ^ 31.
Proof.
  intros Hc Hq Hi ->. rewrite Z.shiftr_div_pow2 by lia.
  assert (0 < 2 ^ (2 * c)) by (apply Z.pow_pos_nonneg; lia).
  rewrite Z.div_mul by lia.
  destruct (seq_decode c q idx Hc Hq Hi) as (A & B & C & D).
  split; [|split; assumption]. unfold address_from_handle. rewrite A, B.
  rewrite Z.shiftl_mul_pow2 by lia. lia.
Qed.

Lemma half w : w mod 2 = 0 -> Z.shiftr (w + 1 - 1) 1 = w / 2.
Proof. intros. rewrite Z.shiftr_div_pow2 by lia. f_equal. lia. Qed.

Lemma div_exact_mul w d : 0 < d -> w mod d = 0 -> w = w / d * d.
Proof. intros Hd Hm. pose proof (Z.div_mod w d). lia. Qed.

Lemma seq_roundtrip w idx :
  seq_aligned w -> 0 <= idx < 128 ->
  address_from_handle false (make_seq_handle false (w + 1) idx) = w + 1 /\
  index_from_handle true (make_seq_handle false (w + 1) idx) = idx /\
  0 <= make_seq_handle false (w + 1) idx < 2 ^ 31.
Proof.
  intros (R & E2 & E8 & E32 & E128) Hi. unfold make_seq_handle. cbv zeta. rewrite half by exact E2.
  change 0x4000000 with (2 ^ 26). change 0x1000000 with (2 ^ 24). change 0x400000 with (2 ^ 22).
  pose proof (div_exact_mul w 2 ltac:(lia) E2) as W.
  destruct (Z.leb_spec (2 ^ 26) (w / 2)).
  { pose proof (div_exact_mul w 128 ltac:(lia) (E128 ltac:(lia))).
    destruct (seq_shape (w / 128) 3 (w / 2) idx) as (A & B & C); try lia.
    change (2 * 3) with 6 in *. rewrite A. repeat split; try assumption; lia. }
  destruct (Z.leb_spec (2 ^ 24) (w / 2)).
  { pose proof (div_exact_mul w 32 ltac:(lia) (E32 ltac:(lia))).
    destruct (seq_shape (w / 32) 2 (w / 2) idx) as (A & B & C); try lia.
    change (2 * 2) with 4 in *. rewrite A. repeat split; try assumption; lia. }
  destruct (Z.leb_spec (2 ^ 22) (w / 2)).
  { pose proof (div_exact_mul w 8 ltac:(lia) (E8 ltac:(lia))).
    destruct (seq_shape (w / 8) 1 (w / 2) idx) as (A & B & C); try lia.
    change (2 * 1) with 2 in *. rewrite A. repeat split; try assumption; lia. }
  destruct (seq_shape (w / 2) 0 (w / 2) idx) as (A & B & C); try lia.
  change (2 * 0) with 0 in *. rewrite Z.shiftr_0_r in *. rewrite A. repeat split; try assumption; lia.
Qed.

Lemma round_up n c : 0 < c -> n <= (n + c - 1) / c * c < n + c.
Proof.
  intros. pose proof (Z.div_mod (n + c - 1) c ltac:(lia)).
  pose proof (Z.mod_pos_bound (n + c - 1) c ltac:(lia)). lia.
Qed.

Lemma mod_of_mul k c d : 0 < d -> c mod d = 0 -> 0 < c -> (k * c) mod d = 0.
Proof. intros. rewrite Z.mul_mod by lia. rewrite H0. rewrite Z.mul_0_r. apply Z.mod_0_l. lia. Qed.

Lemma round_below n c t : 0 < c -> t mod c = 0 -> n <= t -> (n + c - 1) / c * c <= t.
Proof.
  intros Hc Ht Hn. pose proof (div_exact_mul t c Hc Ht) as E.
  assert ((n + c - 1) / c <= t / c); [|nia].
  apply Z.lt_succ_r. apply Z.div_lt_upper_bound; [lia|]. nia.
Qed.

Lemma next_cluster_aligned n :
  0 <= n -> next_cluster n < 2 ^ 29 -> seq_aligned (next_cluster n) /\ n <= next_cluster n < n + 128.
Proof.
  intros Hn Hb.
  assert (Hc : next_cluster n = (n + cluster_size n - 1) / cluster_size n * cluster_size n) by reflexivity.
  unfold cluster_size in Hc. cbv zeta in Hc. rewrite Z.shiftr_div_pow2 in Hc by lia.
  pose proof (Z.div_mod n (2 ^ 18) ltac:(lia)) as DM. pose proof (Z.mod_pos_bound n (2 ^ 18) ltac:(lia)).
  unfold seq_aligned.
  destruct (Z.leb_spec 512 (n / 2 ^ 18)) in Hc.
  { pose proof (round_up n 128 ltac:(lia)) as R. rewrite <- Hc in R.
    split; [|lia]. split; [lia|]. rewrite Hc.
    repeat split; intros; apply mod_of_mul; vm_compute; congruence. }
  destruct (Z.leb_spec 128 (n / 2 ^ 18)) in Hc.
  { pose proof (round_up n 32 ltac:(lia)) as R. rewrite <- Hc in R.
    pose proof (round_below n 32 (2 ^ 27) ltac:(lia) eq_refl ltac:(lia)) as Q. rewrite <- Hc in Q.
    split; [|lia]. split; [lia|].
    split; [rewrite Hc; apply mod_of_mul; vm_compute; congruence|].
    split; [intros; rewrite Hc; apply mod_of_mul; vm_compute; congruence|].
    split; [intros; rewrite Hc; apply mod_of_mul; vm_compute; congruence|].
    intros. replace (next_cluster n) with (2 ^ 27) by lia. reflexivity. }
  destruct (Z.leb_spec 32 (n / 2 ^ 18)) in Hc.
  { pose proof (round_up n 8 ltac:(lia)) as R. rewrite <- Hc in R.
    pose proof (round_below n 8 (2 ^ 25) ltac:(lia) eq_refl ltac:(lia)) as Q. rewrite <- Hc in Q.
    split; [|lia]. split; [lia|].
    split; [rewrite Hc; apply mod_of_mul; vm_compute; congruence|].
    split; [intros; rewrite Hc; apply mod_of_mul; vm_compute; congruence|].
    split; intros; [|lia]. replace (next_cluster n) with (2 ^ 25) by lia. reflexivity. }
  pose proof (round_up n 2 ltac:(lia)) as R. rewrite <- Hc in R.
  pose proof (round_below n 2 (2 ^ 23) ltac:(lia) eq_refl ltac:(lia)) as Q. rewrite <- Hc in Q.
  split; [|lia]. split; [lia|].
  split; [rewrite Hc; apply mod_of_mul; vm_compute; congruence|].
  split; intros; [|split; lia]. replace (next_cluster n) with (2 ^ 23) by lia. reflexivity.
Qed.
