(** * Levels and their codes (convip_plus.f90)

    Properties C50 to C53. *)
From Coq Require Import ZArith List Bool Lia Reals Lra.
From Flocq Require Import Core BinarySingleNaN.
From Verif Require Import Bits BitIOFacts Flo FloatField FloatDouble Convip ConvipFacts ConvipMain ConvipBack ConvipTrip ConvipSame ConvipLevel ConvipOld.
Import ListNotations.
Open Scope Z_scope.

(** ** Specification *)

(** The kinds of level that are encoded and the values each may take. *)
Inductive level_range : Z -> Z -> Z -> Prop :=
| above_sea : level_range 0 (-20000) 100000
| sigma : level_range 1 0 1
| pressure : level_range 2 0 1100
| arbitrary : level_range 3 (-480000000) 10000000000
| above_ground : level_range 4 (-20000) 100000
| hybrid : level_range 5 0 1
| theta : level_range 6 1 200000
| depth : level_range 7 0 20000
| hours : level_range 10 0 10000000000
| index : level_range 17 1 480000000
| pressure_height : level_range 21 0 1000000.
(** A level: a kind and a number of its range. Negative numbers are no closer to
    zero than the last digit kept. *)
Definition level (k : Z) (p : f32) : Prop :=
  exists lo hi, level_range k lo hi /\ is_finite p = true /\ (IZR lo <= r32 p <= IZR hi)%R /\ (0 <= r32 p \/ r32 p <= - / 100000000000)%R.

(** The code of a level: by mode 2, or by mode 1 once mode 0 was called. The
    arguments given are not changed, whatever ip held before. *)
Definition encodes (p : f32) (k ip : Z) : Prop :=
  forall ns ip0, convip ns ip0 p k 2 = Some (ns, (ip, p, k)) /\ convip true ip0 p k 1 = Some (true, (ip, p, k)).
(** The old code: by mode 3, or by mode 1 before mode 0 was called. *)
Definition encodes_old (p : f32) (k ip : Z) : Prop :=
  forall ns ip0, convip ns ip0 p k 3 = Some (ns, (ip, p, k)) /\ convip false ip0 p k 1 = Some (false, (ip, p, k)).
(** The level a code stands for, whatever the arguments held before. *)
Definition decodes (ip : Z) (q : f32) (k : Z) : Prop :=
  forall ns p0 k0, convip ns ip p0 k0 (-1) = Some (ns, (ip, q, k)).

(** How close: 5 significant digits, less than 4 for negative numbers and for
    indices, and 11 digits after the point. *)
Definition allowance (k : Z) (v : R) : R := ((if (k =? 17) || Rlt_bool v 0 then 110 / 1000000 else 53 / 10000000) * Rabs v + / 100000000000)%R.
(** Numbers read back as the smallest of their kind. *)
Definition at_bottom (k : Z) (v w : R) : Prop :=
  (k = 6 \/ k = 17) /\ (v < 10012 / 10000)%R /\ w = 1%R \/ k = 21 /\ (v < 1003 / 10000000)%R /\ w = 0%R.

(** ** From the model to the specification *)
Lemma encodes_iff p k ip : encodes p k ip <-> to_ip true p k = Some ip.
Proof.
  unfold encodes, convip. cbn [Z.eqb Z.ltb Z.compare Pos.eqb]. split.
  - intros H. destruct (H true 0) as [A _]. destruct (to_ip true p k) as [n|]; cbn [bind] in A; congruence.
  - intros H ns ip0. rewrite H. split; reflexivity.
Qed.
Lemma encodes_old_iff p k ip : encodes_old p k ip <-> to_ip false p k = Some ip.
Proof.
  unfold encodes_old, convip. cbn [Z.eqb Z.ltb Z.compare Pos.eqb]. split.
  - intros H. destruct (H true 0) as [A _]. destruct (to_ip false p k) as [n|]; cbn [bind] in A; congruence.
  - intros H ns ip0. rewrite H. split; reflexivity.
Qed.
Lemma decodes_iff ip q k : decodes ip q k <-> from_ip ip = (q, k).
Proof.
  unfold decodes, convip. cbn [Z.eqb Z.ltb Z.compare]. split.
  - intros H. specialize (H true (f32_of 0) 0). destruct (from_ip ip) as [p' k']. congruence.
  - intros H ns p0 k0. rewrite H. reflexivity.
Qed.
Lemma decodes_fst ip k : snd (from_ip ip) = k -> decodes ip (fst (from_ip ip)) k.
Proof. intros <-. apply decodes_iff. destruct (from_ip ip). reflexivity. Qed.
Lemma level_in k p : level k p -> new_kind k /\ in_range k p /\ visible p.
Proof. intros (lo & hi & L & F & V & S). unfold new_kind, in_range. destruct L; (split; [cbn; auto 14|split; [split; [exact F|exact V]|exact S]]). Qed.
Lemma level_bounds k lo hi : level_range k lo hi -> low_of k = lo /\ top_of k = hi.
Proof. intros []; split; reflexivity. Qed.

(** ** C50: what is read back *)
Theorem c50_accuracy k p : level k p ->
  exists ip q, encodes p k ip /\ 0 <= ip < 2 ^ 28 /\ decodes ip q k /\ is_finite q = true /\
    ((Rabs (r32 q - r32 p) <= allowance k (r32 p))%R \/ at_bottom k (r32 p) (r32 q)).
Proof.
  intros L. apply level_in in L. destruct L as (K & R & S). destruct (level_ok k p K R S) as (ip & q & (TO & IP & FR & FQ) & W & _). exists ip, q. rewrite encodes_iff, decodes_iff. split; [exact TO|]. split; [exact IP|]. split; [exact FR|]. split; [exact FQ|].
  destruct (way_close k p q K R W) as [C|[(K6 & B)|B]]; [left; exact C|right; left|right; right; exact B]. split; [|exact B]. destruct K6 as [<-|[<-|[]]]; auto.
Qed.
Print Assumptions c50_accuracy.

(** The level at 850 mb. *)
Example c50_demo : level 2 (f32_of 850) /\ encodes (f32_of 850) 2 41744464 /\ exists q, decodes 41744464 q 2 /\ f32_eqb q (f32_of 850) = true.
Proof.
  split; [|split; [apply encodes_iff; vm_compute; reflexivity|eexists; split; [apply decodes_fst; vm_compute; reflexivity|vm_compute; reflexivity]]]. destruct (f32_of_ok 850 ltac:(lia)) as [A B]. exists 0, 1100. rewrite A. split; [constructor|]. split; [exact B|]. split; [lra|left; lra].
Qed.
(** A height of -1e-12 m comes back as 1e-5 m, not as a height of zero or less. *)
Theorem c50_tiny_refuted : exists p ip q, f32_ltb p (f32_of 0) = true /\ f32_ltb (lit32 (-1) 1000000) p = true /\ encodes p 0 ip /\ decodes ip q 0 /\ f32_eqb q (lit32 1 100000) = true.
Proof.
  exists (f32_div (f32_of (-1)) (f32_of 1000000000000)), 16728640. eexists. split; [vm_compute; reflexivity|]. split; [vm_compute; reflexivity|]. split; [apply encodes_iff; vm_compute; reflexivity|]. split; [apply decodes_fst; vm_compute; reflexivity|vm_compute; reflexivity].
Qed.
Print Assumptions c50_tiny_refuted.
(** Indices go up to 1e10 for the range test, but above 480000000 the code is -1,
    that of the arbitrary code -1. *)
Theorem c50_index_refuted : encodes (f32_of 480000032) 17 (-1) /\ exists q, decodes (-1) q 3 /\ f32_eqb q (f32_of (-1)) = true.
Proof. split; [apply encodes_iff; vm_compute; reflexivity|]. eexists. split; [apply decodes_fst; vm_compute; reflexivity|vm_compute; reflexivity]. Qed.
Print Assumptions c50_index_refuted.
(** Kinds without a meaning are encoded all the same: kind 16 reads back as kind
    0, and kind 8 cannot be read back. *)
Theorem c50_kind_refuted : (exists ip q, encodes (f32_of 5) 16 ip /\ 0 <= ip /\ decodes ip q 0) /\ (exists ip q, encodes (f32_of 5) 8 ip /\ 0 <= ip /\ decodes ip q (-1)).
Proof.
  split; [exists 9937184|exists 144154912]; eexists; (split; [apply encodes_iff; vm_compute; reflexivity|split; [lia|apply decodes_fst; vm_compute; reflexivity]]).
Qed.
Print Assumptions c50_kind_refuted.

(** Kind 15 holds integers from 0 to 2000000, exactly. *)
Theorem c50_integers n : 0 <= n <= 2000000 -> encodes (f32_of n) 15 (15 * 2 ^ 24 + n) /\ decodes (15 * 2 ^ 24 + n) (f32_of n) 15.
Proof.
  intros N. destruct (f32_of_ok n ltac:(lia)) as [A F]. assert (NR : (0 <= IZR n <= 2000000)%R) by (split; apply IZR_le; lia).
  assert (E : Z.lor n (Z.shiftl 15 24) = 15 * 2 ^ 24 + n) by (rewrite Z.lor_comm; exact (BitIOFacts.lor_shiftl_add 15 n 24 ltac:(change (Z.of_nat 24) with 24; lia))).
  rewrite encodes_iff, decodes_iff. split.
  - destruct (nint_some (f32_of n) F ltac:(rewrite A, Rabs_pos_eq; lra)) as (m & M & D). assert (m = n) as -> by (rewrite A in D; apply Rabs_le_inv in D; assert (-1 < n - m < 1) by (split; apply lt_IZR; rewrite minus_IZR; lra); lia).
    change (to_kind_15 (f32_of n) 15 = Some (15 * 2 ^ 24 + n)). unfold to_kind_15. change (t15 (1 + Z.shiftr 15 4)) with (Some (0, 2000000, 0)). cbv iota beta. rewrite M. cbn [bind]. rewrite Z.sub_0_r, Z.add_0_r, (proj2 (Z.ltb_ge n 0)), (proj2 (Z.ltb_ge 2000000 n)) by lia. cbn [orb]. f_equal. exact E.
  - unfold from_ip, from_ip_new, from_kind_15. rewrite (proj2 (Z.ltb_lt _ _)) by lia. assert (S : Z.shiftr (15 * 2 ^ 24 + n) 24 = 15) by (rewrite Z.shiftr_div_pow2 by lia; symmetry; apply (Z.div_unique _ _ _ n); lia). rewrite S. change (Z.land 15 15 =? 15) with true. change (15 =? 15) with true. cbn iota.
    assert (L : Z.land (15 * 2 ^ 24 + n) 16777215 = n) by (change 16777215 with (Z.ones 24); rewrite Z.land_ones by lia; symmetry; apply (Z.mod_unique _ _ 15); lia). rewrite L, (proj2 (Z.leb_le 0 n)), (proj2 (Z.leb_le n 2000000)) by lia. reflexivity.
Qed.
Print Assumptions c50_integers.

(** ** C51: a level read back keeps its value *)
Theorem c51_again k p ip q : level k p -> encodes p k ip -> decodes ip q k ->
  exists ip' q', encodes q k ip' /\ decodes ip' q' k /\ r32 q' = r32 q.
Proof.
  intros L E D. apply level_in in L. destruct L as (K & R & S). rewrite encodes_iff in E. rewrite decodes_iff in D.
  destruct (level_ok k p K R S) as (ip1 & q1 & (TO & _ & FR & FQ) & W & _). assert (ip1 = ip) as -> by congruence. assert (q1 = q) as -> by congruence.
  destruct (way_again k p q K R W FQ) as (ip' & q' & (TO' & _ & FR' & _) & E'). exists ip', q'. rewrite encodes_iff, decodes_iff. auto.
Qed.
Print Assumptions c51_again.
Example c51_demo : level 6 (lit32 29985 100) /\ (exists ip q, encodes (lit32 29985 100) 6 ip /\ decodes ip q 6).
Proof.
  assert (F : is_finite (lit32 29985 100) = true) by reflexivity. destruct (lit_near 29985 100 ltac:(lia) ltac:(lia)) as [A _].
  assert (L : level 6 (lit32 29985 100)) by (exists 1, 200000; split; [constructor|]; split; [exact F|]; split; [lra|left; lra]). split; [exact L|]. destruct (c50_accuracy 6 _ L) as (ip & q & E & _ & D & _). exists ip, q. auto.
Qed.
(** The code itself may change: two codes stand for a hybrid level of 0.01, one
    given to the next number up and the other to 0.01 read back. *)
Theorem c51_code_refuted : exists p ip q ip' q', level 5 p /\ encodes p 5 ip /\ decodes ip q 5 /\ encodes q 5 ip' /\ decodes ip' q' 5 /\ f32_eqb q q' = true /\ ip <> ip'.
Proof.
  exists (FloatPack.word_f32 1008981771), 95520416. eexists. exists 97468992. eexists. split; [|split; [apply encodes_iff; vm_compute; reflexivity|split; [apply decodes_fst; vm_compute; reflexivity|split; [apply encodes_iff; vm_compute; reflexivity|split; [apply decodes_fst; vm_compute; reflexivity|split; [vm_compute; reflexivity|discriminate]]]]]].
  exists 0, 1. split; [constructor|]. split; [reflexivity|]. assert (H : (0 <= r32 (FloatPack.word_f32 1008981771) <= 1)%R).
  { destruct (f32_of_ok 0 ltac:(lia)) as [Z1 Z2]. destruct (f32_of_ok 1 ltac:(lia)) as [O1 O2]. assert (G : (r32 (f32_of 0) <= r32 (FloatPack.word_f32 1008981771) <= r32 (f32_of 1))%R); [|rewrite Z1, O1 in G; exact G]. assert (F : is_finite (FloatPack.word_f32 1008981771) = true) by reflexivity. split.
    - apply Rnot_lt_le. intros X. assert (Y : f32_ltb (FloatPack.word_f32 1008981771) (f32_of 0) = true) by (rewrite f32_ltb_ok by assumption; apply Rlt_bool_true; exact X). vm_compute in Y. discriminate.
    - apply Rnot_lt_le. intros X. assert (Y : f32_ltb (f32_of 1) (FloatPack.word_f32 1008981771) = true) by (rewrite f32_ltb_ok by assumption; apply Rlt_bool_true; exact X). vm_compute in Y. discriminate. }
  split; [exact H|left; apply H].
Qed.
Print Assumptions c51_code_refuted.

(** ** C52: levels keep their order *)
Theorem c52_order k p1 ip1 q1 p2 ip2 q2 : level k p1 -> level k p2 -> encodes p1 k ip1 -> decodes ip1 q1 k -> encodes p2 k ip2 -> decodes ip2 q2 k ->
  (r32 p1 <= r32 p2)%R -> (r32 q1 <= r32 q2)%R.
Proof.
  intros L1 L2 E1 D1 E2 D2 P. apply level_in in L1. apply level_in in L2. destruct L1 as (K & R1 & S1). destruct L2 as (_ & R2 & S2). rewrite encodes_iff in E1, E2. rewrite decodes_iff in D1, D2.
  destruct (level_ok k p1 K R1 S1) as (i1 & r1 & (TO1 & _ & FR1 & _) & W1 & _). assert (i1 = ip1) as -> by congruence. assert (r1 = q1) as -> by congruence.
  destruct (level_ok k p2 K R2 S2) as (i2 & r2 & (TO2 & _ & FR2 & _) & W2 & _). assert (i2 = ip2) as -> by congruence. assert (r2 = q2) as -> by congruence.
  exact (way_order k p1 q1 p2 q2 K R1 R2 W1 W2 P).
Qed.
Print Assumptions c52_order.
Example c52_demo : level 2 (f32_of 500) /\ level 2 (f32_of 850) /\ encodes (f32_of 500) 2 41394464 /\ encodes (f32_of 850) 2 41744464.
Proof.
  split; [|split; [exact (proj1 c50_demo)|split; apply encodes_iff; vm_compute; reflexivity]]. destruct (f32_of_ok 500 ltac:(lia)) as [A B]. exists 0, 1100. rewrite A. split; [constructor|]. split; [exact B|]. split; [lra|left; lra].
Qed.

(** ** C53: the old codes *)

(** What each kind of level loses in its old code: heights up to 99995 m are
    kept within 2.53 m, sigma within 0.000053, arbitrary codes up to 100 and
    pressures from 10 to 1099.4 mb within a half, pressures of each of the four
    decades below within 0.026 of its first value. *)
Inductive old_level : Z -> R -> R -> Prop :=
| old_height v : (0 <= v <= 99995)%R -> old_level 0 v (253 / 100)
| old_sigma v : (0 <= v <= 1)%R -> old_level 1 v (53 / 1000000)
| old_pressure v : (10 <= v <= 10994 / 10)%R -> old_level 2 v (1 / 2)
| old_decade v u : In u [1; 1 / 10; 1 / 100; 1 / 1000]%R -> (u <= v <= 997 / 100 * u)%R -> old_level 2 v (26 / 1000 * u)
| old_arbitrary v : (0 <= v <= 100)%R -> old_level 3 v (1 / 2).

Theorem c53_accuracy k p tol : is_finite p = true -> old_level k (r32 p) tol ->
  exists ip q, encodes_old p k ip /\ 0 <= ip <= 32000 /\ decodes ip q k /\ is_finite q = true /\ (Rabs (r32 q - r32 p) <= tol)%R.
Proof.
  intros F L. remember (r32 p) as v eqn:EV. destruct L as [v V|v V|v V|v u U V|v V]; subst v.
  - destruct (old_0 p F V) as (ip & E & B & A & _). destruct (old_0_back ip B) as (D & R & FQ). exists ip, (f32_of (5 * (ip - 12001))). rewrite encodes_old_iff, decodes_iff, R. repeat split; [exact E|lia|lia|exact D|exact FQ|lra].
  - destruct (old_1 p F V) as (ip & E & B & A). destruct (old_1_back ip B) as (q & D & FQ & _ & G). exists ip, q. rewrite encodes_old_iff, decodes_iff. repeat split; [exact E|lia|lia|exact D|exact FQ|]. apply Rabs_le_inv in A. apply Rabs_le_inv in G. apply Rabs_le. lra.
  - destruct (old_2_big p F V) as (ip & E & B & A). destruct (old_2_big_back ip ltac:(lia)) as (D & R & FQ). exists ip, (f32_of ip). rewrite encodes_old_iff, decodes_iff, R. repeat split; [exact E|lia|lia|exact D|exact FQ|lra].
  - assert (H : exists c b, decade c b /\ (IZR c * u = 20)%R /\ (1 / 1000 <= u <= 1)%R) by (unfold decade; destruct U as [<-|[<-|[<-|[<-|[]]]]]; [exists 20, 1800|exists 200, 1600|exists 2000, 1400|exists 20000, 1200]; (split; [cbn; auto 8|lra])).
    destruct H as (c & b & D & C & UB). assert (CR : (20 <= IZR c <= 20000)%R) by (destruct D as [D|[D|[D|[D|[]]]]]; injection D as <- _; lra).
    assert (V' : (20 <= IZR c * r32 p <= 1994 / 10)%R) by (split; nra). destruct (old_2_small c b p D F ltac:(lra)) as (n & E & B & A). destruct (old_2_small_back c b n D ltac:(lia)) as (q & DQ & FQ & N). exists (b + n), q. rewrite encodes_old_iff, decodes_iff.
    assert (BB : 1200 <= b <= 1800) by (destruct D as [D|[D|[D|[D|[]]]]]; injection D as _ <-; lia). repeat split; [exact E|lia|lia|exact DQ|exact FQ|].
    assert (NR : (20 <= IZR n <= 199)%R) by (split; apply IZR_le; lia). assert (Y : (0 <= IZR n / IZR c)%R) by (apply Rlt_le, Rdiv_lt_0_compat; lra). apply near_pos in N; [|exact Y|lra]. apply Rabs_le_inv in A.
    assert (CQ : (IZR n * (1 - / 16000000) <= IZR c * r32 q <= IZR n * (1 + / 16000000))%R) by (assert (IZR c * (IZR n / IZR c) = IZR n)%R by (field; lra); split; nra).
    assert (G : (Rabs (IZR c * (r32 q - r32 p)) <= 502 / 1000)%R) by (apply Rabs_le; lra). rewrite Rabs_mult, (Rabs_pos_eq (IZR c)) in G by lra. apply (Rmult_le_reg_l (IZR c)); [lra|]. replace (IZR c * (26 / 1000 * u))%R with (26 / 1000 * (IZR c * u))%R by ring. rewrite C. lra.
  - destruct (old_3 p F V) as (ip & E & B & A). destruct (old_3_back ip B) as (q & D & R & FQ). exists ip, q. rewrite encodes_old_iff, decodes_iff, R. repeat split; [exact E|lia|lia|exact D|exact FQ|lra].
Qed.
Print Assumptions c53_accuracy.
Example c53_demo : old_level 2 (r32 (f32_of 850)) (1 / 2) /\ encodes_old (f32_of 850) 2 850 /\ encodes_old (lit32 995 1000) 1 11950.
Proof. split; [destruct (f32_of_ok 850 ltac:(lia)) as [A _]; rewrite A; constructor; lra|]. split; apply encodes_old_iff; vm_compute; reflexivity. Qed.

(** Which codes come back as they were: all from 10 to 32000 but the first 19 of
    each decade of pressures. *)
Definition old_code (ip : Z) : Prop := ip = 0 \/ 10 <= ip <= 1200 \/ 1220 <= ip <= 1399 \/ 1420 <= ip <= 1599 \/ 1620 <= ip <= 1799 \/ 1820 <= ip <= 32000.
Theorem c53_codes ip : old_code ip -> exists q k, decodes ip q k /\ encodes_old q k ip.
Proof.
  intros H. assert (K : kept ip).
  { unfold old_code in H. unfold kept, decade. destruct H as [H|[H|[H|[H|[H|H]]]]]; [auto|auto|right; right; left; exists 20000, 1200; cbn; intuition lia|right; right; left; exists 2000, 1400; cbn; intuition lia|right; right; left; exists 200, 1600; cbn; intuition lia|].
    destruct (Z_lt_ge_dec ip 2000); [right; right; left; exists 20, 1800; cbn; intuition lia|right; right; right; lia]. }
  destruct (old_kept ip K) as (q & k & A & B). exists q, k. rewrite decodes_iff, encodes_old_iff. auto.
Qed.
Print Assumptions c53_codes.
Example c53_codes_demo : old_code 12001 /\ (exists q, decodes 12001 q 0 /\ f32_eqb q (f32_of 0) = true) /\ old_code 1850 /\ (exists q, decodes 1850 q 2 /\ f32_eqb q (lit32 25 10) = true).
Proof. unfold old_code. split; [lia|]. split; [eexists; split; [apply decodes_fst; vm_compute; reflexivity|vm_compute; reflexivity]|]. split; [lia|]. eexists. split; [apply decodes_fst; vm_compute; reflexivity|vm_compute; reflexivity]. Qed.

(** Between the decades the old code of a pressure stands for something else:
    9.98 mb reads back as the sigma level 0, 0.998 mb as a pressure of 0, and
    1099.6 mb as the arbitrary code 100. *)
Theorem c53_pressure_refuted :
  (exists q, encodes_old (lit32 998 100) 2 2000 /\ decodes 2000 q 1 /\ f32_eqb q (f32_of 0) = true) /\
  (exists q, encodes_old (lit32 998 1000) 2 1800 /\ decodes 1800 q 2 /\ f32_eqb q (f32_of 0) = true) /\
  (exists q, encodes_old (lit32 10996 10) 2 1100 /\ decodes 1100 q 3 /\ f32_eqb q (f32_of 100) = true).
Proof.
  split; [|split]; eexists; (split; [apply encodes_old_iff; vm_compute; reflexivity|split; [apply decodes_fst; vm_compute; reflexivity|vm_compute; reflexivity]]).
Qed.
Print Assumptions c53_pressure_refuted.
(** The code 5 stands for 5 mb, whose old code is 1900; and the level of code
    1201, 0.00005 mb, gets the old code 0, which stands for 0 mb. *)
Theorem c53_codes_refuted :
  (exists q, decodes 5 q 2 /\ f32_eqb q (f32_of 5) = true /\ encodes_old q 2 1900) /\
  (exists q q', decodes 1201 q 2 /\ f32_ltb (f32_of 0) q = true /\ encodes_old q 2 0 /\ decodes 0 q' 2 /\ f32_eqb q' (f32_of 0) = true).
Proof.
  split.
  - eexists. split; [apply decodes_fst; vm_compute; reflexivity|]. split; [vm_compute; reflexivity|apply encodes_old_iff; vm_compute; reflexivity].
  - eexists. eexists. split; [apply decodes_fst; vm_compute; reflexivity|]. split; [vm_compute; reflexivity|]. split; [apply encodes_old_iff; vm_compute; reflexivity|]. split; [apply decodes_fst; vm_compute; reflexivity|vm_compute; reflexivity].
Qed.
Print Assumptions c53_codes_refuted.
