(** Facts about sorting. *)
From Coq Require Import ZArith List Lia Bool Permutation.
From Verif Require Import Bits Sort.
Import ListNotations.
Open Scope Z_scope.

Lemma set_at_length {A} : forall (l : list A) i v, length (set_at l i v) = length l.
Proof. induction l; intros [|i] v; cbn; auto. Qed.
Lemma set_at_split {A} (l1 l2 : list A) a v : set_at (l1 ++ a :: l2) (length l1) v = l1 ++ v :: l2.
Proof. induction l1; cbn; [reflexivity|f_equal; exact IHl1]. Qed.
Lemma set_at_nth {A} : forall (l : list A) i v k, nth_error (set_at l i v) k = if (k =? i)%nat && (i <? length l)%nat then Some v else nth_error l k.
Proof.
  induction l as [|x l IH]; intros i v k; [cbn; rewrite andb_false_r; reflexivity|].
  destruct i, k; cbn [set_at nth_error length]; [rewrite Nat.eqb_refl; reflexivity|reflexivity|reflexivity|].
  rewrite IH. change (S k =? S i)%nat with (k =? i)%nat. change (S i <? S (length l))%nat with (i <? length l)%nat. reflexivity.
Qed.
Lemma set_at_app {A} (p t : list A) i v : (i < length p)%nat -> set_at (p ++ t) i v = set_at p i v ++ t.
Proof. revert i. induction p; intros [|i] L; cbn in *; try lia; [reflexivity|f_equal; apply IHp; lia]. Qed.

(** ** The exchange *)
Lemma xor_values a b : let a1 := Z.lxor a b in let b1 := Z.lxor a1 b in b1 = a /\ Z.lxor a1 b1 = b.
Proof.
  cbv zeta. split.
  - rewrite Z.lxor_assoc, Z.lxor_nilpotent, Z.lxor_0_r. reflexivity.
  - rewrite (Z.lxor_assoc a b b), Z.lxor_nilpotent, Z.lxor_0_r. rewrite Z.lxor_assoc, (Z.lxor_comm b a), <- Z.lxor_assoc, Z.lxor_nilpotent. reflexivity.
Qed.
Lemma xor_swap_eq idx i j a b : xor_swap idx i j a b = set_at (set_at idx i b) j a.
Proof. unfold xor_swap. destruct (xor_values a b) as [A B]. cbv zeta in *. rewrite B, A. reflexivity. Qed.
Lemma swap_split {A} (l : list A) i j a b : (i < j)%nat -> nth_error l i = Some a -> nth_error l j = Some b ->
  exists l1 l2 l3, l = l1 ++ a :: l2 ++ b :: l3 /\ length l1 = i /\ length l2 = (j - S i)%nat /\ set_at (set_at l i b) j a = l1 ++ b :: l2 ++ a :: l3.
Proof.
  intros IJ HA HB. destruct (nth_error_split l i HA) as (l1 & l' & -> & L1).
  rewrite nth_error_app2 in HB by lia. replace (j - length l1)%nat with (S (j - S i)) in HB by lia. cbn [nth_error] in HB.
  destruct (nth_error_split l' _ HB) as (l2 & l3 & -> & L2). exists l1, l2, l3. split; [reflexivity|]. split; [exact L1|]. split; [exact L2|].
  rewrite <- L1 at 1. rewrite set_at_split.
  replace j with (length (l1 ++ b :: l2)) by (rewrite app_length; cbn; lia).
  replace (l1 ++ b :: l2 ++ b :: l3) with ((l1 ++ b :: l2) ++ b :: l3) by (rewrite <- app_assoc; reflexivity). rewrite set_at_split. rewrite <- app_assoc. reflexivity.
Qed.
Lemma swap_perm {A} (l1 l2 l3 : list A) a b : Permutation (l1 ++ a :: l2 ++ b :: l3) (l1 ++ b :: l2 ++ a :: l3).
Proof.
  apply Permutation_app_head. transitivity (a :: b :: l2 ++ l3). { apply perm_skip. symmetry. apply Permutation_middle. }
  transitivity (b :: a :: l2 ++ l3); [apply perm_swap|]. apply perm_skip. apply Permutation_middle.
Qed.

(** ** Inversions *)
Section Order.
Context {A : Type} (g : A -> A -> bool).
Fixpoint cnt (a : A) (l : list A) : nat := match l with [] => 0 | b :: l' => (if g a b then 1 else 0) + cnt a l' end.
Fixpoint inv (l : list A) : nat := match l with [] => 0 | a :: l' => cnt a l' + inv l' end.
Lemma cnt_app a l1 l2 : cnt a (l1 ++ l2) = (cnt a l1 + cnt a l2)%nat.
Proof. induction l1; cbn; lia. Qed.
Lemma cnt_swap c l1 a b l : cnt c (l1 ++ a :: b :: l) = cnt c (l1 ++ b :: a :: l).
Proof. rewrite !cnt_app. cbn. lia. Qed.
Lemma inv_swap l1 a b l2 : g a b = true -> g b a = false -> inv (l1 ++ a :: b :: l2) = S (inv (l1 ++ b :: a :: l2)).
Proof.
  intros H1 H2. induction l1 as [|c l1 IH]; cbn [app inv cnt].
  - rewrite H1, H2. lia.
  - rewrite IH, cnt_swap. lia.
Qed.
End Order.

(** ** One pass *)
Section Pass.
Context {K : Type} (gt : K -> K -> bool) (ks : list K).
Definition gtp (a b : Z) : bool := match key_at ks a, key_at ks b with Some x, Some y => gt x y | _, _ => false end.
Definition valid (idx : list Z) : Prop := Forall (fun p => key_at ks p <> None) idx.
Lemma valid_nth idx i a : valid idx -> nth_error idx i = Some a -> exists k, key_at ks a = Some k.
Proof. intros V H. unfold valid in V. rewrite Forall_forall in V. specialize (V a (nth_error_In _ _ H)). destruct (key_at ks a); [eauto|congruence]. Qed.
Lemma valid_perm l l' : Permutation l l' -> valid l -> valid l'.
Proof. intros P. apply Permutation_Forall. exact P. Qed.

Lemma pass_spec gap : (1 <= gap)%nat -> (forall x y, gt x y = true -> gt y x = false) -> forall n i idx sw, (i + n + gap <= length idx \/ n = 0)%nat -> valid idx ->
  exists idx' sw', pass gt ks gap n i idx sw = Some (idx', sw') /\ Permutation idx idx' /\
    (gap = 1%nat -> (inv gtp idx' <= inv gtp idx)%nat /\ (sw' = true -> sw = true \/ (inv gtp idx' < inv gtp idx)%nat)) /\
    (sw' = false -> sw = false /\ idx' = idx /\ forall k a b, (i <= k < i + n)%nat -> nth_error idx k = Some a -> nth_error idx (k + gap) = Some b -> gtp a b = false).
Proof.
  intros G AS n. induction n as [|n IH]; intros i idx sw L V; cbn [pass].
  { exists idx, sw. split; [reflexivity|]. split; [reflexivity|]. split; [intros _; split; [lia|auto]|]. intros ->. split; [reflexivity|]. split; [reflexivity|]. lia. }
  destruct L as [L|]; [|lia].
  destruct (nth_error idx i) as [a|] eqn:EA; [|apply nth_error_None in EA; lia]. destruct (nth_error idx (i + gap)) as [b|] eqn:EB; [|apply nth_error_None in EB; lia]. cbn [bind].
  destruct (valid_nth _ _ _ V EA) as (ka & HA). destruct (valid_nth _ _ _ V EB) as (kb & HB). rewrite HA, HB. cbn [bind].
  assert (GP : gtp a b = gt ka kb) by (unfold gtp; rewrite HA, HB; reflexivity).
  destruct (gt ka kb) eqn:GT.
  - rewrite xor_swap_eq. destruct (swap_split idx i (i + gap) a b ltac:(lia) EA EB) as (l1 & l2 & l3 & E & L1 & L2 & E').
    pose proof (swap_perm l1 l2 l3 a b) as P. rewrite <- E, <- E' in P.
    set (idx1 := set_at (set_at idx i b) (i + gap) a) in *. assert (LE : length idx1 = length idx) by (unfold idx1; rewrite !set_at_length; reflexivity).
    destruct (IH (S i) idx1 true) as (idx' & sw' & HP & PE & HI & HF); [lia|exact (valid_perm _ _ P V)|].
    exists idx', sw'. split; [exact HP|]. split; [etransitivity; eassumption|]. split.
    + intros G1. destruct (HI G1) as (I1 & _). assert (inv gtp idx = S (inv gtp idx1)).
      { rewrite E, E'. destruct l2; [|cbn in L2; lia]. cbn [app]. apply inv_swap; [exact GP|]. unfold gtp. rewrite HB, HA. apply AS. exact GT. }
      split; [lia|]. intros _. right. lia.
    + intros S. destruct (HF S) as (B & _). discriminate.
  - destruct (IH (S i) idx sw) as (idx' & sw' & HP & PE & HI & HF); [lia|exact V|]. exists idx', sw'. split; [exact HP|]. split; [exact PE|]. split; [exact HI|].
    intros SW. destruct (HF SW) as (B & E & Q). split; [exact B|]. split; [exact E|]. intros k a0 b0 KI KA KB. destruct (Nat.eq_dec k i) as [->|]; [|apply (Q k); [lia|assumption|assumption]].
    congruence.
Qed.
Lemma pass_app gap t : forall n i p sw, (i + n + gap <= length p \/ n = 0)%nat -> pass gt ks gap n i (p ++ t) sw = option_map (fun r => (fst r ++ t, snd r)) (pass gt ks gap n i p sw).
Proof.
  induction n as [|n IH]; intros i p sw L; cbn [pass]; [reflexivity|]. destruct L as [L|]; [|lia]. rewrite !nth_error_app1 by lia.
  destruct (nth_error p i) as [a|]; cbn [bind]; [|reflexivity]. destruct (nth_error p (i + gap)) as [b|]; cbn [bind]; [|reflexivity].
  destruct (key_at ks a) as [ka|]; cbn [bind]; [|reflexivity]. destruct (key_at ks b) as [kb|]; cbn [bind]; [|reflexivity]. destruct (gt ka kb).
  - rewrite !xor_swap_eq. rewrite (set_at_app p) by lia. rewrite set_at_app by (rewrite set_at_length; lia). apply IH. rewrite !set_at_length. lia.
  - apply IH. lia.
Qed.
End Pass.

(** ** The gap *)
Lemma rne_bounds a d : 0 < d -> 0 <= a -> 0 <= rne a d /\ d * rne a d <= a + d /\ 2 * (d * rne a d) <= 2 * a + d.
Proof.
  intros D A. unfold rne. cbv zeta. pose proof (Z.div_mod a d ltac:(lia)). pose proof (Z.mod_pos_bound a d D). pose proof (Z.div_pos a d A D).
  destruct (Z.ltb_spec (2 * (a mod d)) d); [nia|]. destruct (Z.ltb_spec d (2 * (a mod d))); [nia|]. destruct (Z.even (a / d)); nia.
Qed.
Lemma float_of_int_bounds g : 0 <= g -> 0 <= float_of_int g /\ 2 ^ 24 * float_of_int g <= (2 ^ 24 + 1) * g.
Proof.
  intros G. unfold float_of_int. destruct (Z.ltb_spec g (2 ^ 24)); [lia|]. cbv zeta.
  assert (23 < Z.log2 g). { apply Z.lt_le_trans with 24; [lia|]. apply Z.log2_le_pow2; lia. }
  destruct (Z.log2_spec g ltac:(lia)) as (LO & _). replace (Z.log2 g) with (23 + (Z.log2 g - 23)) in LO at 1 by lia. rewrite Z.pow_add_r in LO by lia.
  set (u := 2 ^ (Z.log2 g - 23)) in *. assert (0 < u) by (apply Z.pow_pos_nonneg; lia).
  destruct (rne_bounds g u ltac:(lia) G) as (A & _ & C). split; [nia|]. nia.
Qed.
Lemma shrink_bounds g : 1 <= g < 2 ^ 31 -> 0 <= shrink g /\ 10 * shrink g <= 8 * g.
Proof.
  intros G. destruct (float_of_int_bounds g ltac:(lia)) as (X0 & X1). unfold shrink. cbv zeta. set (x := float_of_int g) in *. set (n := x * 2 ^ 52).
  destruct (Z.ltb_spec n SHRINK) as [|GE]; [lia|]. change SHRINK with 5854679515581645 in *. set (D := 5854679515581645) in *.
  assert (Q1 : 1 <= n / D) by (apply Z.div_le_lower_bound; lia).
  assert (XB : x <= 2 ^ 31 + 128) by lia.
  assert (Q2 : n / D < 2 ^ 31). { apply Z.div_lt_upper_bound; [lia|]. unfold n, D. lia. }
  assert (L2 : 0 <= Z.log2 (n / D) < 31) by (split; [apply Z.log2_nonneg|apply Z.log2_lt_pow2; lia]).
  set (s := 52 - Z.log2 (n / D)) in *. assert (PS : 2 ^ 22 <= 2 ^ s) by (apply Z.pow_le_mono_r; lia). set (P := 2 ^ s) in *.
  destruct (rne_bounds (n * P) D ltac:(lia) ltac:(nia)) as (R0 & R1 & _). set (r := rne (n * P) D) in *.
  pose proof (Z.div_mod r P ltac:(lia)) as DM. pose proof (Z.mod_pos_bound r P ltac:(lia)). pose proof (Z.div_pos r P R0 ltac:(lia)). split; [lia|].
  set (y := r / P) in *. assert (D * (P * y) <= n * P + D) by nia. unfold n in *.
  (* D y <= x 2^52 + D / P *)
  assert (D * y <= x * 2 ^ 52 + D / P + 1). { pose proof (Z.div_mod D P ltac:(lia)). pose proof (Z.mod_pos_bound D P ltac:(lia)). set (dp := D / P) in *. assert (P * (D * y) < P * (x * 2 ^ 52 + dp + 1)) by nia. nia. }
  assert (DP : D / P <= 2 ^ 31). { apply Z.div_le_upper_bound; [lia|]. unfold D. lia. }
  unfold D in *. lia.
Qed.
Lemma next_gap_bounds g : 1 <= g < 2 ^ 31 -> 1 <= next_gap g <= g /\ (1 < g -> next_gap g < g).
Proof.
  intros G. destruct (shrink_bounds g G) as (A & B). unfold next_gap. cbv zeta. destruct (Z.eqb_spec (shrink g) 0); [lia|].
  destruct (Z.eqb_spec (shrink g) 9); [cbn [orb]; lia|]. destruct (Z.eqb_spec (shrink g) 10); cbn [orb]; lia.
Qed.

(** ** The sort *)
Section Comb.
Context {K : Type} (gt : K -> K -> bool) (ks : list K).
Hypothesis AS : forall x y, gt x y = true -> gt y x = false.
Let G := gtp gt ks.
Definition settled (p : list Z) : Prop := forall k a b, nth_error p k = Some a -> nth_error p (S k) = Some b -> G a b = false.
Definition sorts (g : Z) (p : list Z) : Prop :=
  exists fuel0, forall fuel, (fuel0 <= fuel)%nat -> exists p', (forall t, comb gt ks (length p) fuel g (p ++ t) = Some (p' ++ t)) /\ Permutation p p' /\ settled p'.

Lemma comb_step g p : 1 <= g < 2 ^ 31 -> valid ks p ->
  (forall p', Permutation p p' -> (next_gap g = 1 -> (inv G p' < inv G p)%nat) \/ 1 < next_gap g -> sorts (next_gap g) p') ->
  (next_gap g = 1 \/ 1 < next_gap g) -> sorts g p.
Proof.
  intros GB V REC _. destruct (next_gap_bounds g GB) as (NB & _). set (g' := next_gap g) in *.
  destruct (pass_spec gt ks (Z.to_nat g') ltac:(lia) AS (Z.to_nat (Z.of_nat (length p) - g')) 0 p false ltac:(lia) V) as (p1 & sw & HP & PE & HI & HF).
  assert (LE : length p1 = length p) by (symmetry; apply Permutation_length; exact PE).
  assert (PT : forall t, pass gt ks (Z.to_nat g') (Z.to_nat (Z.of_nat (length p) - g')) 0 (p ++ t) false = Some (p1 ++ t, sw)).
  { intros t. rewrite pass_app by lia. rewrite HP. reflexivity. }
  destruct (sw || (1 <? g')) eqn:C.
  - assert (S1 : sorts g' p1).
    { apply REC; [exact PE|]. destruct (Z.ltb_spec 1 g'); [right; assumption|]. left. intros E1. rewrite orb_false_r in C. subst sw. destruct (HI ltac:(lia)) as (_ & Q). destruct (Q eq_refl); [discriminate|assumption]. }
    destruct S1 as (f0 & F). exists (S f0). intros fuel LF. destruct fuel as [|f]; [lia|]. destruct (F f ltac:(lia)) as (p' & E & PE' & ST). exists p'. split; [|split; [etransitivity; eassumption|exact ST]].
    intros t. cbn [comb]. fold g'. rewrite PT, C. rewrite LE in E. apply E.
  - apply orb_false_iff in C. destruct C as (-> & C). apply Z.ltb_ge in C. destruct (HF eq_refl) as (_ & -> & Q). exists 1%nat. intros fuel LF. destruct fuel as [|f]; [lia|]. exists p. split; [|split; [reflexivity|]].
    + intros t. cbn [comb]. fold g'. rewrite PT. rewrite (proj2 (Z.ltb_ge _ _)) by lia. reflexivity.
    + intros k a b HA HB. assert (k < length p /\ S k < length p)%nat. { split; apply nth_error_Some; congruence. } apply (Q k a b); [lia|exact HA|]. replace (k + Z.to_nat g')%nat with (S k) by lia. exact HB.
Qed.
Lemma next_gap_1 : next_gap 1 = 1.
Proof. vm_compute. reflexivity. Qed.
Lemma comb_one : forall m p, (inv G p < m)%nat -> valid ks p -> sorts 1 p.
Proof.
  induction m; intros p L V; [lia|]. apply comb_step; [lia|exact V| |rewrite next_gap_1; auto].
  intros p' PE [Q|Q]; rewrite next_gap_1 in *; [|lia]. apply IHm; [specialize (Q eq_refl); lia|exact (valid_perm _ _ _ PE V)].
Qed.
Lemma comb_any : forall m g p, (Z.to_nat g < m)%nat -> 1 <= g < 2 ^ 31 -> valid ks p -> sorts g p.
Proof.
  induction m; intros g p L GB V; [lia|]. destruct (Z.eq_dec g 1) as [->|NE]; [apply (comb_one (S (inv G p))); [lia|exact V]|].
  destruct (next_gap_bounds g GB) as (B1 & B2). specialize (B2 ltac:(lia)). apply comb_step; [exact GB|exact V| |lia].
  intros p' PE _. apply IHm; [lia|lia|exact (valid_perm _ _ _ PE V)].
Qed.
Lemma settled_sorted p : (forall x y z, gt x y = false -> gt y z = false -> gt x z = false) -> valid ks p -> settled p ->
  forall i j a b, (i < j)%nat -> nth_error p i = Some a -> nth_error p j = Some b -> G a b = false.
Proof.
  intros TR V ST i j. induction j as [|j IH]; intros a b L HA HB; [lia|]. destruct (Nat.eq_dec i j) as [->|NE]; [exact (ST _ _ _ HA HB)|].
  destruct (nth_error p j) as [c|] eqn:EC; [|apply nth_error_None in EC; assert (S j < length p)%nat by (apply nth_error_Some; congruence); lia].
  pose proof (IH a c ltac:(lia) HA eq_refl) as Q1. pose proof (ST _ _ _ EC HB) as Q2.
  destruct (valid_nth _ _ _ _ V HA) as (ka & KA). destruct (valid_nth _ _ _ _ V HB) as (kb & KB). destruct (valid_nth _ _ _ _ V EC) as (kc & KC).
  unfold G, gtp in *. rewrite KA, KB, KC in *. exact (TR _ _ _ Q1 Q2).
Qed.
End Comb.

Lemma iota_length n : length (iota n) = n.
Proof. unfold iota. rewrite map_length, seq_length. reflexivity. Qed.
Lemma iota_in n p : In p (iota n) <-> 1 <= p <= Z.of_nat n.
Proof.
  unfold iota. rewrite in_map_iff. split.
  - intros (x & <- & H). apply in_seq in H. lia.
  - intros H. exists (Z.to_nat (p - 1)). split; [lia|]. apply in_seq. lia.
Qed.
Lemma range_valid {K} (ks : list K) p : (forall x, In x p -> 1 <= x <= Z.of_nat (length ks)) -> valid ks p.
Proof.
  intros H. apply Forall_forall. intros x X. specialize (H x X). unfold key_at. rewrite (proj2 (Z.ltb_ge _ _)) by lia. apply nth_error_Some. lia.
Qed.

(** ** The heap *)
Definition at1 {K} (a : list K) (i : nat) (x : K) : Prop := get1 a i = Some x.
Lemma get1_set1 {K} (a : list K) i v k : (1 <= i <= length a)%nat -> get1 (set1 a i v) k = if (k =? i)%nat then Some v else get1 a k.
Proof.
  intros L. destruct i as [|i]; [lia|]. destruct k as [|k]; [reflexivity|]. cbn [set1 get1]. rewrite set_at_nth. change (S k =? S i)%nat with (k =? i)%nat.
  rewrite (proj2 (Nat.ltb_lt _ _)) by lia. rewrite andb_true_r. reflexivity.
Qed.
Lemma set1_length {K} (a : list K) i v : length (set1 a i v) = length a.
Proof. destruct i; [reflexivity|apply set_at_length]. Qed.
Lemma get1_some {K} (a : list K) i : (1 <= i <= length a)%nat -> exists v, get1 a i = Some v.
Proof. intros L. destruct i as [|i]; [lia|]. cbn [get1]. destruct (nth_error a i) eqn:E; [eauto|]. apply nth_error_None in E. lia. Qed.
Lemma get1_bound {K} (a : list K) i v : get1 a i = Some v -> (1 <= i <= length a)%nat.
Proof. intros H. destruct i as [|i]; [discriminate|]. cbn in H. assert (i < length a)%nat by (apply nth_error_Some; congruence). lia. Qed.
Lemma nth_error_eq {A} : forall l l' : list A, (forall k, nth_error l k = nth_error l' k) -> l = l'.
Proof.
  induction l as [|x l IH]; intros [|y l'] H; [reflexivity|specialize (H 0%nat); discriminate|specialize (H 0%nat); discriminate|].
  pose proof (H 0%nat) as H0. cbn in H0. injection H0 as ->. f_equal. apply IH. intros k. exact (H (S k)).
Qed.
Lemma get1_eq {A} (l l' : list A) : (forall k, (1 <= k)%nat -> get1 l k = get1 l' k) -> l = l'.
Proof. intros H. apply nth_error_eq. intros k. exact (H (S k) ltac:(lia)). Qed.
Lemma set1_same_perm {K} (a : list K) i j x y : (i <> j)%nat -> get1 a i = Some x -> get1 a j = Some y -> Permutation a (set1 (set1 a i y) j x).
Proof.
  destruct i as [|i], j as [|j]; cbn [get1 set1]; try discriminate. intros NE HI HJ. destruct (Nat.lt_ge_cases i j) as [L|GE].
  - destruct (swap_split a i j x y L HI HJ) as (l1 & l2 & l3 & E & _ & _ & E'). rewrite E', E. apply swap_perm.
  - destruct (swap_split a j i y x ltac:(lia) HJ HI) as (l1 & l2 & l3 & E & _ & _ & E').
    assert (C : set_at (set_at a i y) j x = set_at (set_at a j x) i y).
    { apply nth_error_eq. intros k. rewrite !set_at_nth, !set_at_length. destruct (Nat.eqb_spec k j), (Nat.eqb_spec k i); cbn [andb]; try reflexivity; lia. }
    rewrite C, E', E. apply swap_perm.
Qed.

Section Heap.
Context {K : Type} (gt : K -> K -> bool).
Hypothesis AS : forall x y, gt x y = true -> gt y x = false.
Hypothesis TR : forall x y z, gt x y = false -> gt y z = false -> gt x z = false.

Definition heap (b : list K) (lo nn ex : nat) : Prop :=
  forall c x y, (2 <= c <= nn)%nat -> (lo <= c / 2)%nat -> (c / 2)%nat <> ex -> get1 b c = Some x -> get1 b (c / 2) = Some y -> gt x y = false.
Definition within (b b' : list K) (nn : nat) : Prop :=
  Permutation b b' /\ (forall k, (nn < k)%nat -> get1 b' k = get1 b k) /\ (forall k x, (1 <= k <= nn)%nat -> get1 b' k = Some x -> exists k', (1 <= k' <= nn)%nat /\ get1 b k' = Some x).
Lemma within_trans a b c nn : within a b nn -> within b c nn -> within a c nn.
Proof.
  intros (P1 & O1 & I1) (P2 & O2 & I2). split; [etransitivity; eassumption|]. split.
  - intros k L. rewrite O2, O1 by exact L. reflexivity.
  - intros k x L H. destruct (I2 k x L H) as (k' & L' & H'). exact (I1 k' x L' H').
Qed.
Lemma within_refl a nn : within a a nn.
Proof. split; [reflexivity|]. split; eauto. Qed.

Lemma half_cases c i : (c / 2)%nat = i -> c = (i + i)%nat \/ c = S (i + i).
Proof. intros <-. pose proof (Nat.div_mod c 2 ltac:(lia)). pose proof (Nat.mod_upper_bound c 2 ltac:(lia)). lia. Qed.
Lemma half_double i : ((i + i) / 2 = i)%nat /\ (S (i + i) / 2 = i)%nat.
Proof.
  split; [replace (i + i)%nat with (i * 2)%nat by lia; apply Nat.div_mul; lia|]. replace (S (i + i)) with (1 + i * 2)%nat by lia. rewrite Nat.div_add by lia. reflexivity.
Qed.

Lemma siftup_spec lo nn : forall fuel a asave i, (nn < fuel + i)%nat -> (1 <= lo <= i)%nat -> (i <= nn <= length a)%nat ->
  heap (set1 a i asave) lo nn i ->
  (forall c x y, (2 <= c <= nn)%nat -> (c / 2)%nat = i -> (lo <= i / 2)%nat -> get1 (set1 a i asave) c = Some x -> get1 (set1 a i asave) (i / 2) = Some y -> gt x y = false) ->
  exists a', siftup gt fuel a asave i nn = Some a' /\ heap a' lo nn 0 /\ within (set1 a i asave) a' nn.
Proof.
  induction fuel as [|f IH]; intros a asave i F LI LN HP GP; [lia|]. cbn [siftup]. set (b := set1 a i asave) in *.
  assert (BI : get1 b i = Some asave) by (unfold b; rewrite get1_set1 by lia; rewrite Nat.eqb_refl; reflexivity).
  assert (BO : forall k, k <> i -> get1 b k = get1 a k). { intros k NK. unfold b. rewrite get1_set1 by lia. rewrite (proj2 (Nat.eqb_neq _ _) NK). reflexivity. }
  assert (BL : length b = length a) by apply set1_length. destruct (half_double i) as (HD1 & HD2).
  destruct (Nat.ltb_spec nn (i + i)) as [DONE|GO].
  { exists b. split; [reflexivity|]. split; [|apply within_refl]. intros c x y C1 C2 _ HX HY. destruct (Nat.eq_dec (c / 2) i) as [E|NE]; [destruct (half_cases c i E); lia|]. exact (HP c x y C1 C2 NE HX HY). }
  (* the larger child *)
  assert (CH : exists j' v, (if (i + i <? nn)%nat then bind (get1 a (i + i + 1)) (fun x => bind (get1 a (i + i)) (fun y => Some (if gt x y then S (i + i) else (i + i)%nat))) else Some (i + i)%nat) = Some j' /\ (i < j' <= nn)%nat /\ (j' / 2)%nat = i /\ get1 b j' = Some v /\ get1 a j' = Some v /\
     forall c x, (2 <= c <= nn)%nat -> (c / 2)%nat = i -> get1 b c = Some x -> gt x v = false).
  { destruct (get1_some a (i + i) ltac:(lia)) as (y & EY). assert (EYB : get1 b (i + i) = Some y) by (rewrite BO by lia; exact EY).
    assert (IR : forall x, gt x x = false) by (intros x; destruct (gt x x) eqn:E; [pose proof (AS _ _ E); congruence|reflexivity]).
    destruct (Nat.ltb_spec (i + i) nn) as [L|GE].
    - destruct (get1_some a (i + i + 1) ltac:(lia)) as (x & EX). rewrite EX, EY. cbn [bind]. replace (i + i + 1)%nat with (S (i + i)) in EX by lia.
      assert (EXB : get1 b (S (i + i)) = Some x) by (rewrite BO by lia; exact EX).
      destruct (gt x y) eqn:GT.
      + exists (S (i + i)), x. split; [reflexivity|]. split; [lia|]. split; [exact HD2|]. split; [exact EXB|]. split; [exact EX|]. intros c z C1 C2 HZ. destruct (half_cases c i C2) as [-> | ->]; [|assert (z = x) as -> by congruence; apply IR]. assert (z = y) as -> by congruence. apply AS. exact GT.
      + exists (i + i)%nat, y. split; [reflexivity|]. split; [lia|]. split; [exact HD1|]. split; [exact EYB|]. split; [exact EY|]. intros c z C1 C2 HZ. destruct (half_cases c i C2) as [-> | ->]; [assert (z = y) as -> by congruence; apply IR|]. assert (z = x) as -> by congruence. exact GT.
    - exists (i + i)%nat, y. split; [reflexivity|]. split; [lia|]. split; [exact HD1|]. split; [exact EYB|]. split; [exact EY|]. intros c z C1 C2 HZ. destruct (half_cases c i C2) as [-> | ->]; [assert (z = y) as -> by congruence; apply IR|lia]. }
  destruct CH as (j' & v & -> & LJ & HJ & EVB & EVA & MAXC). cbn [bind]. rewrite EVA. cbn [bind]. destruct (gt v asave) eqn:GT; cbn [negb].
  - set (a1 := set1 a i v).
    assert (B1 : set1 a1 j' asave = set1 (set1 b i v) j' asave).
    { apply get1_eq. intros k _. unfold a1, b. rewrite !get1_set1 by (rewrite ?set1_length; lia). destruct (Nat.eqb_spec k j'), (Nat.eqb_spec k i); try reflexivity. }
    assert (G1 : forall k, get1 (set1 a1 j' asave) k = if (k =? j')%nat then Some asave else if (k =? i)%nat then Some v else get1 b k).
    { intros k. rewrite B1. rewrite get1_set1 by (rewrite set1_length; lia). rewrite get1_set1 by lia. reflexivity. }
    destruct (IH a1 asave j') as (a' & E & H' & W').
    + lia.
    + lia.
    + unfold a1. rewrite set1_length. lia.
    + intros c x y C1 C2 NE HX HY. rewrite G1 in HX, HY. rewrite (proj2 (Nat.eqb_neq (c / 2) j') NE) in HY.
      destruct (Nat.eqb_spec (c / 2) i) as [EI|NI].
      * assert (y = v) as -> by congruence. destruct (Nat.eqb_spec c j') as [->|NJ].
        -- assert (x = asave) as -> by congruence. apply AS. exact GT.
        -- rewrite (proj2 (Nat.eqb_neq c i)) in HX by (pose proof (half_cases c i EI); lia). exact (MAXC c x C1 EI HX).
      * destruct (Nat.eqb_spec c j') as [->|NJ]; [congruence|]. destruct (Nat.eqb_spec c i) as [->|NCI].
        -- assert (x = v) as -> by congruence. apply (GP j' v y); [lia|exact HJ|exact C2|exact EVB|exact HY].
        -- exact (HP c x y C1 C2 NI HX HY).
    + intros c x y C1 C2 LO HX HY. rewrite HJ in *. rewrite G1 in HX, HY. rewrite (proj2 (Nat.eqb_neq i j')), Nat.eqb_refl in HY by lia. assert (y = v) as -> by congruence.
      pose proof (half_cases c j' C2). rewrite (proj2 (Nat.eqb_neq c j')), (proj2 (Nat.eqb_neq c i)) in HX by lia. apply (HP c x v); [lia|lia|lia|exact HX|rewrite C2; exact EVB].
    + exists a'. split; [exact E|]. split; [exact H'|]. apply (within_trans _ (set1 a1 j' asave)); [|exact W']. split; [|split].
      * rewrite B1. apply set1_same_perm; [lia|exact BI|exact EVB].
      * intros k L. rewrite G1. rewrite (proj2 (Nat.eqb_neq k j')), (proj2 (Nat.eqb_neq k i)) by lia. reflexivity.
      * intros k x L HX. rewrite G1 in HX. destruct (Nat.eqb_spec k j'); [exists i; split; [lia|congruence]|]. destruct (Nat.eqb_spec k i); [exists j'; split; [lia|congruence]|]. eauto.
  - exists b. split; [reflexivity|]. split; [|apply within_refl]. intros c x y C1 C2 _ HX HY. destruct (Nat.eq_dec (c / 2) i) as [E|NE]; [|exact (HP c x y C1 C2 NE HX HY)].
    rewrite E in HY. assert (y = asave) as -> by congruence. exact (TR _ _ _ (MAXC c x C1 E HX) GT).
Qed.

Lemma sift_spec a ii nn : (1 <= ii <= nn)%nat -> (nn <= length a)%nat -> heap a (S ii) nn 0 -> exists a', sift gt a ii nn = Some a' /\ heap a' ii nn 0 /\ within a a' nn.
Proof.
  intros L LN HP. unfold sift. destruct (get1_some a ii ltac:(lia)) as (v & EV). rewrite EV. cbn [bind].
  assert (SM : set1 a ii v = a). { apply get1_eq. intros k _. rewrite get1_set1 by lia. destruct (Nat.eqb_spec k ii) as [->|]; [symmetry; exact EV|reflexivity]. }
  destruct (siftup_spec ii nn (S nn) a v ii) as (a' & E & H & W); [lia|lia|lia| | |rewrite SM in W; eauto].
  - rewrite SM. intros c x y C1 C2 NE. apply HP; lia.
  - intros c x y C1 C2 C3. exfalso. pose proof (Nat.div_lt ii 2 ltac:(lia) ltac:(lia)). lia.
Qed.
Lemma build_spec n : forall ii a, (ii <= n <= length a)%nat -> heap a (S ii) n 0 -> exists a', build gt n ii a = Some a' /\ heap a' 2 n 0 /\ within a a' n.
Proof.
  induction ii as [|ii IH]; intros a L HP.
  - exists a. split; [reflexivity|]. split; [|apply within_refl]. intros c x y C1 C2. apply HP; lia.
  - destruct ii as [|ii]; [exists a; split; [reflexivity|]; split; [exact HP|apply within_refl]|].
    change (build gt n (S (S ii)) a) with (bind (sift gt a (S (S ii)) n) (build gt n (S ii))).
    destruct (sift_spec a (S (S ii)) n ltac:(lia) ltac:(lia) HP) as (a1 & E1 & H1 & W1). rewrite E1. cbn [bind].
    assert (L1 : length a1 = length a) by (symmetry; apply Permutation_length; apply W1).
    destruct (IH a1 ltac:(lia) H1) as (a' & E & H & W). exists a'. split; [exact E|]. split; [exact H|]. exact (within_trans _ _ _ _ W1 W).
Qed.

Definition tail_sorted (a : list K) (nn n : nat) : Prop := forall i j x y, (i < j <= n)%nat -> (nn < j)%nat -> get1 a i = Some x -> get1 a j = Some y -> gt x y = false.
Lemma heap_max a nn : heap a 1 nn 0 -> (nn <= length a)%nat -> forall k x m, (1 <= k <= nn)%nat -> get1 a k = Some x -> get1 a 1 = Some m -> gt x m = false.
Proof.
  intros HP LA k. induction k as [k IH] using (well_founded_induction lt_wf). intros x m L HX HM. destruct (Nat.eq_dec k 1) as [->|NE].
  - assert (x = m) as -> by congruence. destruct (gt m m) eqn:E; [pose proof (AS _ _ E); congruence|reflexivity].
  - assert (D : (1 <= k / 2 < k)%nat). { split; [apply Nat.div_le_lower_bound; lia|apply Nat.div_lt; lia]. }
    destruct (get1_some a (k / 2) ltac:(lia)) as (y & HY). apply (TR x y m).
    + apply (HP k x y); [lia|lia|lia|exact HX|exact HY].
    + apply (IH (k / 2)%nat); [lia|lia|exact HY|exact HM].
Qed.
Lemma drain_spec n : forall nn a, (nn <= n <= length a)%nat -> heap a 2 nn 0 -> tail_sorted a nn n ->
  exists a', drain gt nn a = Some a' /\ within a a' n /\ tail_sorted a' 1 n.
Proof.
  induction nn as [|nn IH]; intros a L HP TS.
  - exists a. split; [reflexivity|]. split; [apply within_refl|]. intros i j x y L1 L2. apply TS; lia.
  - destruct nn as [|nn]; [exists a; split; [reflexivity|]; split; [apply within_refl|exact TS]|].
    set (m := S nn) in *.
    change (drain gt (S m) a) with (bind (sift gt a 1 (S m)) (fun a' => bind (get1 a' 1) (fun x => bind (get1 a' (S m)) (fun y => drain gt m (set1 (set1 a' 1 y) (S m) x))))).
    destruct (sift_spec a 1 (S m) ltac:(lia) ltac:(lia) HP) as (a1 & E1 & H1 & W1). rewrite E1. cbn [bind].
    assert (L1 : length a1 = length a) by (symmetry; apply Permutation_length; apply W1).
    destruct (get1_some a1 1 ltac:(lia)) as (x & EX). destruct (get1_some a1 (S m) ltac:(lia)) as (y & EY). rewrite EX, EY. cbn [bind].
    set (a2 := set1 (set1 a1 1 y) (S m) x).
    assert (G2 : forall k, get1 a2 k = if (k =? S m)%nat then Some x else if (k =? 1)%nat then Some y else get1 a1 k).
    { intros k. unfold a2. rewrite get1_set1 by (rewrite set1_length; lia). rewrite get1_set1 by lia. reflexivity. }
    assert (W2 : within a1 a2 (S m)).
    { split; [|split].
      - apply set1_same_perm; [unfold m; lia|exact EX|exact EY].
      - intros k L2. rewrite G2. rewrite (proj2 (Nat.eqb_neq k (S m))), (proj2 (Nat.eqb_neq k 1)) by lia. reflexivity.
      - intros k z L2 HZ. rewrite G2 in HZ. destruct (Nat.eqb_spec k (S m)); [exists 1%nat; split; [lia|congruence]|]. destruct (Nat.eqb_spec k 1); [exists (S m); split; [lia|congruence]|]. eauto. }
    assert (WA : within a a2 (S m)) by exact (within_trans _ _ _ _ W1 W2).
    destruct (IH a2) as (a' & E & W & T).
    + unfold a2. rewrite !set1_length. lia.
    + intros c u v C1 C2 C3 HU HV. assert (c / 2 < S m)%nat by (pose proof (Nat.div_lt c 2 ltac:(lia) ltac:(lia)); lia).
      rewrite G2 in HU, HV. rewrite (proj2 (Nat.eqb_neq c (S m))), (proj2 (Nat.eqb_neq c 1)) in HU by lia. rewrite (proj2 (Nat.eqb_neq (c / 2) (S m))), (proj2 (Nat.eqb_neq (c / 2) 1)) in HV by lia.
      apply (H1 c u v); [lia|lia|lia|exact HU|exact HV].
    + intros i j u v IJ LJ HU HV. destruct (Nat.eq_dec j (S m)) as [->|NJ].
      * rewrite G2, Nat.eqb_refl in HV. assert (v = x) as -> by congruence. destruct WA as (_ & _ & WI). 
        destruct W2 as (_ & _ & WI2). pose proof (get1_bound _ _ _ HU). destruct (WI2 i u ltac:(lia) HU) as (k & LK & HK). apply (heap_max a1 (S m) H1 ltac:(lia) k u x LK HK EX).
      * destruct WA as (_ & WO & WI). rewrite WO in HV by lia. pose proof (get1_bound _ _ _ HU). destruct (Nat.le_gt_cases i (S m)) as [LI|GI].
        -- destruct (WI i u ltac:(lia) HU) as (k & LK & HK). apply (TS k j u v); [lia|lia|exact HK|exact HV].
        -- rewrite WO in HU by lia. apply (TS i j u v); [lia|lia|exact HU|exact HV].
    + exists a'. split; [exact E|]. split; [|exact T]. apply (within_trans _ a2); [|exact W]. destruct WA as (P & WO & WI). split; [exact P|]. split.
      * intros k LK. apply WO. lia.
      * intros k z LK HZ. destruct (Nat.le_gt_cases k (S m)) as [LI|GI]; [destruct (WI k z ltac:(lia) HZ) as (k' & LK' & HK'); exists k'; split; [lia|exact HK']|]. rewrite WO in HZ by lia. exists k. split; [lia|exact HZ].
Qed.
Lemma heapsort_spec a n : (n <= length a)%nat -> exists a', heapsort gt a n = Some a' /\ within a a' n /\ tail_sorted a' 1 n.
Proof.
  intros L. unfold heapsort. destruct (Nat.leb_spec n 1).
  { exists a. split; [reflexivity|]. split; [apply within_refl|]. intros i j x y L1 L2. lia. }
  assert (HB : exists a1, (if (n <=? 3)%nat then Some a else build gt n (n / 2) a) = Some a1 /\ heap a1 2 n 0 /\ within a a1 n).
  { destruct (Nat.leb_spec n 3).
    - exists a. split; [reflexivity|]. split; [|apply within_refl]. intros c x y C1 C2. exfalso. pose proof (Nat.div_le_mono c 3 2 ltac:(lia) ltac:(lia)). change (3 / 2)%nat with 1%nat in *. lia.
    - apply build_spec; [pose proof (Nat.div_lt n 2 ltac:(lia) ltac:(lia)); lia|]. intros c x y C1 C2. exfalso. pose proof (Nat.div_le_mono c n 2 ltac:(lia) ltac:(lia)). lia. }
  destruct HB as (a1 & -> & H1 & W1). cbn [bind]. assert (L1 : length a1 = length a) by (symmetry; apply Permutation_length; apply W1).
  destruct (drain_spec n n a1 ltac:(lia) H1) as (a' & E & W & T). { intros i j x y L2 L3. lia. }
  exists a'. split; [exact E|]. split; [exact (within_trans _ _ _ _ W1 W)|exact T].
Qed.
End Heap.

(** ** Rows *)
Lemma swap_row_spec {K} : forall n (z : list K) p q, (p + n <= q)%nat -> (q + n <= length z)%nat -> exists z', swap_row z p q n = Some z' /\ length z' = length z /\
  forall k, nth_error z' k = nth_error z (if (p <=? k)%nat && (k <? p + n)%nat then q + (k - p) else if (q <=? k)%nat && (k <? q + n)%nat then p + (k - q) else k)%nat.
Proof.
  induction n as [|n IH]; intros z p q PQ L; cbn [swap_row].
  { exists z. split; [reflexivity|]. split; [reflexivity|]. intros k. destruct (Nat.leb_spec p k), (Nat.ltb_spec k (p + 0)), (Nat.leb_spec q k), (Nat.ltb_spec k (q + 0)); cbn [andb]; try reflexivity; lia. }
  destruct (nth_error z q) as [t|] eqn:ET; [|apply nth_error_None in ET; lia]. destruct (nth_error z p) as [u|] eqn:EU; [|apply nth_error_None in EU; lia]. cbn [bind].
  destruct (IH (set_at (set_at z q u) p t) (S p) (S q) ltac:(lia)) as (z' & E & L' & N); [rewrite !set_at_length; lia|]. rewrite !set_at_length in L'. exists z'. split; [exact E|]. split; [exact L'|].
  intros k. rewrite N, !set_at_nth, set_at_length. rewrite (proj2 (Nat.ltb_lt p (length z))), (proj2 (Nat.ltb_lt q (length z))) by lia. rewrite !andb_true_r.
  destruct (Nat.leb_spec p k), (Nat.leb_spec (S p) k), (Nat.ltb_spec k (S p + n)), (Nat.ltb_spec k (p + S n)), (Nat.leb_spec q k), (Nat.leb_spec (S q) k), (Nat.ltb_spec k (S q + n)), (Nat.ltb_spec k (q + S n)); cbn [andb]; try lia;
  repeat match goal with |- context [Nat.eqb ?a ?b] => destruct (Nat.eqb_spec a b); try lia end; try reflexivity; try (rewrite <- ET || rewrite <- EU); f_equal; lia.
Qed.
Definition mirrored (nj j n r : nat) : bool := ((j <=? r)%nat && (r <? j + n)%nat) || ((j <=? nj - 1 - r)%nat && (nj - 1 - r <? j + n)%nat).
Lemma permut_rows_spec {K} ni nj : forall n j (z : list K), (2 * (j + n) <= nj)%nat -> length z = (ni * nj)%nat ->
  exists z', permut_rows z ni nj j n = Some z' /\ length z' = length z /\
    forall r i, (r < nj)%nat -> (i < ni)%nat -> nth_error z' (r * ni + i) = nth_error z ((if mirrored nj j n r then nj - 1 - r else r) * ni + i).
Proof.
  induction n as [|n IH]; intros j z L LZ; cbn [permut_rows].
  { exists z. split; [reflexivity|]. split; [reflexivity|]. intros r i R I. unfold mirrored. destruct (Nat.leb_spec j r), (Nat.ltb_spec r (j + 0)), (Nat.leb_spec j (nj - 1 - r)), (Nat.ltb_spec (nj - 1 - r) (j + 0)); cbn [andb orb]; try reflexivity; lia. }
  destruct (swap_row_spec ni z (j * ni) ((nj - 1 - j) * ni)) as (z1 & E1 & L1 & N1); [nia|nia|]. rewrite E1. cbn [bind].
  destruct (IH (S j) z1 ltac:(lia) ltac:(lia)) as (z' & E & L' & N). exists z'. split; [exact E|]. split; [lia|]. intros r i R I. rewrite N, N1 by assumption. f_equal.
  set (r' := if mirrored nj (S j) n r then (nj - 1 - r)%nat else r).
  assert (Q : forall s, ((s * ni <=? r' * ni + i)%nat && (r' * ni + i <? s * ni + ni)%nat) = (r' =? s)%nat).
  { intros s. destruct (Nat.eqb_spec r' s) as [->|NE]; [rewrite (proj2 (Nat.leb_le _ _)), (proj2 (Nat.ltb_lt _ _)) by lia; reflexivity|].
    destruct (Nat.lt_gt_cases r' s) as [LG _]. destruct (LG NE); [rewrite (proj2 (Nat.leb_gt _ _)) by nia; reflexivity|]. rewrite (proj2 (Nat.ltb_ge _ _)) by nia. apply andb_false_r. }
  rewrite !Q. assert (RC : mirrored nj j (S n) r = mirrored nj (S j) n r || ((r =? j)%nat || (nj - 1 - r =? j)%nat)).
  { unfold mirrored. destruct (Nat.leb_spec j r), (Nat.leb_spec (S j) r), (Nat.ltb_spec r (j + S n)), (Nat.ltb_spec r (S j + n)), (Nat.leb_spec j (nj - 1 - r)), (Nat.leb_spec (S j) (nj - 1 - r)), (Nat.ltb_spec (nj - 1 - r) (j + S n)), (Nat.ltb_spec (nj - 1 - r) (S j + n)), (Nat.eqb_spec r j), (Nat.eqb_spec (nj - 1 - r) j); cbn [andb orb]; try reflexivity; lia. }
  rewrite RC. unfold r'. destruct (mirrored nj (S j) n r) eqn:M; cbn [orb].
  - unfold mirrored in M. assert (r <> j /\ (nj - 1 - r)%nat <> j /\ (nj - 1 - r)%nat <> (nj - 1 - j)%nat).
    { apply orb_true_iff in M. destruct M as [M|M]; apply andb_true_iff in M; destruct M as (M1 & M2); apply Nat.leb_le in M1; apply Nat.ltb_lt in M2; lia. }
    rewrite (proj2 (Nat.eqb_neq (nj - 1 - r) j)), (proj2 (Nat.eqb_neq (nj - 1 - r) (nj - 1 - j))) by lia. reflexivity.
  - destruct (Nat.eqb_spec r j) as [->|NE]; cbn [orb]; [lia|]. destruct (Nat.eqb_spec r (nj - 1 - j)) as [->|NE2].
    + replace (nj - 1 - (nj - 1 - j))%nat with j by lia. rewrite Nat.eqb_refl. lia.
    + rewrite (proj2 (Nat.eqb_neq (nj - 1 - r) j)) by lia. reflexivity.
Qed.

(** ** Strings *)
Lemma strncmp_anti : forall a b, strncmp b a = - strncmp a b.
Proof.
  induction a as [|x a IH]; intros [|y b]; try reflexivity. cbn [strncmp]. rewrite (Z.eqb_sym y x). destruct (Z.eqb_spec x y) as [->|]; [|lia]. destruct (y =? 0); [reflexivity|apply IH].
Qed.
Lemma strncmp_trans : forall a b c, length a = length b -> length b = length c -> strncmp a b <= 0 -> strncmp b c <= 0 -> strncmp a c <= 0.
Proof.
  induction a as [|x a IH]; intros [|y b] [|z c] L1 L2; cbn [length strncmp] in *; try lia.
  destruct (Z.eqb_spec x y) as [->|N1], (Z.eqb_spec y z) as [->|N2].
  - destruct (z =? 0); [lia|]. apply IH; lia.
  - intros _ H. exact H.
  - intros H _. rewrite (proj2 (Z.eqb_neq _ _) N1). exact H.
  - intros A B. rewrite (proj2 (Z.eqb_neq x z)) by lia. lia.
Qed.
Lemma nth_error_skipn {A} : forall n (l : list A) k, nth_error (skipn n l) k = nth_error l (n + k).
Proof. induction n; intros l k; [reflexivity|]. destruct l; [destruct k; reflexivity|]. cbn. apply IHn. Qed.
Lemma nth_error_firstn {A} : forall n (l : list A) k, (k < n)%nat -> nth_error (firstn n l) k = nth_error l k.
Proof. induction n; intros l k L; [lia|]. destruct l; [reflexivity|]. destruct k; [reflexivity|]. cbn. apply IHn. lia. Qed.
