(** C36: sorting. [gt x y]: x comes strictly after y. *)
From Coq Require Import ZArith List Lia Bool Permutation.
From Verif Require Import Bits Sort SortFacts.
Import ListNotations.
Open Scope Z_scope.

(** The keys designated by the indices (from 1) do not decrease. *)
Definition in_order {K} (gt : K -> K -> bool) (ks : list K) (p : list Z) : Prop :=
  forall i j x y, (i < j < length p)%nat -> nth_error ks (Z.to_nat (nth i p 0 - 1)) = Some x -> nth_error ks (Z.to_nat (nth j p 0 - 1)) = Some y -> gt x y = false.
(** A strict order whose "not after" relation is transitive. *)
Definition good_order {K} (gt : K -> K -> bool) : Prop :=
  (forall x y, gt x y = true -> gt y x = false) /\ (forall x y z, gt x y = false -> gt y z = false -> gt x z = false).

(** From a given list of indices, csort ends after finitely many passes with a
    permutation of them that orders the keys. What follows in the array stays. *)
Theorem c36_csort : forall K (gt : K -> K -> bool) (ks : list K) (p t : list Z), good_order gt ->
  (1 <= length p)%nat -> Z.of_nat (length p) < 2 ^ 31 -> (forall x, In x p -> 1 <= x <= Z.of_nat (length ks)) ->
  exists fuel0, forall fuel, (fuel0 <= fuel)%nat ->
    exists p', csort gt fuel ks (p ++ t) (length p) = Some (p' ++ t) /\ Permutation p p' /\ in_order gt ks p'.
Proof.
  intros K gt ks p t (AS & TR) L1 L2 IN. pose proof (range_valid ks p IN) as V.
  destruct (comb_any gt ks AS (S (length p)) (Z.of_nat (length p)) p ltac:(lia) ltac:(lia) V) as (f0 & F). exists f0. intros fuel LF. destruct (F fuel LF) as (p' & E & PE & ST). exists p'. split; [|split; [exact PE|]].
  - unfold csort. destruct p as [|a p]; [cbn in L1; lia|]. cbn [nth_error app bind]. rewrite (proj2 (Nat.ltb_ge _ _)) by (rewrite app_comm_cons, app_length; lia).
    rewrite (proj2 (Z.leb_gt _ _)) by (specialize (IN a (or_introl eq_refl)); lia). exact (E t).
  - intros i j x y IJ HX HY. pose proof (valid_perm _ _ _ PE V) as V'.
    assert (NI : nth_error p' i = Some (nth i p' 0)) by (apply nth_error_nth'; lia). assert (NJ : nth_error p' j = Some (nth j p' 0)) by (apply nth_error_nth'; lia).
    pose proof (settled_sorted gt ks p' TR V' ST i j _ _ (proj1 IJ) NI NJ) as S. unfold gtp, key_at in S.
    assert (R : forall k, (k < length p')%nat -> 1 <= nth k p' 0). { intros k KL. apply (IN (nth k p' 0)). apply (Permutation_in _ (Permutation_sym PE)). apply nth_In. exact KL. }
    rewrite !(proj2 (Z.ltb_ge _ _)) in S by (apply R; lia). rewrite HX, HY in S. exact S.
Qed.
Print Assumptions c36_csort.

(** ipsort fills the first [size] elements of the array, whatever they were,
    with the permutation of 1 .. size that orders the keys. *)
Theorem c36_ipsort : forall K (gt : K -> K -> bool) (ks : list K) (idx : list Z) (size : nat), good_order gt ->
  (1 <= size <= length ks)%nat -> (size <= length idx)%nat -> Z.of_nat size < 2 ^ 31 ->
  exists fuel0, forall fuel, (fuel0 <= fuel)%nat ->
    exists p, ipsort gt fuel idx ks size = Some (p ++ skipn size idx) /\
      length p = size /\ NoDup p /\ (forall x, In x p <-> 1 <= x <= Z.of_nat size) /\ in_order gt ks p.
Proof.
  intros K gt ks idx size GO LS LI L31.
  destruct (c36_csort K gt ks (iota size) (skipn size idx) GO) as (f0 & F); [rewrite iota_length; lia|rewrite iota_length; lia|intros x X; apply iota_in in X; lia|].
  exists f0. intros fuel LF. destruct (F fuel LF) as (p & E & PE & SO). rewrite iota_length in E. exists p. split; [|split; [|split; [|split; [|exact SO]]]].
  - unfold ipsort. destruct idx as [|i0 idx]; [cbn in LI; lia|]. unfold csort in *. cbn [nth_error bind]. rewrite (proj2 (Nat.ltb_ge _ _)) by (cbn [length] in *; lia). change (-1 <=? 0) with true. cbv iota.
    destruct size as [|n]; [lia|]. cbn [skipn] in *. rewrite <- E. change (iota (S n)) with (1 :: map (fun i => Z.of_nat i + 1) (seq 1 n)) at 2 3 4. cbn [app nth_error bind]. rewrite (proj2 (Nat.ltb_ge _ _)); [reflexivity|]. cbn [length]. rewrite app_length, map_length, seq_length. lia.
  - rewrite <- (Permutation_length PE). apply iota_length.
  - apply (Permutation_NoDup PE). unfold iota. apply FinFun.Injective_map_NoDup; [intros a b H; lia|apply seq_NoDup].
  - intros x. rewrite <- iota_in. split; [apply Permutation_in; symmetry; exact PE|apply Permutation_in; exact PE].
Qed.
Print Assumptions c36_ipsort.

(** The comparisons are such orders: of integers, of strings of a given length,
    and of reals that are numbers. *)
Theorem c36_orders : forall len, good_order gt_int /\
  good_order (fun a b : {l : list Z | length l = len} => gt_str (proj1_sig a) (proj1_sig b)) /\
  good_order (fun a b : Z => gt_real (Num a) (Num b)).
Proof.
  intros len. assert (I : good_order gt_int). { split; unfold gt_int; intros x y; [intros H; apply Z.ltb_lt in H; apply Z.ltb_ge; lia|intros z H1 H2; apply Z.ltb_ge in H1, H2; apply Z.ltb_ge; lia]. }
  split; [exact I|]. split; [|exact I]. split; unfold gt_str.
  - intros (x & X) (y & Y) H. cbn [proj1_sig] in *. apply Z.ltb_lt in H. apply Z.ltb_ge. rewrite (strncmp_anti x y). lia.
  - intros (x & X) (y & Y) (z & Zl) H1 H2. cbn [proj1_sig] in *. apply Z.ltb_ge in H1, H2. apply Z.ltb_ge. apply (strncmp_trans x y z); congruence.
Qed.
Print Assumptions c36_orders.

Example c36_ipsort_demo : ipsort gt_int 20 [0; 0; 0; 0; 0; 77] [30; 10; 20; 10; 5] 5 = Some [5; 4; 2; 3; 1; 77].
Proof. vm_compute. reflexivity. Qed.
Example c36_csort_demo : csort gt_int 20 [30; 10; 20; 10; 5] [3; 1; 5] 3 = Some [5; 3; 1].
Proof. vm_compute. reflexivity. Qed.
Example c36_string_demo : ipsort gt_str 20 [0; 0; 0] [[98; 97]; [97; 0]; [97; 98]] 3 = Some [2; 3; 1].
Proof. vm_compute. reflexivity. Qed.

(** With a value that is not a number, the numbers may be left out of order. *)
Theorem c36_nan_refuted : ipsort gt_real 20 (repeat 0 5) [Num 2; Num 1; NaN; Num 2; Num 1] 5 = Some [2; 1; 3; 5; 4].
Proof. vm_compute. reflexivity. Qed.
Print Assumptions c36_nan_refuted.

(** SORT and ISORT: the first [n] elements end in non-decreasing order, as a
    permutation of what they were; the other elements stay. *)
Theorem c36_heapsort : forall K (gt : K -> K -> bool) (p t : list K), good_order gt ->
  exists p', heapsort gt (p ++ t) (length p) = Some (p' ++ t) /\ Permutation p p' /\
    forall i j x y, (i < j)%nat -> nth_error p' i = Some x -> nth_error p' j = Some y -> gt x y = false.
Proof.
  intros K gt p t (AS & TR). destruct (heapsort_spec gt AS TR (p ++ t) (length p)) as (a & E & (PE & OUT & _) & T); [rewrite app_length; lia|].
  assert (LA : length a = (length p + length t)%nat) by (rewrite <- (Permutation_length PE); apply app_length).
  assert (TL : skipn (length p) a = t).
  { apply nth_error_eq. intros k. rewrite nth_error_skipn. pose proof (OUT (S (length p + k)) ltac:(lia)) as O. cbn [get1] in O. rewrite O, nth_error_app2 by lia. f_equal. lia. }
  exists (firstn (length p) a). rewrite <- TL at 2. rewrite firstn_skipn. split; [exact E|]. split.
  - apply (Permutation_app_inv_r t). rewrite <- TL at 2. rewrite firstn_skipn. exact PE.
  - intros i j x y IJ HX HY. assert (i < length p /\ j < length p)%nat. { split; (eapply Nat.lt_le_trans; [apply nth_error_Some; rewrite ?HX, ?HY; discriminate|rewrite firstn_length; lia]). }
    rewrite nth_error_firstn in HX, HY by lia. apply (T (S i) (S j) x y); [lia|lia|exact HX|exact HY].
Qed.
Print Assumptions c36_heapsort.
Example c36_heapsort_demo : heapsort gt_int [5; 3; 9; 1; 7; 3; 100; 0] 6 = Some [1; 3; 3; 5; 7; 9; 100; 0].
Proof. vm_compute. reflexivity. Qed.

(** PERMUT: row j becomes row nj - 1 - j (from 0); twice, the matrix is back. *)
Theorem c36_permut : forall K (z : list K) ni nj, length z = (ni * nj)%nat ->
  exists z', permut z ni nj = Some z' /\ length z' = length z /\
    (forall r i, (r < nj)%nat -> (i < ni)%nat -> nth_error z' (r * ni + i) = nth_error z ((nj - 1 - r) * ni + i)) /\
    permut z' ni nj = Some z.
Proof.
  intros K z ni nj LZ.
  assert (M : forall r, (r < nj)%nat -> (if mirrored nj 0 (nj / 2) r then (nj - 1 - r)%nat else r) = (nj - 1 - r)%nat).
  { intros r R. unfold mirrored. pose proof (Nat.div_mod nj 2 ltac:(lia)). pose proof (Nat.mod_upper_bound nj 2 ltac:(lia)). cbn [Nat.leb andb Nat.add].
    destruct (Nat.ltb_spec r (nj / 2)), (Nat.ltb_spec (nj - 1 - r) (nj / 2)); cbn [orb]; lia. }
  assert (B : (2 * (0 + nj / 2) <= nj)%nat) by (pose proof (Nat.div_mod nj 2 ltac:(lia)); lia).
  destruct (permut_rows_spec ni nj (nj / 2) 0 z B LZ) as (z' & E & L & N). exists z'. split; [exact E|]. split; [exact L|].
  assert (N' : forall r i, (r < nj)%nat -> (i < ni)%nat -> nth_error z' (r * ni + i) = nth_error z ((nj - 1 - r) * ni + i)). { intros r i R I. rewrite N by assumption. rewrite M by exact R. reflexivity. }
  split; [exact N'|].
  destruct (permut_rows_spec ni nj (nj / 2) 0 z' B ltac:(lia)) as (z2 & E2 & L2 & N2). unfold permut. rewrite E2. f_equal. apply nth_error_eq. intros k.
  destruct (Nat.lt_ge_cases k (ni * nj)) as [LK|GK]; [|rewrite !(proj2 (nth_error_None _ _)) by lia; reflexivity].
  assert (NI : ni <> 0%nat) by (intros ->; lia). pose proof (Nat.div_mod k ni NI). pose proof (Nat.mod_upper_bound k ni NI). assert (k / ni < nj)%nat by (apply Nat.div_lt_upper_bound; lia).
  replace k with (k / ni * ni + k mod ni)%nat by lia. rewrite N2, M, N' by lia. f_equal. f_equal. f_equal. lia.
Qed.
Print Assumptions c36_permut.
Example c36_permut_demo : permut [1; 2; 3; 4; 5; 6] 2 3 = Some [5; 6; 3; 4; 1; 2].
Proof. vm_compute. reflexivity. Qed.
