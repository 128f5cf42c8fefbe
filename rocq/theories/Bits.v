(** Big-endian bit lists and lists of 32-bit words.
    This file is a library: nothing in it models librmn code. It gives the
    vocabulary ("bit k of the packed array", "overwrite the bits at position
    p") in which the properties of the packers are stated. *)
From Coq Require Import ZArith List Lia Bool.
Import ListNotations.
Open Scope Z_scope.

(** The low [n] bits of [v], most significant first. *)
Fixpoint bits_of (n : nat) (v : Z) : list bool :=
  match n with
  | O => []
  | S n' => Z.testbit v (Z.of_nat n') :: bits_of n' v
  end.

(** The value of a bit list read most significant bit first. *)
Definition val_of (l : list bool) : Z :=
  fold_left (fun a (b : bool) => 2 * a + (if b then 1 else 0)) l 0.

(** The bits of an array of words of [w] bits each. *)
Definition mbits (w : nat) (mem : list Z) : list bool := flat_map (bits_of w) mem.

(** [overwrite p bs l]: the list [l] with the bits from position [p] on
    replaced by [bs]. *)
Definition overwrite {A} (p : nat) (bs l : list A) : list A :=
  firstn p l ++ bs ++ skipn (p + length bs) l.

(** Bounds-checked array access. *)
Definition rd {A} (l : list A) (i : nat) : option A := nth_error l i.

Fixpoint wr {A} (l : list A) (i : nat) (v : A) : option (list A) :=
  match l, i with
  | [], _ => None
  | _ :: t, O => Some (v :: t)
  | h :: t, S i' => match wr t i' v with Some t' => Some (h :: t') | None => None end
  end.

Definition bind {A B} (x : option A) (f : A -> option B) : option B :=
  match x with Some a => f a | None => None end.
Declare Scope opt_scope.
Notation "x <- e ;; f" := (bind e (fun x => f)) (at level 61, e at next level, right associativity) : opt_scope.
Notation "' p <- e ;; f" := (bind e (fun p => f)) (at level 61, p pattern, e at next level, right associativity) : opt_scope.

(** * Facts *)

Lemma bits_of_length n v : length (bits_of n v) = n.
Proof. induction n; simpl; congruence. Qed.

Lemma bits_of_testbit_ext n v w :
  (forall i, 0 <= i < Z.of_nat n -> Z.testbit v i = Z.testbit w i) ->
  bits_of n v = bits_of n w.
Proof.
  induction n; intros H; simpl; auto. f_equal.
  - apply H. lia.
  - apply IHn. intros. apply H. lia.
Qed.

Lemma bits_of_app n m v :
  bits_of (n + m) v = bits_of n (Z.shiftr v (Z.of_nat m)) ++ bits_of m v.
Proof.
  induction n; simpl; auto.
  rewrite IHn. f_equal. rewrite Z.shiftr_spec by lia. f_equal. lia.
Qed.

Lemma bits_of_mod n m v : (n <= m)%nat -> bits_of n (v mod 2 ^ Z.of_nat m) = bits_of n v.
Proof.
  intros. apply bits_of_testbit_ext. intros. apply Z.mod_pow2_bits_low. lia.
Qed.

Lemma fold_val_acc l a :
  fold_left (fun a (b : bool) => 2 * a + (if b then 1 else 0)) l a
  = a * 2 ^ Z.of_nat (length l) + val_of l.
Proof.
  unfold val_of. revert a. induction l as [|b l IH]; intros; simpl length.
  - simpl. lia.
  - cbn [fold_left]. rewrite IH, (IH (2 * 0 + _)). rewrite Nat2Z.inj_succ, Z.pow_succ_r by lia.
    ring.
Qed.

Lemma val_of_cons b l : val_of (b :: l) = (if b then 1 else 0) * 2 ^ Z.of_nat (length l) + val_of l.
Proof. unfold val_of at 1. cbn [fold_left]. rewrite fold_val_acc. destruct b; reflexivity. Qed.

Lemma val_of_app l m : val_of (l ++ m) = val_of l * 2 ^ Z.of_nat (length m) + val_of m.
Proof.
  unfold val_of at 1. rewrite fold_left_app. rewrite fold_val_acc. reflexivity.
Qed.

Lemma val_of_range l : 0 <= val_of l < 2 ^ Z.of_nat (length l).
Proof.
  induction l as [|b l IH]. { cbv. split; congruence. }
  rewrite val_of_cons. simpl length. rewrite Nat2Z.inj_succ, Z.pow_succ_r by lia.
  destruct b; lia.
Qed.

Lemma val_of_bits_of n v : val_of (bits_of n v) = v mod 2 ^ Z.of_nat n.
Proof.
  induction n.
  - cbn [bits_of]. rewrite Z.mod_1_r. reflexivity.
  - cbn [bits_of]. rewrite val_of_cons, bits_of_length, IHn.
    rewrite <- !Z.land_ones by lia.
    assert (E : (if Z.testbit v (Z.of_nat n) then 1 else 0) * 2 ^ Z.of_nat n
                = Z.land v (Z.shiftl 1 (Z.of_nat n))).
    { apply Z.bits_inj'. intros i Hi. rewrite Z.land_spec, Z.shiftl_spec by lia.
      rewrite <- Z.shiftl_mul_pow2 by lia. rewrite Z.shiftl_spec by lia.
      destruct (Z.eq_dec i (Z.of_nat n)).
      - subst. rewrite Z.sub_diag. destruct (Z.testbit v _); reflexivity.
      - assert (Z.testbit 1 (i - Z.of_nat n) = false).
        { destruct (Z.lt_ge_cases (i - Z.of_nat n) 0).
          - apply Z.testbit_neg_r; auto.
          - apply Z.bits_above_log2; simpl; lia. }
        rewrite H. rewrite andb_false_r.
        destruct (Z.testbit v (Z.of_nat n)); auto. apply Z.testbit_0_l. }
    rewrite E. rewrite Z.add_nocarry_lxor.
    + apply Z.bits_inj'. intros i Hi. rewrite Z.lxor_spec, !Z.land_spec.
      rewrite Z.shiftl_spec by lia. rewrite !Z.testbit_ones_nonneg by lia.
      destruct (Z.eq_dec i (Z.of_nat n)).
      * subst. rewrite Z.sub_diag. rewrite Z.ltb_irrefl.
        replace (Z.of_nat n <? Z.of_nat (S n)) with true by (symmetry; apply Z.ltb_lt; lia).
        simpl. rewrite andb_false_r, xorb_false_r. reflexivity.
      * assert (Z.testbit 1 (i - Z.of_nat n) = false).
        { destruct (Z.lt_ge_cases (i - Z.of_nat n) 0).
          - apply Z.testbit_neg_r; auto.
          - apply Z.bits_above_log2; simpl; lia. }
        rewrite H, andb_false_r, xorb_false_l.
        replace (i <? Z.of_nat (S n)) with (i <? Z.of_nat n); auto.
        destruct (Z.ltb_spec i (Z.of_nat n)), (Z.ltb_spec i (Z.of_nat (S n))); auto; lia.
    + apply Z.bits_inj'. intros i Hi. rewrite !Z.land_spec, Z.shiftl_spec, Z.testbit_0_l by lia.
      rewrite Z.testbit_ones_nonneg by lia.
      destruct (Z.ltb_spec i (Z.of_nat n)).
      * rewrite (Z.testbit_neg_r 1) by lia. rewrite andb_false_r. reflexivity.
      * rewrite !andb_false_r. reflexivity.
Qed.

Lemma bits_of_val_of l : bits_of (length l) (val_of l) = l.
Proof.
  induction l as [|b l IH]; auto.
  cbn [length bits_of]. rewrite val_of_cons.
  pose proof (val_of_range l). f_equal.
  - assert (Hp : 0 < 2 ^ Z.of_nat (length l)) by (apply Z.pow_pos_nonneg; lia).
    destruct b.
    + apply Z.testbit_true; [lia|]. rewrite Z.add_comm, Z.div_add, Z.div_small by lia. reflexivity.
    + apply Z.testbit_false; [lia|]. rewrite Z.mul_0_l, Z.add_0_l, Z.div_small by lia. reflexivity.
  - assert (Hp : 0 < 2 ^ Z.of_nat (length l)) by (apply Z.pow_pos_nonneg; lia).
    rewrite <- IH at 4. rewrite <- (bits_of_mod _ (length l)) by lia.
    rewrite Z.add_comm, Z.mod_add by lia.
    rewrite bits_of_mod by lia. reflexivity.
Qed.

Lemma val_of_inj l m : length l = length m -> val_of l = val_of m -> l = m.
Proof. intros E V. rewrite <- (bits_of_val_of l), <- (bits_of_val_of m), E, V. reflexivity. Qed.

Lemma bits_of_inj n v w : 0 <= v < 2 ^ Z.of_nat n -> 0 <= w < 2 ^ Z.of_nat n ->
  bits_of n v = bits_of n w -> v = w.
Proof.
  intros Hv Hw E. rewrite <- (Z.mod_small v (2 ^ Z.of_nat n)), <- (Z.mod_small w (2 ^ Z.of_nat n)) by lia.
  rewrite <- !val_of_bits_of, E. reflexivity.
Qed.

(** ** overwrite *)
Lemma overwrite_length {A} p (bs l : list A) :
  (p + length bs <= length l)%nat -> length (overwrite p bs l) = length l.
Proof.
  intros. unfold overwrite. rewrite !app_length, firstn_length, skipn_length. lia.
Qed.

Lemma overwrite_nil {A} p (l : list A) : overwrite p [] l = l.
Proof. unfold overwrite. simpl. rewrite Nat.add_0_r. apply firstn_skipn. Qed.

Lemma skipn_skipn' {A} (x y : nat) (l : list A) : skipn x (skipn y l) = skipn (y + x) l.
Proof. revert l. induction y; intros [|h t]; simpl; auto. apply skipn_nil. Qed.

Lemma overwrite_split {A} (x y z bs : list A) p :
  p = length x -> length y = length bs -> overwrite p bs (x ++ y ++ z) = x ++ bs ++ z.
Proof.
  intros -> E. unfold overwrite.
  rewrite firstn_app, firstn_all, Nat.sub_diag, firstn_O, app_nil_r. f_equal. f_equal.
  rewrite skipn_app, skipn_all2 by lia.
  replace (length x + length bs - length x)%nat with (length bs) by lia.
  rewrite <- E. rewrite skipn_app, skipn_all, Nat.sub_diag. reflexivity.
Qed.

Lemma split3 {A} (l : list A) p q : (p + q <= length l)%nat ->
  exists x y z, l = x ++ y ++ z /\ length x = p /\ length y = q.
Proof.
  intros. exists (firstn p l), (firstn q (skipn p l)), (skipn q (skipn p l)).
  rewrite !firstn_skipn. split; auto. rewrite !firstn_length, skipn_length. lia.
Qed.

Lemma overwrite_app {A} p (a b l : list A) :
  (p + length a + length b <= length l)%nat ->
  overwrite p (a ++ b) l = overwrite (p + length a) b (overwrite p a l).
Proof.
  intros. destruct (split3 l p (length a + length b)) as (x & y & z & -> & Hx & Hy); [lia|].
  rewrite overwrite_split by (rewrite ?app_length; lia).
  destruct (split3 y (length a) (length b)) as (y1 & y2 & y3 & -> & H1 & H2); [lia|].
  assert (length y3 = 0)%nat by (rewrite !app_length in Hy; lia).
  destruct y3; [|discriminate]. rewrite app_nil_r.
  rewrite <- (app_assoc y1 y2 z). rewrite overwrite_split by (rewrite ?app_length; lia).
  rewrite (app_assoc x a). rewrite overwrite_split by (rewrite ?app_length; lia).
  rewrite <- !app_assoc. reflexivity.
Qed.

(** Bits outside the overwritten range are unchanged. *)
Lemma overwrite_nth_out {A} p (bs l : list A) i d :
  (p + length bs <= length l)%nat -> (i < p \/ p + length bs <= i)%nat ->
  nth i (overwrite p bs l) d = nth i l d.
Proof.
  intros Hl Hi. unfold overwrite.
  destruct Hi.
  - rewrite app_nth1 by (rewrite firstn_length; lia).
    rewrite <- (firstn_skipn p l) at 2. rewrite app_nth1 by (rewrite firstn_length; lia). reflexivity.
  - rewrite app_nth2 by (rewrite firstn_length; lia). rewrite firstn_length.
    rewrite Nat.min_l by lia. rewrite app_nth2 by lia.
    rewrite <- (firstn_skipn (p + length bs) l) at 2.
    rewrite (app_nth2 (firstn _ _)) by (rewrite firstn_length; lia).
    rewrite firstn_length. f_equal. lia.
Qed.

Lemma overwrite_nth_in {A} p (bs l : list A) i d :
  (p + length bs <= length l)%nat -> (i < length bs)%nat ->
  nth (p + i) (overwrite p bs l) d = nth i bs d.
Proof.
  intros Hl Hi. unfold overwrite.
  rewrite app_nth2 by (rewrite firstn_length; lia). rewrite firstn_length.
  rewrite Nat.min_l by lia. rewrite app_nth1 by lia. f_equal. lia.
Qed.

(** The overwritten slice reads back. *)
Lemma overwrite_slice {A} p (bs l : list A) :
  (p + length bs <= length l)%nat ->
  firstn (length bs) (skipn p (overwrite p bs l)) = bs.
Proof.
  intros. unfold overwrite. rewrite skipn_app.
  rewrite skipn_all2 by (rewrite firstn_length; lia). rewrite firstn_length.
  rewrite Nat.min_l by lia. rewrite Nat.sub_diag. simpl.
  rewrite firstn_app, Nat.sub_diag, firstn_all, firstn_O. apply app_nil_r.
Qed.

Lemma overwrite_skip {A} p (bs l : list A) q :
  (p + length bs <= length l)%nat -> (p + length bs <= q)%nat ->
  skipn q (overwrite p bs l) = skipn q l.
Proof.
  intros. unfold overwrite. rewrite app_assoc. rewrite skipn_app.
  rewrite skipn_all2 by (rewrite app_length, firstn_length; lia).
  rewrite app_length, firstn_length. rewrite Nat.min_l by lia. simpl.
  rewrite skipn_skipn'. f_equal. lia.
Qed.

Lemma overwrite_first {A} p (bs l : list A) q :
  (p <= length l)%nat -> (q <= p)%nat -> firstn q (overwrite p bs l) = firstn q l.
Proof.
  intros. unfold overwrite. rewrite firstn_app, firstn_length, Nat.min_l by lia.
  replace (q - p)%nat with 0%nat by lia. simpl. rewrite app_nil_r.
  rewrite firstn_firstn. f_equal. lia.
Qed.

(** ** memory *)
Lemma mbits_length w mem : length (mbits w mem) = (w * length mem)%nat.
Proof.
  unfold mbits. induction mem; simpl; [lia|].
  rewrite app_length, bits_of_length, IHmem. lia.
Qed.

Lemma mbits_app w a b : mbits w (a ++ b) = mbits w a ++ mbits w b.
Proof. unfold mbits. apply flat_map_app. Qed.

Lemma wr_length {A} (l : list A) i v l' : wr l i v = Some l' -> length l' = length l.
Proof.
  revert i l'. induction l; intros [|i] l'; simpl; try discriminate.
  - intros [= <-]. reflexivity.
  - destruct (wr l i v) eqn:E; intros [= <-]. simpl. f_equal. eauto.
Qed.

Lemma wr_some {A} (l : list A) i v : (i < length l)%nat -> exists l', wr l i v = Some l'.
Proof.
  revert i. induction l; simpl; intros; [lia|]. destruct i; eauto.
  destruct (IHl i) as [l' E]; [lia|]. rewrite E. eauto.
Qed.

Lemma wr_lt {A} (l : list A) i v l' : wr l i v = Some l' -> (i < length l)%nat.
Proof.
  revert i l'. induction l; intros [|i] l'; simpl; try discriminate; try lia.
  destruct (wr l i v) eqn:E; try discriminate. intros. apply IHl in E. lia.
Qed.

Lemma wr_eq {A} (l : list A) i v l' : wr l i v = Some l' -> l' = firstn i l ++ v :: skipn (S i) l.
Proof.
  revert i l'. induction l; intros [|i] l'; simpl; try discriminate.
  - intros [= <-]. reflexivity.
  - destruct (wr l i v) eqn:E; intros [= <-]. simpl. f_equal. rewrite (IHl _ _ E).
    destruct l; reflexivity.
Qed.

Lemma wr_same {A} (l : list A) i v l' : wr l i v = Some l' -> nth_error l' i = Some v.
Proof.
  revert i l'. induction l; intros [|i] l'; simpl; try discriminate.
  - intros [= <-]. reflexivity.
  - destruct (wr l i v) eqn:E; intros [= <-]. simpl. eauto.
Qed.

Lemma wr_other {A} (l : list A) i v l' j : wr l i v = Some l' -> i <> j -> nth_error l' j = nth_error l j.
Proof.
  revert i j l'. induction l; intros [|i] [|j] l'; simpl; try discriminate; try congruence.
  - intros [= <-]. reflexivity.
  - destruct (wr l i v) eqn:E; intros [= <-]; simpl; auto.
  - destruct (wr l i v) eqn:E; intros [= <-]; simpl; eauto.
Qed.

Lemma mbits_firstn w mem i : mbits w (firstn i mem) = firstn (w * i) (mbits w mem).
Proof.
  revert i. induction mem; intros.
  - rewrite !firstn_nil. reflexivity.
  - destruct i; simpl. { rewrite Nat.mul_0_r. reflexivity. }
    unfold mbits in *. simpl. rewrite IHmem. rewrite firstn_app, bits_of_length.
    rewrite (firstn_all2 (bits_of w a)) by (rewrite bits_of_length; lia).
    f_equal. f_equal. lia.
Qed.

Lemma mbits_skipn w mem i : mbits w (skipn i mem) = skipn (w * i) (mbits w mem).
Proof.
  revert i. induction mem; intros.
  - rewrite !skipn_nil. reflexivity.
  - destruct i; simpl. { rewrite Nat.mul_0_r. reflexivity. }
    unfold mbits in *. simpl. rewrite IHmem. rewrite skipn_app, bits_of_length.
    rewrite (skipn_all2 (bits_of w a)) by (rewrite bits_of_length; lia). simpl.
    f_equal. lia.
Qed.

Lemma mbits_wr w mem i v mem' : wr mem i v = Some mem' ->
  mbits w mem' = overwrite (w * i) (bits_of w v) (mbits w mem).
Proof.
  intros H. pose proof (wr_lt _ _ _ _ H). apply wr_eq in H. subst.
  unfold overwrite. rewrite bits_of_length.
  change (v :: skipn (S i) mem) with ([v] ++ skipn (S i) mem).
  rewrite !mbits_app, mbits_skipn, mbits_firstn.
  replace (mbits w [v]) with (bits_of w v) by (unfold mbits; simpl; rewrite app_nil_r; reflexivity).
  replace (w * S i)%nat with (w * i + w)%nat by lia. reflexivity.
Qed.

Lemma mbits_rd w mem i v : rd mem i = Some v ->
  firstn w (skipn (w * i) (mbits w mem)) = bits_of w v.
Proof.
  unfold rd. intros H. rewrite <- mbits_skipn. apply nth_error_split in H.
  destruct H as (a & b & E & L). subst.
  rewrite skipn_app, skipn_all, Nat.sub_diag. simpl skipn. simpl app.
  unfold mbits. simpl. rewrite firstn_app, bits_of_length, Nat.sub_diag, firstn_O, app_nil_r.
  apply firstn_all2. rewrite bits_of_length; lia.
Qed.

Lemma rd_some {A} (l : list A) i : (i < length l)%nat -> exists v, rd l i = Some v.
Proof.
  intros. unfold rd. destruct (nth_error l i) eqn:E; eauto.
  apply nth_error_None in E. lia.
Qed.

Lemma rd_lt {A} (l : list A) i v : rd l i = Some v -> (i < length l)%nat.
Proof. unfold rd. intros. apply nth_error_Some. congruence. Qed.

Lemma mbits_inj w m1 m2 :
  (0 < w)%nat ->
  Forall (fun v => 0 <= v < 2 ^ Z.of_nat w) m1 -> Forall (fun v => 0 <= v < 2 ^ Z.of_nat w) m2 ->
  mbits w m1 = mbits w m2 -> m1 = m2.
Proof.
  intros Hw F1. revert m2. induction F1 as [|x m1 Hx F1 IH]; intros m2 F2 E.
  - pose proof (f_equal (@length bool) E) as L. rewrite !mbits_length in L. simpl in L.
    destruct m2; auto. simpl in L. nia.
  - destruct F2 as [|y m2 Hy F2].
    + pose proof (f_equal (@length bool) E) as L. rewrite !mbits_length in L. simpl in L. nia.
    + unfold mbits in E. simpl in E.
      assert (bits_of w x = bits_of w y /\ mbits w m1 = mbits w m2) as [E1 E2].
      { pose proof (f_equal (firstn w) E) as A. pose proof (f_equal (skipn w) E) as B.
        rewrite !firstn_app, !bits_of_length, !Nat.sub_diag, !firstn_O, !app_nil_r in A.
        rewrite (firstn_all2 (bits_of w x)), (firstn_all2 (bits_of w y)) in A
          by (rewrite bits_of_length; lia).
        rewrite !skipn_app, !bits_of_length, !Nat.sub_diag in B.
        rewrite (skipn_all2 (bits_of w x)), (skipn_all2 (bits_of w y)) in B
          by (rewrite bits_of_length; lia).
        simpl in B. split; assumption. }
      f_equal; eauto using bits_of_inj.
Qed.

Lemma Forall_firstn {A} (P : A -> Prop) n l : Forall P l -> Forall P (firstn n l).
Proof. intros F. revert n. induction F; intros [|n]; simpl; auto. Qed.

Lemma Forall_skipn {A} (P : A -> Prop) n l : Forall P l -> Forall P (skipn n l).
Proof. intros F. revert n. induction F; intros [|n]; simpl; auto. Qed.

Lemma app_inj_len {A} (a b c d : list A) : length a = length c -> a ++ b = c ++ d -> a = c /\ b = d.
Proof.
  revert c. induction a; intros [|x c]; simpl; try discriminate; auto.
  intros [= L] [= -> E]. destruct (IHa _ L E). subst. auto.
Qed.
