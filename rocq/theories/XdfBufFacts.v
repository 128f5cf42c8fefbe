(** Facts about the buffer editing calls. *)
From Coq Require Import ZArith List Lia Bool.
From Verif Require Import Bits BitIO CompactInt SpecPack CompactIntMain CompactIntMain2 CompactIntMain3 Xdf XdfLib XdfEnum XdfKeys XdfBuf XdfBufSpec XdfKeysThm.
Import ListNotations.
Open Scope Z_scope.

Lemma store_spec ws : forall d i, (i + length ws <= length d)%nat -> exists d', store d i ws = Some d' /\ length d' = length d /\
  forall j, nth j d' 0 = if (i <=? j)%nat && (j <? i + length ws)%nat then nth (j - i) ws 0 else nth j d 0.
Proof.
  induction ws as [|w ws IH]; intros d i L; cbn [store length] in *.
  - exists d. split; [reflexivity|]. split; [reflexivity|]. intros j. destruct (Nat.leb_spec i j), (Nat.ltb_spec j (i + 0)); cbn [andb]; try reflexivity. lia.
  - rewrite (proj2 (Nat.ltb_lt _ _)) by lia. destruct (IH (upd d i w) (S i)) as (d' & E & L' & N); [rewrite upd_length; lia|]. exists d'. split; [exact E|]. rewrite upd_length in L'. split; [exact L'|].
    intros j. rewrite N, upd_nthd. rewrite (proj2 (Nat.ltb_lt i (length d))) by lia.
    destruct (Nat.leb_spec i j), (Nat.leb_spec (S i) j), (Nat.ltb_spec j (S i + length ws)), (Nat.ltb_spec j (i + S (length ws))), (Nat.eqb_spec j i); cbn [andb]; try lia; try reflexivity.
    + replace (j - i)%nat with (S (j - S i)) by lia. reflexivity.
    + subst j. rewrite Nat.sub_diag. reflexivity.
Qed.
Lemma store_inv ws d i d' : store d i ws = Some d' -> (i + length ws <= length d)%nat \/ ws = [].
Proof.
  revert d i. induction ws as [|w ws IH]; intros d i H; [auto|]. cbn [store] in H. destruct (Nat.ltb_spec i (length d)) as [L|]; [|discriminate]. destruct (IH _ _ H) as [A| ->]; left; cbn [length]; [rewrite upd_length in A; lia|lia].
Qed.

Lemma shift_up_spec idx n : forall k d, (idx + k + n <= length d)%nat -> exists d', shift_up k idx n d = Some d' /\ length d' = length d /\
  forall j, nth j d' 0 = if (idx + n <=? j)%nat && (j <? idx + n + k)%nat then nth (j - n) d 0 else nth j d 0.
Proof.
  induction k as [|k IH]; intros d L; cbn [shift_up].
  - exists d. split; [reflexivity|]. split; [reflexivity|]. intros j. destruct (Nat.leb_spec (idx + n) j), (Nat.ltb_spec j (idx + n + 0)); cbn [andb]; try reflexivity. lia.
  - rewrite (nth_error_nth' d 0) by lia. cbn [bind]. rewrite (proj2 (Nat.ltb_lt _ _)) by lia.
    destruct (IH (upd d (idx + k + n) (nth (idx + k) d 0))) as (d' & E & L' & N); [rewrite upd_length; lia|]. rewrite upd_length in L'. exists d'. split; [exact E|]. split; [exact L'|].
    intros j. rewrite N, !upd_nthd. rewrite (proj2 (Nat.ltb_lt (idx + k + n) (length d))) by lia. rewrite !andb_true_r.
    destruct (Nat.leb_spec (idx + n) j), (Nat.ltb_spec j (idx + n + k)), (Nat.ltb_spec j (idx + n + S k)), (Nat.eqb_spec j (idx + k + n)), (Nat.eqb_spec (j - n) (idx + k + n)); cbn [andb]; try lia; try reflexivity.
    all: f_equal; lia.
Qed.

Lemma shift_down_spec n : forall k i d, (i + k + n <= length d)%nat -> (1 <= n)%nat -> exists d', shift_down k i n d = Some d' /\ length d' = length d /\
  forall j, nth j d' 0 = if (i <=? j)%nat && (j <? i + k)%nat then nth (j + n) d 0 else nth j d 0.
Proof.
  induction k as [|k IH]; intros i d L N1; cbn [shift_down].
  - exists d. split; [reflexivity|]. split; [reflexivity|]. intros j. destruct (Nat.leb_spec i j), (Nat.ltb_spec j (i + 0)); cbn [andb]; try reflexivity. lia.
  - rewrite (nth_error_nth' d 0) by lia. cbn [bind]. rewrite (proj2 (Nat.ltb_lt _ _)) by lia.
    destruct (IH (S i) (upd d i (nth (i + n) d 0))) as (d' & E & L' & N); [rewrite upd_length; lia|exact N1|]. rewrite upd_length in L'. exists d'. split; [exact E|]. split; [exact L'|].
    intros j. rewrite N, !upd_nthd. rewrite (proj2 (Nat.ltb_lt i (length d))) by lia. rewrite !andb_true_r.
    destruct (Nat.leb_spec i j), (Nat.leb_spec (S i) j), (Nat.ltb_spec j (S i + k)), (Nat.ltb_spec j (i + S k)), (Nat.eqb_spec j i), (Nat.eqb_spec (j + n) i); cbn [andb]; try lia; try reflexivity.
    subst j. reflexivity.
Qed.
Lemma shift_down0 k i d : (i + k <= length d)%nat -> exists d', shift_down k i 0 d = Some d' /\ length d' = length d /\ forall j, nth j d' 0 = nth j d 0.
Proof.
  revert i d. induction k as [|k IH]; intros i d L; cbn [shift_down]; [eauto|]. rewrite Nat.add_0_r. rewrite (nth_error_nth' d 0) by lia. cbn [bind]. rewrite (proj2 (Nat.ltb_lt _ _)) by lia.
  destruct (IH (S i) (upd d i (nth i d 0))) as (d' & E & L' & N); [rewrite upd_length; lia|]. rewrite upd_length in L'. exists d'. split; [exact E|]. split; [exact L'|].
  intros j. rewrite N, upd_nthd. destruct (Nat.eqb_spec j i) as [->|]; [destruct (_ <? _)%nat; reflexivity|reflexivity].
Qed.

Lemma swap2_pairs : forall m l, length l = (2 * m)%nat -> length (swap2 l) = length l /\ swap2 (swap2 l) = l.
Proof.
  induction m; intros l L. { destruct l; [auto|discriminate]. }
  destruct l as [|a [|b l]]; cbn [length] in L; try lia. destruct (IHm l ltac:(lia)) as [A B]. cbn [swap2 length]. rewrite A, B. auto.
Qed.
Lemma take_at0 l n : (n <= length l)%nat -> take_at l 0 n = Some (firstn n l).
Proof. intros L. unfold take_at. rewrite (proj2 (Nat.leb_le _ _)) by lia. reflexivity. Qed.

Lemma words_bits_eq a b : word_ok a -> word_ok b -> (forall c, 0 <= c < 32 -> Z.testbit a c = Z.testbit b c) -> a = b.
Proof.
  intros A B H. apply Z.bits_inj'. intros c C. destruct (Z.lt_ge_cases c 32) as [L|G]; [apply H; lia|].
  rewrite <- (Z.mod_small a (2 ^ 32)), <- (Z.mod_small b (2 ^ 32)) by assumption. rewrite !Z.mod_pow2_bits_high by lia. reflexivity.
Qed.
Lemma bit_at_word pk j c : 0 <= c < 32 -> bit_at pk (32 * j + Z.to_nat (31 - c)) = Z.testbit (nth j pk 0) c.
Proof.
  intros C. unfold bit_at. f_equal.
  - f_equal. replace (32 * j + Z.to_nat (31 - c))%nat with (Z.to_nat (31 - c) + j * 32)%nat by lia. rewrite Nat.div_add by lia. rewrite Nat.div_small by lia. reflexivity.
  - rewrite Nat2Z.inj_add, Nat2Z.inj_mul, Z2Nat.id by lia. replace (Z.of_nat 32 * Z.of_nat j + (31 - c)) with (31 - c + Z.of_nat j * 32) by lia. rewrite Z.mod_add by lia. rewrite Z.mod_small by lia. lia.
Qed.

Lemma nb_words_bits nelm nbits : (nelm * nbits <= 32 * nb_words nelm nbits)%nat.
Proof. unfold nb_words. pose proof (Nat.div_mod (nelm * nbits + 63) 64 ltac:(lia)). pose proof (Nat.mod_upper_bound (nelm * nbits + 63) 64 ltac:(lia)). lia. Qed.
Lemma nb_words_even nelm nbits : exists m, nb_words nelm nbits = (2 * m)%nat.
Proof. unfold nb_words. eauto. Qed.

Lemma words_skipn n l : words_ok l -> words_ok (skipn n l).
Proof. unfold words_ok. revert l. induction n; intros l W; [exact W|]. destruct l; [exact W|]. inversion W; subst. cbn. apply IHn. assumption. Qed.
Lemma words_nth l j : words_ok l -> word_ok (nth j l 0).
Proof. intros W. unfold words_ok in W. rewrite Forall_forall in W. destruct (Nat.lt_ge_cases j (length l)) as [L|G]; [exact (W _ (nth_In _ _ L))|]. rewrite nth_overflow by exact G. split; lia. Qed.

(** Reading back [ws] words. *)
Definition fetch (orc : oracle) (stride : nat) (k : dkind) (d : list Z) (i : nat) (dst : list Z) (nelm nbits : nat) : option (list Z) :=
  match k with
  | Packed sg => if (length d <? i)%nat then None else bind (compact_integer orc dst None (skipn i d) nelm (Some nbits) 0 stride (if sg then 4 else 2)) (fun r => Some (ci_unp r))
  | Swapped => bind (take_at d i (nb_words nelm nbits)) (fun ws => store dst 0 (swap2 ws))
  | _ => bind (take_at d i (nb_words nelm nbits)) (fun ws => store dst 0 ws)
  end.

Lemma store_words ws dst : (length ws <= length dst)%nat -> store dst 0 ws = Some (ws ++ skipn (length ws) dst).
Proof.
  intros L. destruct (store_spec ws dst 0 ltac:(lia)) as (d' & E & L' & N). rewrite E. f_equal. apply (nth_ext _ _ 0 0).
  - rewrite app_length, skipn_length. lia.
  - intros j J. rewrite N. cbn [Nat.leb andb Nat.add]. destruct (Nat.ltb_spec j (length ws)) as [A|A].
    + rewrite app_nth1 by exact A. f_equal. lia.
    + rewrite app_nth2 by exact A. rewrite nth_skipn_d. f_equal. lia.
Qed.

Lemma insert_data_spec orc stride k d i src nelm nbits : storable k stride d i src nelm nbits ->
  exists d', insert_data orc stride k d i src nelm nbits = Some d' /\ length d' = length d /\
    (forall j, (j < i \/ i + nb_words nelm nbits <= j)%nat -> nth j d' 0 = nth j d 0) /\
    forall dst, holds_result k stride dst nelm nbits -> exists dst', fetch orc stride k d' i dst nelm nbits = Some dst' /\ extracted k stride src nelm nbits dst dst'.
Proof.
  intros (LD & S). set (n := nb_words nelm nbits) in *.
  assert (ST : forall ws, length ws = n -> exists d', store d i ws = Some d' /\ length d' = length d /\ (forall j, (j < i \/ i + n <= j)%nat -> nth j d' 0 = nth j d 0) /\ take_at d' i n = Some ws).
  { intros ws LW. destruct (store_spec ws d i ltac:(lia)) as (d' & E & L' & N). exists d'. split; [exact E|]. split; [exact L'|]. split.
    - intros j J. rewrite N. destruct (Nat.leb_spec i j), (Nat.ltb_spec j (i + length ws)); cbn [andb]; try reflexivity. lia.
    - unfold take_at. rewrite (proj2 (Nat.leb_le _ _)) by lia. f_equal. apply (nth_ext _ _ 0 0).
      + rewrite firstn_length, skipn_length. lia.
      + intros j J. rewrite firstn_length, skipn_length in J. rewrite nth_firstn_d by lia. rewrite nth_skipn_d, N. rewrite (proj2 (Nat.leb_le _ _)), (proj2 (Nat.ltb_lt _ _)) by lia. cbn [andb]. f_equal. lia. }
  destruct (nb_words_even nelm nbits) as (m & EM). fold n in EM.
  destruct k as [| | |sg]; cbn [insert_data fetch extracted holds_result]; fold n.
  - assert (LF : length (firstn n src) = n) by (rewrite firstn_length; lia). rewrite take_at0 by exact S. cbn [bind].
    destruct (ST _ LF) as (d' & E & L' & F & T). exists d'. split; [exact E|]. split; [exact L'|]. split; [exact F|]. intros dst H. rewrite T. cbn [bind]. rewrite store_words by lia. rewrite LF. eauto.
  - assert (LF : length (firstn n src) = n) by (rewrite firstn_length; lia). rewrite take_at0 by exact S. cbn [bind]. destruct (swap2_pairs m (firstn n src) ltac:(lia)) as [A B].
    destruct (ST (swap2 (firstn n src)) ltac:(lia)) as (d' & E & L' & F & T). exists d'. split; [exact E|]. split; [exact L'|]. split; [exact F|]. intros dst H. rewrite T. cbn [bind]. rewrite B, store_words by lia. rewrite LF. eauto.
  - assert (LF : length (firstn n src) = n) by (rewrite firstn_length; lia). rewrite take_at0 by exact S. cbn [bind].
    destruct (ST (map upcase (firstn n src)) ltac:(rewrite map_length; exact LF)) as (d' & E & L' & F & T). exists d'. split; [exact E|]. split; [exact L'|]. split; [exact F|]. intros dst H. rewrite T. cbn [bind]. rewrite store_words by (rewrite map_length; lia). rewrite map_length, LF. eauto.
  - destruct S as (NB & WS & WD & FS & S1 & LB & SG). rewrite (proj2 (Nat.ltb_ge _ _)) by lia.
    assert (WK : words_ok (skipn i d)) by (apply words_skipn; exact WD).
    assert (LB0 : (0 + nelm * nbits <= 32 * length (skipn i d))%nat) by (rewrite skipn_length; lia).
    assert (LB1 : (0 + nelm * nbits < 32 * length (skipn i d))%nat) by (rewrite skipn_length; lia).
    destruct (pack_frame orc sg src (skipn i d) nelm nbits 0 stride NB WS WK FS LB0) as (pk' & E & L' & W' & FR & _). rewrite E. cbn [bind ci_pk].
    exists (firstn i d ++ pk'). split; [reflexivity|]. assert (LI : length (firstn i d) = i) by (rewrite firstn_length; lia).
    split; [rewrite app_length, L', skipn_length; lia|]. split.
    + intros j J. destruct (Nat.lt_ge_cases j i) as [A|A]; [rewrite app_nth1 by lia; apply nth_firstn_d; exact A|]. rewrite app_nth2 by lia. rewrite LI.
      replace (nth j d 0) with (nth (j - i) (skipn i d) 0) by (rewrite nth_skipn_d; f_equal; lia).
      apply words_bits_eq; [apply words_nth; exact W'|apply words_nth; exact WK|]. intros c C. rewrite <- !bit_at_word by exact C.
      destruct (Nat.lt_ge_cases (32 * (j - i) + Z.to_nat (31 - c)) (32 * length (skipn i d))) as [B|B].
      * apply FR; [exact B|]. right. pose proof (nb_words_bits nelm nbits). fold n in H. lia.
      * unfold bit_at. replace ((32 * (j - i) + Z.to_nat (31 - c)) / 32)%nat with (j - i)%nat by (symmetry; replace (32 * (j - i) + Z.to_nat (31 - c))%nat with (Z.to_nat (31 - c) + (j - i) * 32)%nat by lia; rewrite Nat.div_add by lia; rewrite Nat.div_small by lia; lia).
        rewrite !(nth_overflow _ _ (n := j - i)) by lia. reflexivity.
    + intros dst FD. rewrite (proj2 (Nat.ltb_ge _ _)) by (rewrite app_length; lia).
      replace (skipn i (firstn i d ++ pk')) with pk' by (rewrite skipn_app, LI, Nat.sub_diag, skipn_firstn_comm, Nat.sub_diag; reflexivity).
      destruct sg.
      * destruct (signed_roundtrip orc src (skipn i d) nelm nbits 0 stride NB WS WK FS S1 LB1 (SG eq_refl)) as (pk2 & E2 & U). assert (pk2 = pk') as -> by congruence.
        destruct (U dst FD) as (dst' & E3 & UP). rewrite E3. cbn [bind ci_unp]. eauto.
      * destruct (unsigned_mod orc src (skipn i d) nelm nbits 0 stride NB WS WK FS S1 LB1) as (pk2 & E2 & U). assert (pk2 = pk') as -> by congruence.
        destruct (U dst FD) as (dst' & E3 & UP). rewrite E3. cbn [bind ci_unp]. eauto.
Qed.

Lemma xtr_fetch orc stride b dst bitpos nelm nbits datyp k : (bitpos mod 64 = 0)%nat -> bad_nbits datyp nbits = false -> kind_of datyp = Some k ->
  xdfxtr orc stride b dst bitpos nelm nbits datyp = bind (fetch orc stride k (b_data b) (index_word b bitpos) dst nelm nbits) (fun d => Some (0, d)).
Proof.
  intros A B C. unfold xdfxtr. rewrite (proj2 (Nat.eqb_eq _ _) A). cbn [negb]. rewrite B, C. destruct k; cbn [fetch].
  - destruct (take_at _ _ _); reflexivity.
  - destruct (take_at _ _ _); reflexivity.
  - destruct (take_at _ _ _); reflexivity.
  - destruct (_ <? _)%nat; [reflexivity|]. destruct (compact_integer _ _ _ _ _ _ _ _); reflexivity.
Qed.

Lemma words_all_nth l : (forall j, word_ok (nth j l 0)) -> words_ok l.
Proof. intros H. unfold words_ok. apply Forall_forall. intros x X. destruct (In_nth _ _ 0 X) as (j & _ & <-). apply H. Qed.
Lemma storable_words k stride d d' i src nelm nbits : length d' = length d -> (words_ok d -> words_ok d') -> storable k stride d i src nelm nbits -> storable k stride d' i src nelm nbits.
Proof. unfold storable. intros L W (A & B). rewrite L. split; [exact A|]. destruct k; try exact B. intuition. Qed.

Lemma same_set b n d : length d = length (b_data b) -> same_frame b (set_data b n d).
Proof. unfold same_frame. cbn. intuition. Qed.

Lemma add_spec orc stride b src nelm nbits datyp k i : kind_of datyp = Some k -> bad_nbits datyp nbits = false -> b_nbits b = 32 * Z.of_nat i ->
  b_nbits b + 32 * Z.of_nat (nb_words nelm nbits) < 2 ^ 32 ->
  storable k stride (b_data b) i src nelm nbits -> Z.of_nat (i + nb_words nelm nbits) <= b_nwords b + 1 ->
  exists b', xdfadd orc stride b src nelm nbits datyp = Some (0, b') /\ same_frame b b' /\ b_nbits b' = b_nbits b + 32 * Z.of_nat (nb_words nelm nbits) /\
    (forall j, (j < i \/ i + nb_words nelm nbits <= j)%nat -> word b' j = word b j) /\
    forall dst bitpos, index_word b bitpos = i -> (bitpos mod 64 = 0)%nat -> holds_result k stride dst nelm nbits ->
      exists dst', xdfxtr orc stride b' dst bitpos nelm nbits datyp = Some (0, dst') /\ extracted k stride src nelm nbits dst dst'.
Proof.
  intros K B NB LT S LE. unfold xdfadd. rewrite B, K. rewrite NB. replace (32 * Z.of_nat i / 32) with (Z.of_nat i) by (rewrite Z.mul_comm, Z.div_mul; lia). rewrite Nat2Z.id.
  rewrite (proj2 (Z.ltb_ge _ _)) by lia. destruct (insert_data_spec orc stride k (b_data b) i src nelm nbits S) as (d' & E & L & F & X). rewrite E. cbn [bind].
  eexists. split; [reflexivity|]. split; [apply same_set; exact L|]. split. { cbn [b_nbits set_data]. unfold w32. rewrite Z.mod_small by lia. lia. }
  split; [exact F|]. intros dst bitpos IW A H. rewrite (xtr_fetch _ _ _ _ _ _ _ _ k A B K).
  change (index_word (set_data _ _ _) bitpos) with (index_word b bitpos). rewrite IW. cbn [b_data set_data]. destruct (X dst H) as (dst' & E2 & EX). rewrite E2. cbn [bind]. eauto.
Qed.

Lemma rep_spec orc stride b src bitpos nelm nbits datyp k : kind_of datyp = Some k -> bad_nbits2 datyp nbits = false -> (bitpos mod 64 = 0)%nat ->
  storable k stride (b_data b) (index_word b bitpos) src nelm nbits -> Z.of_nat (index_word b bitpos + nb_words nelm nbits) <= b_nwords b + 1 ->
  exists b', xdfrep orc stride b src bitpos nelm nbits datyp = Some (0, b') /\ same_frame b b' /\ b_nbits b' = b_nbits b /\
    (forall j, (j < index_word b bitpos \/ index_word b bitpos + nb_words nelm nbits <= j)%nat -> word b' j = word b j) /\
    forall dst, holds_result k stride dst nelm nbits ->
      exists dst', xdfxtr orc stride b' dst bitpos nelm nbits datyp = Some (0, dst') /\ extracted k stride src nelm nbits dst dst'.
Proof.
  intros K B A S LE. unfold xdfrep. rewrite (proj2 (Nat.eqb_eq _ _) A). cbn [negb]. rewrite B, K. set (i := index_word b bitpos) in *. set (n := nb_words nelm nbits) in *.
  rewrite (proj2 (Z.ltb_ge _ _)) by lia. destruct (store_spec (repeat 0 n) (b_data b) i) as (d & E0 & L0 & N0); [rewrite repeat_length; exact (proj1 S)|]. rewrite repeat_length in N0. rewrite E0. cbn [bind].
  assert (S' : storable k stride d i src nelm nbits).
  { apply (storable_words k stride (b_data b)); [exact L0| |exact S]. intros W. apply words_all_nth. intros j. rewrite N0. destruct (_ && _); [|apply words_nth; exact W]. rewrite nth_repeat. split; lia. }
  destruct (insert_data_spec orc stride k d i src nelm nbits S') as (d' & E & L & F & X). rewrite E. cbn [bind].
  eexists. split; [reflexivity|]. split; [apply same_set; lia|]. split; [reflexivity|]. split.
  { intros j J. unfold word. cbn [b_data set_data]. rewrite (F j J), N0. destruct (Nat.leb_spec i j), (Nat.ltb_spec j (i + n)); cbn [andb]; try reflexivity. fold n in J. lia. }
  assert (B1 : bad_nbits datyp nbits = false). { unfold bad_nbits, bad_nbits2 in *. apply orb_false_iff in B. destruct B as [-> B]. cbn [orb]. exact B. }
  intros dst H. rewrite (xtr_fetch _ _ _ _ _ _ _ _ k A B1 K). change (index_word (set_data _ _ _) bitpos) with i. cbn [b_data set_data]. destruct (X dst H) as (dst' & E2 & EX). rewrite E2. cbn [bind]. eauto.
Qed.

Lemma ins_spec orc stride b src bitpos nelm nbits datyp k : kind_of datyp = Some k -> bad_nbits datyp nbits = false -> (bitpos mod 64 = 0)%nat -> sane b ->
  (index_word b bitpos <= last_ind b)%nat -> (last_ind b + nb_words nelm nbits < length (b_data b))%nat -> b_nbits b + 32 * Z.of_nat (nb_words nelm nbits) < 2 ^ 32 ->
  storable k stride (b_data b) (index_word b bitpos) src nelm nbits -> Z.of_nat (last_ind b + nb_words nelm nbits) <= b_nwords b + 1 ->
  exists b', xdfins orc stride b src bitpos nelm nbits datyp = Some (0, b') /\ same_frame b b' /\ b_nbits b' = b_nbits b + 32 * Z.of_nat (nb_words nelm nbits) /\
    (forall j, (j < index_word b bitpos)%nat -> word b' j = word b j) /\
    (forall j, (index_word b bitpos <= j < last_ind b)%nat -> word b' (j + nb_words nelm nbits) = word b j) /\
    forall dst, holds_result k stride dst nelm nbits ->
      exists dst', xdfxtr orc stride b' dst bitpos nelm nbits datyp = Some (0, dst') /\ extracted k stride src nelm nbits dst dst'.
Proof.
  intros K B A SA IL LL LT ST LE. unfold xdfins. rewrite (proj2 (Nat.eqb_eq _ _) A). cbn [negb]. rewrite B, K. set (i := index_word b bitpos) in *. set (n := nb_words nelm nbits) in *. set (la := last_ind b) in *.
  rewrite (proj2 (Z.ltb_ge _ _)) by lia.
  assert (SH : exists d, (if (la =? i)%nat then Some (b_data b) else shift_up (S la - i) i n (b_data b)) = Some d /\ length d = length (b_data b) /\
     (forall j, (j < i)%nat -> nth j d 0 = nth j (b_data b) 0) /\ (forall j, (i <= j < la)%nat -> nth (j + n) d 0 = nth j (b_data b) 0) /\ (words_ok (b_data b) -> words_ok d)).
  { destruct (Nat.eqb_spec la i) as [EQ|NE].
    - exists (b_data b). split; [reflexivity|]. split; [reflexivity|]. split; [reflexivity|]. split; [lia|auto].
    - destruct (shift_up_spec i n (S la - i) (b_data b) ltac:(lia)) as (d & E & L & N). exists d. split; [exact E|]. split; [exact L|]. split; [|split].
      + intros j J. rewrite N. rewrite (proj2 (Nat.leb_gt _ _)) by lia. reflexivity.
      + intros j J. rewrite N. rewrite (proj2 (Nat.leb_le _ _)), (proj2 (Nat.ltb_lt _ _)) by lia. cbn [andb]. f_equal. lia.
      + intros W. apply words_all_nth. intros j. rewrite N. destruct (_ && _); apply words_nth; exact W. }
  destruct SH as (d & E0 & L0 & LOW & HIGH & W). rewrite E0. cbn [bind].
  destruct (insert_data_spec orc stride k d i src nelm nbits (storable_words _ _ _ _ _ _ _ _ L0 W ST)) as (d' & E & L & F & X). rewrite E. cbn [bind].
  eexists. split; [reflexivity|]. split; [apply same_set; lia|]. split. { cbn [b_nbits set_data]. unfold w32. destruct SA as (_ & _ & SA). fold n. rewrite Z.mod_small by lia. reflexivity. }
  split; [|split].
  - intros j J. unfold word. cbn [b_data set_data]. rewrite F by lia. apply LOW. exact J.
  - intros j J. unfold word. cbn [b_data set_data]. rewrite F by (fold n; lia). apply HIGH. exact J.
  - intros dst H. rewrite (xtr_fetch _ _ _ _ _ _ _ _ k A B K). change (index_word (set_data _ _ _) bitpos) with i. cbn [b_data set_data]. destruct (X dst H) as (dst' & E2 & EX). rewrite E2. cbn [bind]. eauto.
Qed.

Lemma cut_spec b bitpos nelm nbits datyp : bad_nbits2 datyp nbits = false -> (bitpos mod 64 = 0)%nat -> sane b ->
  (index_word b bitpos + nb_words nelm nbits <= last_ind b)%nat -> (last_ind b < length (b_data b))%nat -> 32 * Z.of_nat (nb_words nelm nbits) <= b_nbits b < 2 ^ 32 ->
  exists b', xdfcut b bitpos nelm nbits datyp = Some (0, b') /\ same_frame b b' /\ b_nbits b' = b_nbits b - 32 * Z.of_nat (nb_words nelm nbits) /\
    (forall j, (j < index_word b bitpos)%nat -> word b' j = word b j) /\
    (forall j, (index_word b bitpos <= j < last_ind b - nb_words nelm nbits)%nat -> word b' j = word b (j + nb_words nelm nbits)).
Proof.
  intros B A SA IL LL LT. unfold xdfcut. rewrite (proj2 (Nat.eqb_eq _ _) A). cbn [negb]. rewrite B. cbv zeta. set (i := index_word b bitpos) in *. set (n := nb_words nelm nbits) in *. set (la := last_ind b) in *.
  assert (SH : exists d, (if (la =? i)%nat then Some (b_data b) else bind (shift_down (S la - n - i)%nat i n (b_data b)) (fun d1 => store d1 (i + (S la - n - i)) (repeat 0 (S la - (i + (S la - n - i)))))) = Some d /\ length d = length (b_data b) /\
     (forall j, (j < i)%nat -> nth j d 0 = nth j (b_data b) 0) /\ (forall j, (i <= j < la - n)%nat -> nth j d 0 = nth (j + n) (b_data b) 0)).
  { destruct (Nat.eqb_spec la i) as [EQ|NE].
    - exists (b_data b). split; [reflexivity|]. split; [reflexivity|]. split; [reflexivity|]. lia.
    - set (k := (S la - n - i)%nat).
      assert (SD : exists d1, shift_down k i n (b_data b) = Some d1 /\ length d1 = length (b_data b) /\ forall j, nth j d1 0 = if (i <=? j)%nat && (j <? i + k)%nat then nth (j + n) (b_data b) 0 else nth j (b_data b) 0).
      { destruct (Nat.eq_dec n 0) as [Z0|NZ].
        - rewrite Z0. destruct (shift_down0 k i (b_data b) ltac:(unfold k; lia)) as (d1 & E & L & N). exists d1. split; [exact E|]. split; [exact L|]. intros j. rewrite N, Nat.add_0_r. destruct (_ && _); reflexivity.
        - apply shift_down_spec; unfold k; lia. }
      destruct SD as (d1 & E1 & L1 & N1). rewrite E1. cbn [bind].
      destruct (store_spec (repeat 0 (S la - (i + k))) d1 (i + k)) as (d & E & L & N); [rewrite repeat_length, L1; unfold k; lia|]. exists d. split; [exact E|]. split; [lia|]. split.
      + intros j J. rewrite N, (proj2 (Nat.leb_gt (i + k) j)) by lia. cbn [andb]. rewrite N1, (proj2 (Nat.leb_gt i j)) by lia. reflexivity.
      + intros j J. rewrite N, (proj2 (Nat.leb_gt (i + k) j)) by (unfold k; lia). cbn [andb]. rewrite N1, (proj2 (Nat.leb_le i j)), (proj2 (Nat.ltb_lt _ _)) by (unfold k; lia). reflexivity. }
  destruct SH as (d & E & L & LOW & HIGH). rewrite E. cbn [bind]. eexists. split; [reflexivity|]. split; [apply same_set; exact L|]. split. { cbn [b_nbits set_data]. unfold w32. rewrite Z.mod_small by lia. reflexivity. }
  split; assumption.
Qed.
