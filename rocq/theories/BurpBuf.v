(** The buffer calls on data cut in pieces. *)
From Coq Require Import ZArith List Lia Bool.
From Verif Require Import Bits BitIO CompactInt SpecPack CompactIntMain CompactIntMain2 CompactIntMain3 Handles WaFile Xdf XdfLib XdfEnum XdfKeys XdfKeysThm XdfBuf XdfBufSpec XdfBufFacts Fst FstPack FstLuk Burp BurpKeys.
Import ListNotations.
Open Scope Z_scope.
Open Scope opt_scope.

Lemma words_app x y : words_ok (x ++ y) <-> words_ok x /\ words_ok y.
Proof. apply Forall_app. Qed.
Lemma words_firstn n l : words_ok l -> words_ok (firstn n l).
Proof. intros W. rewrite <- (firstn_skipn n l) in W. apply words_app in W. apply W. Qed.
Lemma words_repeat0 n : words_ok (repeat 0 n).
Proof. apply Forall_forall. intros x X. apply repeat_spec in X. subst. lia. Qed.
Lemma upcase_word x : 0 <= x < 2 ^ 32 -> 0 <= upcase x < 2 ^ 32.
Proof.
  intros H. unfold upcase. assert (A : 0 <= Z.ldiff x (Z.shiftr (Z.land x 1077952576) 1)) by (apply Z.ldiff_nonneg; left; lia).
  split; [exact A|]. apply Z.le_lt_trans with x; [|lia]. apply Z.ldiff_le; [lia|]. apply Z.bits_inj'. intros i I. rewrite !Z.ldiff_spec, Z.bits_0. destruct (Z.testbit x i); rewrite ?andb_false_r; reflexivity.
Qed.
Lemma words_upcase l : words_ok l -> words_ok (map upcase l).
Proof. intros W. apply Forall_forall. intros x X. apply in_map_iff in X. destruct X as (y & <- & Y). apply upcase_word. unfold words_ok in W. rewrite Forall_forall in W. apply W. exact Y. Qed.
Lemma words_swap2 l : words_ok l -> words_ok (swap2 l).
Proof.
  assert (H : forall n l, (length l <= n)%nat -> words_ok l -> words_ok (swap2 l)).
  { induction n; intros k L W; [destruct k; [exact W|cbn in L; lia]|]. destruct k as [|a [|b k]]; try exact W. inversion W as [|? ? A W1]; subst. inversion W1 as [|? ? B W2]; subst. cbn [swap2]. constructor; [exact B|]. constructor; [exact A|]. apply IHn; [cbn in L; lia|exact W2]. }
  apply (H (length l) l). lia.
Qed.

Lemma firstn_app_len {A} (x y : list A) : firstn (length x) (x ++ y) = x.
Proof. rewrite firstn_app, Nat.sub_diag, firstn_all, app_nil_r. reflexivity. Qed.
Lemma skipn_app_len {A} (x y : list A) : skipn (length x) (x ++ y) = y.
Proof. rewrite skipn_app, Nat.sub_diag, skipn_all. reflexivity. Qed.
Lemma store_list ws : forall A X R, length X = length ws -> store (A ++ X ++ R) (length A) ws = Some (A ++ ws ++ R).
Proof.
  induction ws as [|w ws IH]; intros A X R L; [destruct X; [reflexivity|discriminate]|]. destruct X as [|x X]; [discriminate|]. cbn [store]. rewrite (proj2 (Nat.ltb_lt _ _)) by (rewrite !app_length; cbn [length]; lia).
  assert (U : upd (A ++ (x :: X) ++ R) (length A) w = (A ++ [w]) ++ X ++ R).
  { clear. induction A; [reflexivity|]. cbn [app upd length]. cbn [app] in IHA. f_equal. exact IHA. }
  rewrite U. replace (S (length A)) with (length (A ++ [w])) by (rewrite app_length; cbn; lia). rewrite IH by (cbn in L; lia). rewrite <- app_assoc. reflexivity.
Qed.
Lemma take_list A X R n : length X = n -> take_at (A ++ X ++ R) (length A) n = Some X.
Proof. intros <-. unfold take_at. rewrite (proj2 (Nat.leb_le _ _)) by (rewrite !app_length; lia). rewrite skipn_app_len, firstn_app_len. reflexivity. Qed.

(** ** Elements of a kind *)
(** What can be stored, and what it reads as. *)
Definition src_ok (k : dkind) (src : list Z) (nelm nbits : nat) : Prop :=
  words_ok src /\
  match k with
  | Packed sg => (1 <= nbits <= 32)%nat /\ (nelm <= length src)%nat /\
      (sg = true -> forall j, (j < nelm)%nat -> - 2 ^ Z.of_nat (nbits - 1) <= as_int (nth j src 0) < 2 ^ Z.of_nat (nbits - 1))
  | _ => (nb_words nelm nbits <= length src)%nat
  end.
Definition read_as (k : dkind) (src : list Z) (nelm nbits : nat) : list Z :=
  match k with
  | Plain | Swapped => firstn (nb_words nelm nbits) src
  | Upper => map upcase (firstn (nb_words nelm nbits) src)
  | Packed false => map (fun v => v mod 2 ^ Z.of_nat nbits) (firstn nelm src)
  | Packed true => firstn nelm src
  end.
(** The words [seg] read as the values [vals], wherever they are. *)
Definition seg_reads (orc : oracle) (k : dkind) (seg : list Z) (nelm nbits : nat) (vals : list Z) : Prop :=
  forall A R dst, words_ok (A ++ seg ++ R) -> R <> [] -> (length vals <= length dst)%nat ->
    fetch orc 1 k (A ++ seg ++ R) (length A) dst nelm nbits = Some (vals ++ skipn (length vals) dst).

Lemma updated1 dst dst' n g : updated dst dst' 1 n g -> (n <= length dst)%nat -> dst' = map g (seq 0 n) ++ skipn n dst.
Proof.
  intros (L & A & B) N. apply nth_error_ext. intros i. destruct (Nat.lt_ge_cases i n) as [I|I].
  - rewrite nth_error_app1 by (rewrite map_length, seq_length; exact I). specialize (A i I). rewrite Nat.mul_1_r in A. rewrite A. symmetry. apply map_nth_error. rewrite (nth_error_nth' _ 0%nat) by (rewrite seq_length; exact I). rewrite seq_nth by exact I. reflexivity.
  - rewrite nth_error_app2 by (rewrite map_length, seq_length; exact I). rewrite map_length, seq_length. rewrite nth_skipn. rewrite B by (intros j J; lia). f_equal. lia.
Qed.
Lemma map_seq_nth {B} (g : Z -> B) src n : (n <= length src)%nat -> map (fun j => g (nth j src 0)) (seq 0 n) = map g (firstn n src).
Proof.
  intros L. apply (nth_ext _ _ (g 0) (g 0)); [rewrite !map_length, seq_length, firstn_length; lia|]. intros i I. rewrite map_length, seq_length in I.
  rewrite (nth_indep _ (g 0) (g (nth 0 src 0))) by (rewrite map_length, seq_length; exact I). rewrite (map_nth (fun j => g (nth j src 0))). rewrite seq_nth by exact I. rewrite map_nth, nth_firstn_d by exact I. reflexivity.
Qed.
Lemma fits1 dst n : (n <= length dst)%nat -> SpecPack.fits dst 1 n.
Proof. intros L j J. lia. Qed.

Lemma insert_list orc k src nelm nbits A X R : src_ok k src nelm nbits -> length X = nb_words nelm nbits -> R <> [] -> words_ok (A ++ X ++ R) ->
  exists seg, insert_data orc 1 k (A ++ X ++ R) (length A) src nelm nbits = Some (A ++ seg ++ R) /\ length seg = nb_words nelm nbits /\ words_ok seg /\
    seg_reads orc k seg nelm nbits (read_as k src nelm nbits).
Proof.
  intros (WS & S) LX NR WD. destruct (nb_words_even nelm nbits) as (m & EM). set (n := nb_words nelm nbits) in *.
  assert (LF : (n <= length src)%nat -> length (firstn n src) = n) by (intros; rewrite firstn_length; lia).
  destruct k as [| | |sg]; cbn [insert_data read_as]; fold n.
  - rewrite take_at0 by exact S. cbn [bind]. rewrite store_list by (rewrite LF; auto). eexists. split; [reflexivity|]. split; [apply LF, S|]. split; [apply words_firstn, WS|].
    intros A' R' dst W' NR' LD. cbn [fetch]. fold n. rewrite take_list by (apply LF, S). cbn [bind]. apply store_words. exact LD.
  - rewrite take_at0 by exact S. cbn [bind]. destruct (swap2_pairs m (firstn n src) ltac:(rewrite LF; [exact EM|exact S])) as [A1 B1]. rewrite store_list by (rewrite A1, LF; auto). eexists. split; [reflexivity|].
    split; [rewrite A1; apply LF, S|]. split; [apply words_swap2, words_firstn, WS|].
    intros A' R' dst W' NR' LD. cbn [fetch]. fold n. rewrite take_list by (rewrite A1; apply LF, S). cbn [bind]. rewrite B1. apply store_words. exact LD.
  - rewrite take_at0 by exact S. cbn [bind]. rewrite store_list by (rewrite map_length, LF; auto). eexists. split; [reflexivity|]. split; [rewrite map_length; apply LF, S|]. split; [apply words_upcase, words_firstn, WS|].
    intros A' R' dst W' NR' LD. cbn [fetch]. fold n. rewrite take_list by (rewrite map_length; apply LF, S). cbn [bind]. apply store_words. exact LD.
  - destruct S as (NB & LS & SG). rewrite (proj2 (Nat.ltb_ge _ _)) by (rewrite app_length; lia). rewrite skipn_app_len, firstn_app_len.
    apply words_app in WD. destruct WD as [WA WXR]. pose proof (nb_words_bits nelm nbits) as NW. fold n in NW.
    assert (LXR : (nelm * nbits < 32 * length (X ++ R))%nat) by (rewrite app_length, LX; destruct R; [congruence|cbn [length]; lia]).
    destruct (pack_frame orc sg src (X ++ R) nelm nbits 0 1 NB WS WXR (fits1 _ _ LS) ltac:(lia)) as (pk' & E & L' & W' & FR & _).
    assert (PK : pk' = firstn n pk' ++ R).
    { rewrite <- (firstn_skipn n pk') at 1. f_equal. apply (nth_ext _ _ 0 0); [rewrite skipn_length, L', app_length; lia|]. intros j J. rewrite skipn_length, L', app_length in J. rewrite nth_skipn_d.
      apply words_bits_eq; [apply words_nth; exact W'|apply words_nth; apply words_app in WXR; apply WXR|]. intros c C.
      replace (nth j R 0) with (nth (n + j) (X ++ R) 0) by (rewrite app_nth2 by lia; f_equal; lia). rewrite <- !bit_at_word by exact C. apply FR; [rewrite app_length; lia|]. lia. }
    assert (RT : exists pk0, compact_integer orc src None (X ++ R) nelm (Some nbits) 0 1 (if sg then 3 else 1) = Some (mkci src None pk0 (Z.of_nat nbits)) /\
                 forall dst, SpecPack.fits dst 1 nelm -> exists dst', compact_integer orc dst None pk0 nelm (Some nbits) 0 1 (if sg then 4 else 2) = Some (mkci dst' None pk0 (Z.of_nat nbits)) /\
                   updated dst dst' 1 nelm (fun j => if sg then elt src 1 j else elt src 1 j mod 2 ^ Z.of_nat nbits)).
    { destruct sg.
      - apply (signed_roundtrip orc src (X ++ R) nelm nbits 0 1 NB WS WXR (fits1 _ _ LS) (le_n 1)); [lia|]. intros j J. unfold elt. rewrite Nat.mul_1_r. apply SG; [reflexivity|exact J].
      - apply (unsigned_mod orc src (X ++ R) nelm nbits 0 1 NB WS WXR (fits1 _ _ LS) (le_n 1)). lia. }
    destruct RT as (pk2 & E2 & U).
    assert (pk2 = pk') as -> by (rewrite E in E2; congruence). rewrite E. cbn [bind ci_pk]. exists (firstn n pk'). split; [rewrite PK at 1; reflexivity|].
    split; [rewrite firstn_length, L', app_length; lia|]. split; [apply words_firstn, W'|].
    intros A' R' dst WD' NR' LD. cbn [fetch]. rewrite (proj2 (Nat.ltb_ge _ _)) by (rewrite !app_length; lia). rewrite skipn_app_len.
    assert (LV : length (read_as (Packed sg) src nelm nbits) = nelm) by (destruct sg; cbn [read_as]; rewrite ?map_length, firstn_length; lia).
    change (match sg with true => firstn nelm src | false => _ end) with (read_as (Packed sg) src nelm nbits) in *. rewrite LV in *.
    destruct (U dst (fits1 _ _ LD)) as (dst' & E3 & UP).
    apply words_app in WD'. destruct WD' as [_ WD'].
    assert (LP : length (firstn n pk') = n) by (rewrite firstn_length, L', app_length; lia).
    rewrite (unpack_same orc sg dst dst' pk' (firstn n pk' ++ R') nelm nbits n NB W' WD' (fits1 _ _ LD)); [|transitivity (firstn (length (firstn n pk')) (firstn n pk' ++ R')); [symmetry; apply firstn_app_len|rewrite LP; reflexivity]|lia|rewrite L'; exact LXR| |exact E3].
    + cbn [bind ci_unp]. f_equal. rewrite (updated1 _ _ _ _ UP LD). f_equal. unfold elt. destruct sg; cbn [read_as].
      * rewrite <- (map_id (firstn nelm src)). rewrite <- (map_seq_nth (fun x => x)) by exact LS. apply map_ext. intros j. rewrite Nat.mul_1_r. reflexivity.
      * rewrite <- map_seq_nth by exact LS. apply map_ext. intros j. rewrite Nat.mul_1_r. reflexivity.
    + rewrite app_length, LP. destruct R'; [congruence|cbn [length]; lia].
Qed.

(** ** The calls *)
Lemma add_list orc b src nelm nbits datyp k A T : kind_of datyp = Some k -> bad_nbits datyp nbits = false -> b_data b = A ++ T -> b_nbits b = 32 * Z.of_nat (length A) ->
  (nb_words nelm nbits < length T)%nat -> 32 * Z.of_nat (length (A ++ T)) < 2 ^ 32 -> Z.of_nat (length (A ++ T)) <= b_nwords b -> words_ok (A ++ T) -> src_ok k src nelm nbits ->
  exists seg, xdfadd orc 1 b src nelm nbits datyp = Some (0, set_data b (b_nbits b + 32 * Z.of_nat (nb_words nelm nbits)) (A ++ seg ++ skipn (nb_words nelm nbits) T)) /\
    length seg = nb_words nelm nbits /\ words_ok seg /\ seg_reads orc k seg nelm nbits (read_as k src nelm nbits).
Proof.
  intros K B D NB LT LB LW WD SO. unfold xdfadd. rewrite B, K. cbv zeta. set (n := nb_words nelm nbits) in *.
  assert (I : Z.to_nat (b_nbits b / 32) = length A) by (rewrite NB, Z.mul_comm, Z.div_mul by lia; apply Nat2Z.id). rewrite I. rewrite app_length in LB, LW.
  rewrite (proj2 (Z.ltb_ge _ _)) by lia. assert (ET : A ++ T = A ++ firstn n T ++ skipn n T) by (rewrite firstn_skipn; reflexivity). rewrite D, ET. rewrite ET in WD.
  destruct (insert_list orc k src nelm nbits A (firstn n T) (skipn n T) SO) as (seg & E & L & W & S); [rewrite firstn_length; lia| |exact WD|].
  { intros X. apply (f_equal (@length Z)) in X. rewrite skipn_length in X. cbn [length] in X. lia. }
  rewrite E. cbn [bind]. rewrite w32_id by (unfold word_ok; lia). eauto.
Qed.

Lemma shift_up_list idx n A B v T : length A = idx -> (n < length (v :: T))%nat -> B <> [] \/ True -> words_ok (A ++ B ++ v :: T) ->
  exists X T', shift_up (S (length B)) idx n (A ++ B ++ v :: T) = Some (A ++ X ++ B ++ T') /\ length X = n /\ length T' = (length (v :: T) - n)%nat /\ words_ok X /\ words_ok T'.
Proof.
  intros LA LT _ W. set (d := A ++ B ++ v :: T) in *. assert (LD : length d = (idx + length B + length (v :: T))%nat) by (unfold d; rewrite !app_length, LA; lia).
  destruct (shift_up_spec idx n (S (length B)) d) as (d' & E & L & N); [rewrite LD; cbn [length] in *; lia|]. exists (firstn n (skipn idx d')), (skipn (idx + n + length B) d').
  assert (WD : words_ok d'). { apply words_all_nth. intros j. rewrite N. destruct (_ && _); apply words_nth; exact W. }
  split; [|split; [rewrite firstn_length, skipn_length; cbn [length] in *; lia|split; [rewrite skipn_length; cbn [length] in *; lia|split; [apply words_firstn, words_skipn, WD|apply words_skipn, WD]]]].
  rewrite E. f_equal. apply (nth_ext _ _ 0 0).
  { rewrite !app_length, firstn_length, !skipn_length. cbn [length] in *. lia. }
  intros j J. rewrite N. destruct (Nat.lt_ge_cases j idx) as [C1|C1].
  { rewrite app_nth1 by lia. rewrite (proj2 (Nat.leb_gt _ _)) by lia. cbn [andb]. unfold d. rewrite app_nth1 by lia. reflexivity. }
  rewrite app_nth2 by lia. destruct (Nat.lt_ge_cases j (idx + n)) as [C2|C2].
  { rewrite app_nth1 by (rewrite firstn_length, skipn_length; cbn [length] in *; lia). rewrite nth_firstn_d by lia. rewrite nth_skipn_d, N. replace (idx + (j - length A))%nat with j by lia. reflexivity. }
  rewrite app_nth2 by (rewrite firstn_length, skipn_length; cbn [length] in *; lia). rewrite firstn_length, skipn_length, Nat.min_l by (cbn [length] in *; lia). destruct (Nat.lt_ge_cases j (idx + n + length B)) as [C3|C3].
  { rewrite app_nth1 by lia. rewrite (proj2 (Nat.leb_le _ _)), (proj2 (Nat.ltb_lt _ _)) by lia. cbn [andb]. unfold d. rewrite app_nth2 by lia. rewrite app_nth1 by lia. f_equal. lia. }
  rewrite app_nth2 by lia. rewrite nth_skipn_d, N. replace (idx + n + length B + (j - length A - n - length B))%nat with j by lia. reflexivity.
Qed.
Lemma last_list b A B T : b_data b = A ++ B ++ T -> b_ridx b = 0 -> b_nbits b = 32 * Z.of_nat (length (A ++ B)) -> last_ind b = length (A ++ B).
Proof. intros D R N. unfold last_ind. rewrite R, N, Z.mul_comm, Z.div_mul by lia. lia. Qed.

Lemma ins_list orc b src bitpos nelm nbits datyp k A B T : kind_of datyp = Some k -> bad_nbits datyp nbits = false -> (bitpos mod 64 = 0)%nat -> b_data b = A ++ B ++ T -> b_ridx b = 0 ->
  index_word b bitpos = length A -> b_nbits b = 32 * Z.of_nat (length (A ++ B)) -> (nb_words nelm nbits < length T)%nat -> 32 * Z.of_nat (length (A ++ B ++ T)) < 2 ^ 32 -> Z.of_nat (length (A ++ B ++ T)) <= b_nwords b ->
  words_ok (A ++ B ++ T) -> src_ok k src nelm nbits ->
  exists seg T', xdfins orc 1 b src bitpos nelm nbits datyp = Some (0, set_data b (b_nbits b + 32 * Z.of_nat (nb_words nelm nbits)) (A ++ seg ++ B ++ T')) /\
    length seg = nb_words nelm nbits /\ length T' = (length T - nb_words nelm nbits)%nat /\ words_ok (A ++ seg ++ B ++ T') /\ seg_reads orc k seg nelm nbits (read_as k src nelm nbits).
Proof.
  intros K BN BP D RI IX NB LT LB LW WD SO. unfold xdfins. rewrite (proj2 (Nat.eqb_eq _ _) BP). cbn [negb]. rewrite BN, K. cbv zeta. rewrite (last_list b A B T D RI NB), IX. set (n := nb_words nelm nbits) in *.
  rewrite !app_length in LB, LW. rewrite (proj2 (Z.ltb_ge _ _)) by (rewrite app_length; lia).
  assert (MAIN : exists X T', (if (length (A ++ B) =? length A)%nat then Some (b_data b) else shift_up (S (length (A ++ B)) - length A) (length A) n (b_data b)) = Some (A ++ X ++ B ++ T') /\
    length X = n /\ length T' = (length T - n)%nat /\ words_ok X /\ words_ok T').
  { rewrite D. destruct (Nat.eqb_spec (length (A ++ B)) (length A)) as [E|E].
    - assert (B = []) as -> by (rewrite app_length in E; destruct B; [reflexivity|cbn in E; lia]). exists (firstn n T), (skipn n T). cbn [app]. rewrite firstn_skipn. apply words_app in WD. destruct WD as [_ WD]. cbn [app] in WD.
      split; [reflexivity|]. split; [rewrite firstn_length; lia|]. split; [apply skipn_length|]. split; [apply words_firstn, WD|apply words_skipn, WD].
    - destruct T as [|v T]; [cbn in LT; lia|]. rewrite app_length. replace (S (length A + length B) - length A)%nat with (S (length B)) by lia.
      apply shift_up_list; [reflexivity|exact LT|right; exact Logic.I|exact WD]. }
  destruct MAIN as (X & T' & E & LX & LT' & WX & WT). rewrite E. cbn [bind]. apply words_app in WD. destruct WD as [WA WD]. apply words_app in WD. destruct WD as [WB _].
  destruct (insert_list orc k src nelm nbits A X (B ++ T') SO LX) as (seg & E2 & LS & WS & SR).
  { intros Y. apply (f_equal (@length Z)) in Y. rewrite app_length in Y. cbn [length] in Y. lia. }
  { repeat (apply words_app; split); assumption. }
  exists seg, T'. rewrite E2. cbn [bind]. rewrite w32_id by (unfold word_ok; rewrite app_length in NB; lia). split; [reflexivity|]. split; [exact LS|]. split; [exact LT'|]. split; [repeat (apply words_app; split); assumption|exact SR].
Qed.

Lemma rep_list orc b src bitpos nelm nbits datyp k A X R : kind_of datyp = Some k -> bad_nbits2 datyp nbits = false -> (bitpos mod 64 = 0)%nat -> b_data b = A ++ X ++ R ->
  index_word b bitpos = length A -> length X = nb_words nelm nbits -> R <> [] -> Z.of_nat (length (A ++ X ++ R)) <= b_nwords b ->
  words_ok (A ++ X ++ R) -> src_ok k src nelm nbits ->
  exists seg, xdfrep orc 1 b src bitpos nelm nbits datyp = Some (0, set_data b (b_nbits b) (A ++ seg ++ R)) /\
    length seg = nb_words nelm nbits /\ words_ok seg /\ seg_reads orc k seg nelm nbits (read_as k src nelm nbits).
Proof.
  intros K BN BP D IX LX NR LW WD SO. unfold xdfrep. rewrite (proj2 (Nat.eqb_eq _ _) BP). cbn [negb]. rewrite BN, K. cbv zeta. rewrite IX. set (n := nb_words nelm nbits) in *. rewrite !app_length in LW.
  rewrite (proj2 (Z.ltb_ge _ _)) by lia. rewrite D, store_list by (rewrite repeat_length; exact LX). cbn [bind].
  apply words_app in WD. destruct WD as [WA WD]. apply words_app in WD. destruct WD as [_ WR].
  destruct (insert_list orc k src nelm nbits A (repeat 0 n) R SO (repeat_length _ _) NR) as (seg & E2 & LS & WS & SR).
  { repeat (apply words_app; split); try assumption. apply words_repeat0. }
  exists seg. rewrite E2. cbn [bind]. auto.
Qed.

Lemma cut_list b bitpos nelm nbits datyp A C B T : bad_nbits2 datyp nbits = false -> (bitpos mod 64 = 0)%nat -> b_data b = A ++ C ++ B ++ T -> b_ridx b = 0 ->
  index_word b bitpos = length A -> length C = nb_words nelm nbits -> C <> [] -> b_nbits b = 32 * Z.of_nat (length (A ++ C ++ B)) -> T <> [] -> 32 * Z.of_nat (length (A ++ C ++ B ++ T)) < 2 ^ 32 ->
  words_ok (A ++ C ++ B ++ T) ->
  exists T', xdfcut b bitpos nelm nbits datyp = Some (0, set_data b (b_nbits b - 32 * Z.of_nat (nb_words nelm nbits)) (A ++ B ++ T')) /\
    length T' = (length C + length T)%nat /\ words_ok (A ++ B ++ T').
Proof.
  intros BN BP D RI IX LC NC NB NT LB WD. unfold xdfcut. rewrite (proj2 (Nat.eqb_eq _ _) BP). cbn [negb]. rewrite BN. cbv zeta.
  assert (LA : last_ind b = length (A ++ C ++ B)). { unfold last_ind. rewrite RI, NB, Z.mul_comm, Z.div_mul by lia. lia. }
  rewrite LA, IX. set (n := nb_words nelm nbits) in *. destruct T as [|v T]; [congruence|]. assert (n1 : (1 <= n)%nat) by (destruct C; [congruence|cbn [length] in LC; lia]).
  rewrite !app_length in LB. cbn [length] in LB. rewrite (proj2 (Nat.eqb_neq _ _)) by (rewrite !app_length; lia).
  replace (S (length (A ++ C ++ B)) - n - length A)%nat with (S (length B)) by (rewrite !app_length; lia). rewrite D.
  set (d := A ++ C ++ B ++ v :: T) in *. assert (LD : length d = (length A + n + length B + S (length T))%nat) by (unfold d; rewrite !app_length; cbn [length]; lia).
  destruct (shift_down_spec n (S (length B)) (length A) d) as (d1 & E1 & L1 & N1); [lia|exact n1|]. rewrite E1. cbn [bind].
  replace (S (length (A ++ C ++ B)) - (length A + S (length B)))%nat with n by (rewrite !app_length; lia).
  destruct (store_spec (repeat 0 n) d1 (length A + S (length B))) as (d2 & E2 & L2 & N2); [rewrite repeat_length; lia|]. rewrite E2. cbn [bind]. rewrite repeat_length in N2.
  assert (W2 : words_ok d2). { apply words_all_nth. intros j. rewrite N2. destruct (_ && _); [apply words_nth, words_repeat0|]. rewrite N1. destruct (_ && _); apply words_nth, WD. }
  assert (ED : d2 = A ++ B ++ skipn (length A + length B) d2).
  { apply (nth_ext _ _ 0 0); [rewrite !app_length, skipn_length; lia|]. intros j J. destruct (Nat.lt_ge_cases j (length A)) as [C1|C1].
    { rewrite app_nth1 by lia. rewrite N2. rewrite (proj2 (Nat.leb_gt _ _)) by lia. cbn [andb]. rewrite N1. rewrite (proj2 (Nat.leb_gt _ _)) by lia. cbn [andb]. unfold d. apply app_nth1. exact C1. }
    rewrite app_nth2 by lia. destruct (Nat.lt_ge_cases j (length A + length B)) as [C2|C2].
    { rewrite app_nth1 by lia. rewrite N2. rewrite (proj2 (Nat.leb_gt _ _)) by lia. cbn [andb]. rewrite N1. rewrite (proj2 (Nat.leb_le _ _)), (proj2 (Nat.ltb_lt _ _)) by lia. cbn [andb]. unfold d. rewrite app_nth2 by lia. rewrite app_nth2 by lia. rewrite app_nth1 by lia. f_equal. lia. }
    rewrite app_nth2 by lia. rewrite nth_skipn_d. f_equal. lia. }
  exists (skipn (length A + length B) d2). rewrite w32_id by (unfold word_ok; rewrite NB, !app_length; lia). rewrite <- ED. split; [reflexivity|]. split; [rewrite skipn_length; cbn [length]; lia|exact W2].
Qed.

Lemma xtr_list orc b bitpos nelm nbits datyp k A seg R dst vals : kind_of datyp = Some k -> bad_nbits datyp nbits = false -> (bitpos mod 64 = 0)%nat -> b_data b = A ++ seg ++ R ->
  index_word b bitpos = length A -> seg_reads orc k seg nelm nbits vals -> words_ok (b_data b) -> R <> [] -> (length vals <= length dst)%nat ->
  xdfxtr orc 1 b dst bitpos nelm nbits datyp = Some (0, vals ++ skipn (length vals) dst).
Proof. intros K BN BP D IX SR W NR L. rewrite (xtr_fetch _ _ _ _ _ _ _ _ k BP BN K). rewrite IX, D. rewrite SR by (rewrite <- ?D; assumption). reflexivity. Qed.

(** ** Lists of elements *)
Fixpoint pairs (es : list Z) : list Z :=
  match es with
  | [] => []
  | [a] => [putf a 16 16]
  | a :: b :: t => putf a 16 16 + putf b 0 16 :: pairs t
  end.
Lemma pairs_ind (P : list Z -> Prop) : P [] -> (forall a, P [a]) -> (forall a b t, P t -> P (a :: b :: t)) -> forall l, P l.
Proof. intros H0 H1 H2. fix F 1. intros [|a [|b t]]; [exact H0|apply H1|]. apply H2, F. Qed.
Lemma pairs_length es : length (pairs es) = ((length es + 1) / 2)%nat.
Proof.
  induction es as [|a|a b t IH] using pairs_ind; [reflexivity|reflexivity|]. cbn [pairs length]. rewrite IH. replace (S (S (length t)) + 1)%nat with (length t + 1 + 1 * 2)%nat by lia. rewrite Nat.div_add by lia. lia.
Qed.
Lemma putf_range16 v s : s = 0 \/ s = 16 -> 0 <= putf v s 16 < 2 ^ (s + 16).
Proof. intros H. unfold putf. pose proof (Z.mod_pos_bound v (2 ^ 16) ltac:(lia)). destruct H as [->| ->]; lia. Qed.
Lemma pair_range a b : 0 <= putf a 16 16 + putf b 0 16 < 2 ^ 32.
Proof. unfold putf. pose proof (Z.mod_pos_bound a (2 ^ 16) ltac:(lia)). pose proof (Z.mod_pos_bound b (2 ^ 16) ltac:(lia)). lia. Qed.
Lemma pairs_words es : words_ok (pairs es).
Proof.
  induction es as [|a|a b t IH] using pairs_ind; cbn [pairs]; [constructor|constructor; [|constructor]|constructor; [apply pair_range|exact IH]].
  pose proof (putf_range16 a 16 ltac:(lia)). lia.
Qed.
Lemma put_list_spec es : forall A T, (length (pairs es) < length T)%nat -> words_ok T ->
  exists T', put_list (A ++ T) (length A) es = Some (A ++ pairs es ++ T') /\ length T' = (length T - length (pairs es))%nat /\ words_ok T'.
Proof.
  induction es as [|a|a b t IH] using pairs_ind; intros A T L W; cbn [put_list pairs length] in *.
  - destruct T as [|v T]; [cbn in L; lia|]. change (A ++ v :: T) with (A ++ [v] ++ T). rewrite store_list by reflexivity. exists (0 :: T). split; [reflexivity|]. split; [cbn; lia|]. inversion W; subst. constructor; [lia|assumption].
  - destruct T as [|v T]; [cbn in L; lia|]. change (A ++ v :: T) with (A ++ [v] ++ T). rewrite store_list by reflexivity. exists T. split; [reflexivity|]. split; [cbn; lia|]. inversion W; subst. assumption.
  - destruct T as [|v T]; [cbn in L; lia|]. change (A ++ v :: T) with (A ++ [v] ++ T). rewrite store_list by reflexivity. cbn [bind]. inversion W as [|? ? W1 W2]; subst.
    destruct (IH (A ++ [putf a 16 16 + putf b 0 16]) T ltac:(cbn [length] in L; lia) W2) as (T' & E & L' & W'). rewrite app_length in E. cbn [length] in E. rewrite Nat.add_1_r in E. rewrite <- app_assoc in E. cbn [app] in E.
    exists T'. cbn [app]. rewrite E. rewrite <- app_assoc. cbn [app]. split; [reflexivity|]. split; [cbn [length]; lia|exact W'].
Qed.
Lemma bits_of_map n v : bits_of n v = map (fun k => Z.testbit v (Z.of_nat (n - 1 - k))) (seq 0 n).
Proof.
  induction n as [|n IH]; [reflexivity|]. cbn [bits_of seq map]. f_equal; [f_equal; lia|]. rewrite IH. rewrite <- seq_shift, map_map. apply map_ext. intros k. do 2 f_equal. lia.
Qed.
Lemma pairs_nth es : forall j, (j < length es)%nat -> getf (nth (j / 2) (pairs es) 0) (if Nat.even j then 16 else 0) 16 = nth j es 0 mod 2 ^ 16.
Proof.
  induction es as [|a|a b t IH] using pairs_ind; intros j J; cbn [length] in J; [lia| |].
  - assert (j = 0)%nat as -> by lia. cbn [pairs nth Nat.even Nat.div Nat.divmod fst]. unfold getf, putf. rewrite Z.div_mul by lia. apply Z.mod_mod. lia.
  - pose proof (Z.mod_pos_bound a (2 ^ 16) ltac:(lia)). pose proof (Z.mod_pos_bound b (2 ^ 16) ltac:(lia)). destruct j as [|[|j]].
    + cbn [pairs nth Nat.even Nat.div Nat.divmod fst]. unfold getf, putf. change (2 ^ 0) with 1. rewrite Z.mul_1_r, Z.div_add_l by lia. rewrite (Z.div_small (b mod 2 ^ 16)) by lia. rewrite Z.add_0_r. apply Z.mod_mod. lia.
    + cbn [pairs nth Nat.even Nat.div Nat.divmod fst]. unfold getf, putf. change (2 ^ 0) with 1. rewrite Z.mul_1_r, Z.div_1_r. rewrite Z.add_comm, Z.mod_add by lia. apply Z.mod_mod. lia.
    + replace (S (S j) / 2)%nat with (S (j / 2)) by (replace (S (S j)) with (j + 1 * 2)%nat by lia; rewrite Nat.div_add by lia; lia). cbn [pairs nth Nat.even]. apply IH. lia.
Qed.
Lemma map_add_seq m n : map (fun k => (m + k)%nat) (seq 0 n) = seq (0 + m) n.
Proof. induction n as [|n IH]; [reflexivity|]. rewrite !seq_S, map_app, IH. reflexivity. Qed.
Lemma list_reads orc es Y : Forall (fun e => 0 <= e < 2 ^ 16) es -> seg_reads orc (Packed false) (pairs es ++ Y) (length es) 16 es.
Proof.
  intros FE A R dst W NR LD. cbn [fetch]. rewrite (proj2 (Nat.ltb_ge _ _)) by (rewrite app_length; lia). rewrite skipn_app_len. apply words_app in W. destruct W as [_ W].
  assert (DV : (2 * ((length es + 1) / 2) >= length es)%nat). { pose proof (Nat.div_mod (length es + 1) 2 ltac:(lia)). pose proof (Nat.mod_upper_bound (length es + 1) 2 ltac:(lia)). lia. }
  destruct (unpack_value orc false dst ((pairs es ++ Y) ++ R) (length es) 16 0 1 ltac:(lia) W (fits1 _ _ LD) ltac:(lia)) as (dst' & E & U).
  { rewrite !app_length, pairs_length. destruct R; [congruence|cbn [length]; lia]. }
  cbn [bind] in *. rewrite E. cbn [bind ci_unp]. f_equal. rewrite (updated1 _ _ _ _ U LD). f_equal.
  apply (nth_ext _ _ 0 0); [rewrite map_length, seq_length; reflexivity|]. intros j J. rewrite map_length, seq_length in J.
  rewrite XdfEnum.nth_map_seq by exact J. rewrite Z.sub_0_r.
  assert (V : map (bit_at ((pairs es ++ Y) ++ R)) (seq (0 + j * 16) 16) = bits_of 16 (nth j es 0)).
  { rewrite bits_of_map. replace (seq (0 + j * 16) 16) with (map (fun k => (j * 16 + k)%nat) (seq 0 16)).
    2: { apply map_add_seq. }
    rewrite map_map. apply map_ext_in. intros k KI. apply in_seq in KI. unfold bit_at.
    assert (Q : ((j * 16 + k) / 32 = j / 2)%nat).
    { pose proof (Nat.div_mod j 2 ltac:(lia)). pose proof (Nat.mod_upper_bound j 2 ltac:(lia)). symmetry. apply (Nat.div_unique _ 32 _ (j mod 2 * 16 + k)); lia. }
    rewrite Q. assert (LJ : (j / 2 < length (pairs es))%nat).
    { rewrite pairs_length. pose proof (Nat.div_mod j 2 ltac:(lia)). pose proof (Nat.mod_upper_bound j 2 ltac:(lia)). pose proof (Nat.div_mod (length es + 1) 2 ltac:(lia)). pose proof (Nat.mod_upper_bound (length es + 1) 2 ltac:(lia)). lia. }
    rewrite !app_nth1 by (rewrite ?app_length; lia). pose proof (pairs_nth es j J) as PN.
    rewrite <- (Z.mod_pow2_bits_low (nth j es 0) 16) by lia. rewrite <- PN. rewrite getf_bit by (destruct (Nat.even j); lia). rewrite (proj2 (Z.ltb_lt _ _)) by lia. cbn [andb]. f_equal.
    rewrite Nat2Z.inj_add, Nat2Z.inj_mul. destruct (Nat.even j) eqn:EV.
    - apply Nat.even_spec in EV. destruct EV as (q & ->). replace (Z.of_nat (2 * q) * Z.of_nat 16 + Z.of_nat k) with (Z.of_nat k + Z.of_nat q * 32) by lia. rewrite Z.mod_add by lia. rewrite Z.mod_small by lia. lia.
    - assert (OD : Nat.odd j = true) by (unfold Nat.odd; rewrite EV; reflexivity). apply Nat.odd_spec in OD. destruct OD as (q & ->). replace (Z.of_nat (2 * q + 1) * Z.of_nat 16 + Z.of_nat k) with (16 + Z.of_nat k + Z.of_nat q * 32) by lia. rewrite Z.mod_add by lia. rewrite Z.mod_small by lia. lia. }
  rewrite V, val_of_bits_of. rewrite Forall_forall in FE. pose proof (FE _ (nth_In es 0 J)) as RJ. change (2 ^ Z.of_nat 16) with (2 ^ 16). rewrite (Z.mod_small (nth j es 0)) by exact RJ. apply Z.mod_small. lia.
Qed.
Lemma list_words_eq n : list_words n = nb_words n 16.
Proof.
  unfold list_words, nb_words. f_equal. pose proof (Nat.div_mod (n + 1) 2 ltac:(lia)) as D. pose proof (Nat.mod_upper_bound (n + 1) 2 ltac:(lia)) as M.
  destruct (Nat.eq_dec ((n + 1) mod 2) 1) as [E|E].
  - f_equal. lia.
  - assert (E0 : ((n + 1) mod 2 = 0)%nat) by lia. set (q := ((n + 1) / 2)%nat) in *. assert (NE : (n = 2 * q - 1)%nat) by lia. assert (Q1 : (1 <= q)%nat) by lia.
    pose proof (Nat.div_mod q 2 ltac:(lia)) as D2. pose proof (Nat.mod_upper_bound q 2 ltac:(lia)) as M2. set (h := (q / 2)%nat) in *.
    destruct (Nat.eq_dec (q mod 2) 0) as [Z0|Z0].
    + transitivity h; [symmetry; apply (Nat.div_unique _ 64 h 63); lia|apply (Nat.div_unique _ 64 h 47); lia].
    + transitivity (h + 1)%nat; [symmetry; apply (Nat.div_unique _ 64 (h + 1) 31); lia|apply (Nat.div_unique _ 64 (h + 1) 15); lia].
Qed.
Lemma pairs_fit es : (length (pairs es) <= list_words (length es))%nat.
Proof.
  rewrite pairs_length. unfold list_words. set (q := ((length es + 1) / 2)%nat). pose proof (Nat.div_mod (32 * q + 63) 64 ltac:(lia)). pose proof (Nat.mod_upper_bound (32 * q + 63) 64 ltac:(lia)). lia.
Qed.
(** The list written at the end of the data. *)
Lemma put_list_seg orc es A T : (list_words (length es) < length T)%nat -> words_ok T -> Forall (fun e => 0 <= e < 2 ^ 16) es ->
  exists seg T', put_list (A ++ T) (length A) es = Some (A ++ seg ++ T') /\ length seg = list_words (length es) /\ length T' = (length T - list_words (length es))%nat /\ words_ok seg /\ words_ok T' /\
    seg_reads orc (Packed false) seg (length es) 16 es.
Proof.
  intros L W FE. pose proof (pairs_fit es) as PF. destruct (put_list_spec es A T ltac:(lia) W) as (T1 & E & L1 & W1). set (m := (list_words (length es) - length (pairs es))%nat).
  exists (pairs es ++ firstn m T1), (skipn m T1). rewrite E. rewrite <- app_assoc, firstn_skipn. split; [reflexivity|].
  split; [rewrite app_length, firstn_length; lia|]. split; [rewrite skipn_length; lia|]. split; [apply words_app; split; [apply pairs_words|apply words_firstn, W1]|]. split; [apply words_skipn, W1|apply list_reads, FE].
Qed.
