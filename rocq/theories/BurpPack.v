(** Bits per value of a block. *)
From Coq Require Import ZArith List Lia Bool.
From Verif Require Import Bits BitIO CompactInt SpecPack Handles WaFile Xdf XdfLib XdfEnum XdfKeys XdfKeysThm XdfBuf XdfBufSpec XdfBufFacts Burp BurpKeys BurpBuf BurpSpec.
Import ListNotations.
Open Scope Z_scope.
Open Scope opt_scope.

Lemma s32_as_int w : 0 <= w < 2 ^ 32 -> s32 w = as_int w.
Proof. reflexivity. Qed.
Lemma as_int_range w : 0 <= w < 2 ^ 32 -> - 2 ^ 31 <= as_int w < 2 ^ 31.
Proof. intros H. unfold as_int. destruct (Z.ltb_spec w (2 ^ 31)); lia. Qed.
Lemma as_int_inj a b : 0 <= a < 2 ^ 32 -> 0 <= b < 2 ^ 32 -> as_int a = as_int b -> a = b.
Proof. unfold as_int. intros A B. destruct (Z.ltb_spec a (2 ^ 31)), (Z.ltb_spec b (2 ^ 31)); lia. Qed.

Lemma fold_max l : forall a, (a <= fold_left Z.max l a) /\ (forall v, In v l -> v <= fold_left Z.max l a) /\ (fold_left Z.max l a = a \/ In (fold_left Z.max l a) l).
Proof.
  induction l as [|x l IH]; intros a; cbn [fold_left].
  - split; [lia|]. split; [intros v []|left; reflexivity].
  - destruct (IH (Z.max a x)) as (A & B & C). split; [lia|]. split; [intros v [->|V]; [lia|apply B, V]|]. destruct C as [C|C]; [|right; right; exact C]. destruct (Z.max_spec a x) as [[_ M]|[_ M]]; rewrite M in *; [right; left; auto|left; exact C].
Qed.
Lemma fold_min l : forall a, (fold_left Z.min l a <= a) /\ (forall v, In v l -> fold_left Z.min l a <= v) /\ (fold_left Z.min l a = a \/ In (fold_left Z.min l a) l).
Proof.
  induction l as [|x l IH]; intros a; cbn [fold_left].
  - split; [lia|]. split; [intros v []|left; reflexivity].
  - destruct (IH (Z.min a x)) as (A & B & C). split; [lia|]. split; [intros v [->|V]; [lia|apply B, V]|]. destruct C as [C|C]; [|right; right; exact C]. destruct (Z.min_spec a x) as [[_ M]|[_ M]]; rewrite M in *; [left; exact C|right; left; auto].
Qed.
Lemma largest_ge l v : In v l -> Z.abs v <= largest l.
Proof. unfold largest. induction l as [|x l IH]; [intros []|]. cbn [map fold_right]. intros [->|V]; [lia|]. specialize (IH V). lia. Qed.
Lemma largest_eq l m : (forall v, In v l -> Z.abs v <= m) -> (exists v, In v l /\ Z.abs v = m) -> largest l = m.
Proof.
  intros U (v & V & E). apply Z.le_antisymm; [|subst m; apply largest_ge, V]. assert (0 <= m) by lia. clear V E. unfold largest. induction l as [|x l IH]; [cbn; lia|]. cbn [map fold_right].
  apply Z.max_lub; [apply U; left; reflexivity|apply IH; intros y Y; apply U; right; exact Y].
Qed.
Lemma bit_count_spec fuel : forall m, 0 <= m < 2 ^ Z.of_nat fuel -> bit_count fuel m = if m =? 0 then O else S (Z.to_nat (Z.log2 m)).
Proof.
  induction fuel as [|n IH]; intros m H; [change (2 ^ Z.of_nat 0) with 1 in H; assert (m = 0) as -> by lia; reflexivity|].
  cbn [bit_count]. destruct (Z.eqb_spec m 0) as [->|N]; [reflexivity|]. rewrite Nat2Z.inj_succ, Z.pow_succ_r in H by lia. rewrite IH by (rewrite Z.shiftr_div_pow2 by lia; change (2 ^ 1) with 2; split; [apply Z.div_pos; lia|apply Z.div_lt_upper_bound; lia]).
  f_equal. destruct (Z.eqb_spec (Z.shiftr m 1) 0) as [Z0|Z0].
  - assert (m = 1) as ->. { rewrite Z.shiftr_div_pow2 in Z0 by lia. change (2 ^ 1) with 2 in Z0. pose proof (Z.div_mod m 2 ltac:(lia)). pose proof (Z.mod_pos_bound m 2 ltac:(lia)). lia. }
    reflexivity.
  - assert (M1 : 1 < m). { destruct (Z.eq_dec m 1) as [->|]; [exfalso; apply Z0; reflexivity|lia]. }
    rewrite Z.log2_shiftr by lia. pose proof (Z.log2_pos m M1). rewrite Z.max_r by lia. rewrite <- Z2Nat.inj_succ by lia. f_equal. lia.
Qed.
Lemma width_spec m : 0 <= m < 2 ^ 31 -> (let needed := bit_count 32 m in if m =? 2 ^ Z.of_nat needed - 1 then S needed else needed) = width m.
Proof.
  intros H. cbv zeta. rewrite bit_count_spec by (change (2 ^ Z.of_nat 32) with (2 ^ 32); lia). unfold width. destruct (Z.eqb_spec m 0) as [->|N]; [reflexivity|].
  assert (P : 0 < m) by lia. destruct (Z.log2_spec m P) as [A B]. pose proof (Z.log2_nonneg m) as LN. rewrite Nat2Z.inj_succ, Z2Nat.id by lia.
  destruct (Z.eqb_spec m (2 ^ Z.succ (Z.log2 m) - 1)) as [E|E].
  - replace (m + 1) with (2 ^ Z.succ (Z.log2 m)) by lia. rewrite Z.log2_pow2 by lia. rewrite Z2Nat.inj_add, Z2Nat.inj_succ by lia. change (Z.to_nat 1) with 1%nat. lia.
  - rewrite (Z.log2_unique (m + 1) (Z.log2 m)); [rewrite Z2Nat.inj_add by lia; change (Z.to_nat 1) with 1%nat; lia|exact LN|lia].
Qed.
Lemma width_bound m : 0 <= m -> m + 1 < 2 ^ Z.of_nat (width m).
Proof. intros H. unfold width. pose proof (Z.log2_nonneg (m + 1)). rewrite Z2Nat.id by lia. destruct (Z.log2_spec (m + 1) ltac:(lia)) as [_ B]. rewrite Z.add_1_r. exact B. Qed.

(** The values equal to all ones at the width of the block are missing. *)
Definition undo (dt : Z) (nb n : nat) (vals : list Z) : list Z :=
  if (dt =? 2) || (dt =? 4) || (dt =? 6) then
    map (fun v => if v =? (if (32 <=? nb)%nat then 2 ^ 32 - 1 else 2 ^ Z.of_nat nb - 1) then 2 ^ 32 - 1 else v) (firstn n vals) ++ skipn n vals
  else vals.

Lemma map_id_on (g : Z -> Z) l : (forall v, In v l -> g v = v) -> map g l = l.
Proof. intros H. rewrite <- (map_id l) at 2. apply map_ext_in. exact H. Qed.
Lemma in_firstn_nth (l : list Z) n v : In v (firstn n l) -> exists j, (j < n)%nat /\ (j < length l)%nat /\ v = nth j l 0.
Proof.
  intros H. apply (In_nth _ _ 0) in H. destruct H as (j & J & <-). rewrite firstn_length in J. exists j. split; [lia|]. split; [lia|]. apply nth_firstn_d. lia.
Qed.
Lemma plain_ok dt k nb n tbl : kind_of dt = Some k -> (forall sg, k <> Packed sg) -> words_ok tbl -> (needs dt n nb <= length tbl)%nat -> packed dt = false -> dt <> 2 -> dt <> 4 -> (dt = 6 -> nb = 32%nat) -> (dt = 5 -> k = Upper) -> (dt <> 5 -> k <> Upper) ->
  src_ok k tbl n nb /\ undo dt nb n (read_as k tbl n nb) = kept dt n nb tbl.
Proof.
  intros K NP W L PK D2 D4 D6 U1 U2. unfold needs, kept in *. rewrite PK in *. change (2 * ((n * nb + 63) / 64))%nat with (nb_words n nb) in *. split.
  { split; [exact W|]. destruct k; try exact L. exfalso. exact (NP _ eq_refl). }
  assert (UN : forall l, words_ok l -> undo dt nb n l = l).
  { intros l WL. unfold undo. rewrite (proj2 (Z.eqb_neq _ _) D2), (proj2 (Z.eqb_neq _ _) D4). cbn [orb]. destruct (Z.eqb_spec dt 6) as [E|E]; [|reflexivity]. rewrite (D6 E). cbn [Nat.leb].
    rewrite map_id_on; [apply firstn_skipn|]. intros v _. destruct (Z.eqb_spec v (2 ^ 32 - 1)); [auto|reflexivity]. }
  destruct (Z.eqb_spec dt 5) as [E|E].
  - rewrite (U1 E) in *. cbn [read_as]. apply UN, words_upcase, words_firstn, W.
  - specialize (U2 E). destruct k; cbn [read_as]; [apply UN, words_firstn, W|apply UN, words_firstn, W|congruence|exfalso; exact (NP _ eq_refl)].
Qed.

Lemma nth_words l j : words_ok l -> 0 <= nth j l 0 < 2 ^ 32.
Proof. apply words_nth. Qed.
Lemma unsigned_ok tbl n nb : words_ok tbl -> (1 <= nb <= 32)%nat -> (n <= length tbl)%nat ->
  (nb = 32%nat \/ forall v, In v (map as_int (firstn n tbl)) -> v = -1 \/ 0 <= v < 2 ^ Z.of_nat nb - 1) ->
  src_ok (Packed false) tbl n nb /\ undo 2 nb n (read_as (Packed false) tbl n nb) = kept 2 n nb tbl.
Proof.
  intros W NB L V. split; [split; [exact W|]; split; [exact NB|]; split; [exact L|discriminate]|].
  unfold undo, kept, packed. cbn [Z.eqb Pos.eqb orb read_as]. rewrite firstn_all2 by (rewrite map_length, firstn_length; lia). rewrite skipn_all2 by (rewrite map_length, firstn_length; lia). rewrite app_nil_r, map_map.
  apply map_id_on. intros v IV. pose proof IV as IV2. apply in_firstn_nth in IV. destruct IV as (j & J & JL & E). pose proof (nth_words tbl j W) as R. rewrite <- E in R. cbv beta.
  assert (P31 : 0 < 2 ^ Z.of_nat nb) by (apply Z.pow_pos_nonneg; lia).
  destruct (Nat.leb_spec 32 nb) as [B|B].
  - assert (nb = 32%nat) as -> by lia. change (2 ^ Z.of_nat 32) with (2 ^ 32). rewrite Z.mod_small by lia. destruct (Z.eqb_spec v (2 ^ 32 - 1)); [auto|reflexivity].
  - destruct V as [V|V]; [lia|]. specialize (V (as_int v) (in_map as_int _ _ IV2)). assert (LE : 2 ^ Z.of_nat nb <= 2 ^ 31) by (apply Z.pow_le_mono_r; lia).
    destruct V as [V|V].
    + assert (v = 2 ^ 32 - 1) as EV by (unfold as_int in V; destruct (Z.ltb_spec v (2 ^ 31)); lia). rewrite EV.
      assert (M : (2 ^ 32 - 1) mod 2 ^ Z.of_nat nb = 2 ^ Z.of_nat nb - 1).
      { symmetry. apply (Z.mod_unique _ _ (2 ^ (32 - Z.of_nat nb) - 1)); [left; lia|]. rewrite Z.mul_sub_distr_l, Z.mul_1_r, <- Z.pow_add_r by lia. replace (Z.of_nat nb + (32 - Z.of_nat nb)) with 32 by lia. lia. }
      rewrite M, Z.eqb_refl. reflexivity.
    + assert (EV : as_int v = v) by (unfold as_int in *; destruct (Z.ltb_spec v (2 ^ 31)); lia). rewrite EV in V. rewrite Z.mod_small by lia. rewrite (proj2 (Z.eqb_neq _ _)) by lia. reflexivity.
Qed.
Lemma signed_ok tbl n nb : words_ok tbl -> (1 <= nb <= 32)%nat -> (n <= length tbl)%nat ->
  (forall v, In v (map as_int (firstn n tbl)) -> - 2 ^ Z.of_nat (nb - 1) <= v < 2 ^ Z.of_nat (nb - 1)) ->
  src_ok (Packed true) tbl n nb /\ undo 4 nb n (read_as (Packed true) tbl n nb) = kept 4 n nb tbl.
Proof.
  intros W NB L V. split.
  { split; [exact W|]. split; [exact NB|]. split; [exact L|]. intros _ j J. apply V. apply in_map. rewrite <- (nth_firstn_d n tbl j) by exact J. apply nth_In. rewrite firstn_length. lia. }
  unfold undo, kept, packed. cbn [Z.eqb Pos.eqb orb read_as]. rewrite firstn_all2 by (rewrite firstn_length; lia). rewrite skipn_all2 by (rewrite firstn_length; lia). rewrite app_nil_r.
  apply map_id_on. intros v IV. pose proof IV as IV2. apply in_firstn_nth in IV. destruct IV as (j & J & JL & E). pose proof (nth_words tbl j W) as R. rewrite <- E in R. specialize (V (as_int v) (in_map as_int _ _ IV2)).
  destruct (Nat.leb_spec 32 nb) as [B|B]; [destruct (Z.eqb_spec v (2 ^ 32 - 1)); [auto|reflexivity]|].
  destruct (Z.eqb_spec v (2 ^ Z.of_nat nb - 1)) as [E1|]; [|reflexivity]. exfalso.
  assert (D : 2 ^ Z.of_nat nb = 2 * 2 ^ Z.of_nat (nb - 1)) by (rewrite <- Z.pow_succ_r by lia; f_equal; lia). assert (LE : 2 ^ Z.of_nat nb <= 2 ^ 31) by (apply Z.pow_le_mono_r; lia).
  assert (P : 0 < 2 ^ Z.of_nat (nb - 1)) by (apply Z.pow_pos_nonneg; lia). unfold as_int in V. destruct (Z.ltb_spec v (2 ^ 31)); lia.
Qed.

Theorem nbit_datyp_ok nbit datyp tbl n nb dt : (1 <= n)%nat -> (1 <= nbit <= 32)%nat -> 2 <= datyp <= 9 -> words_ok tbl ->
  stored_bits nbit datyp (firstn n tbl) = Some (nb, dt) -> (needs dt n nb <= length tbl)%nat -> (packed datyp = true -> (n <= length tbl)%nat) ->
  nbit_datyp nbit datyp tbl n 1 = Some (0, nb, dt) /\ (1 <= nb <= 32)%nat /\ 2 <= dt <= 9 /\ (dt = datyp \/ (datyp = 2 /\ dt = 4)) /\ bad_nbits dt nb = false /\ (nbit <= nb \/ packed datyp = false)%nat /\
  exists k, kind_of dt = Some k /\ src_ok k tbl n nb /\ undo dt nb n (read_as k tbl n nb) = kept dt n nb tbl.
Proof.
  intros N1 NB DT W ST LN LP. unfold nbit_datyp. unfold stored_bits in ST. destruct ((datyp =? 2) && (nbit =? 32)%nat) eqn:C1.
  { apply andb_prop in C1. destruct C1 as [C1 C2]. apply Z.eqb_eq in C1. apply Nat.eqb_eq in C2. assert (nb = 32%nat /\ dt = 2) as [-> ->] by (split; congruence). subst. unfold needs, packed in *. cbn [Z.eqb Pos.eqb orb] in *.
    split; [reflexivity|]. split; [lia|]. split; [lia|]. split; [left; reflexivity|]. split; [reflexivity|]. split; [left; lia|]. exists (Packed false). split; [reflexivity|]. apply unsigned_ok; try assumption; left; reflexivity. }
  destruct (Z.ltb_spec 5 datyp) as [C2|C2].
  { assert (nb = 32%nat /\ dt = datyp) as [-> ->] by (split; congruence). split; [reflexivity|]. split; [lia|]. split; [lia|]. split; [left; reflexivity|]. split; [unfold bad_nbits; rewrite (proj2 (Z.eqb_neq _ 3)), (proj2 (Z.eqb_neq _ 5)) by lia; reflexivity|].
    assert (PK : packed datyp = false) by (unfold packed; rewrite (proj2 (Z.eqb_neq _ 2)), (proj2 (Z.eqb_neq _ 4)) by lia; reflexivity). split; [right; exact PK|].
    assert (KK : exists k, kind_of datyp = Some k /\ (k = Plain \/ k = Swapped)). { assert (datyp = 6 \/ datyp = 7 \/ datyp = 8 \/ datyp = 9) as [->|[->|[->| ->]]] by lia; vm_compute; eauto. }
    destruct KK as (k & K & KP). exists k. split; [exact K|]. apply (plain_ok datyp k); try assumption; try lia; intros; destruct KP as [->| ->]; discriminate. }
  destruct ((datyp =? 3) || (datyp =? 5)) eqn:C3.
  { assert (nb = 8%nat /\ dt = datyp) as [-> ->] by (split; congruence). split; [reflexivity|]. split; [lia|]. split; [lia|]. split; [left; reflexivity|]. split; [unfold bad_nbits; rewrite C3; reflexivity|].
    apply orb_prop in C3. assert (D35 : datyp = 3 \/ datyp = 5) by (destruct C3 as [C|C]; apply Z.eqb_eq in C; auto).
    assert (PK : packed datyp = false) by (unfold packed; rewrite (proj2 (Z.eqb_neq _ 2)), (proj2 (Z.eqb_neq _ 4)) by lia; reflexivity). split; [right; exact PK|].
    destruct D35 as [->| ->]; eexists; (split; [reflexivity|]); apply plain_ok; try assumption; try reflexivity; try lia; intros; try discriminate; try lia. }
  apply orb_false_elim in C3. destruct C3 as [C3 C5]. apply Z.eqb_neq in C3, C5. assert (D24 : datyp = 2 \/ datyp = 4) by lia.
  assert (PKD : packed datyp = true) by (destruct D24 as [->| ->]; reflexivity). specialize (LP PKD). destruct tbl as [|t0 tbl0] eqn:ET; [cbn [length] in LP; lia|]. rewrite <- ET in *. assert (T0 : nth_error tbl 0 = Some t0) by (rewrite ET; reflexivity). rewrite T0. cbn [bind].
  rewrite (proj2 (Nat.ltb_lt _ _)) by lia.
  set (l := map as_int (firstn n tbl)) in *.
  assert (EL : map (fun i => s32 (nth (i * 1) tbl 0)) (seq 0 n) = l).
  { unfold l. rewrite <- (map_seq_nth as_int tbl n) by lia. apply map_ext. intros i. rewrite Nat.mul_1_r. apply s32_as_int. apply nth_words, W. }
  rewrite EL. assert (V0 : In (s32 t0) l). { unfold l. rewrite ET. destruct n; [lia|]. cbn [firstn map]. left. symmetry. apply s32_as_int. rewrite ET in W. inversion W; subst; assumption. }
  cbv zeta. set (mx := fold_left Z.max l (s32 t0)). set (mn := fold_left Z.min l (s32 t0)).
  destruct (fold_max l (s32 t0)) as (_ & MX1 & MX2). fold mx in MX1, MX2. assert (MXI : In mx l) by (destruct MX2 as [E|E]; [rewrite E; exact V0|exact E]).
  destruct (fold_min l (s32 t0)) as (_ & MN1 & MN2). fold mn in MN1, MN2. assert (MNI : In mn l) by (destruct MN2 as [E|E]; [rewrite E; exact V0|exact E]).
  assert (RL : forall v, In v l -> - 2 ^ 31 <= v < 2 ^ 31). { intros v V. unfold l in V. apply in_map_iff in V. destruct V as (x & <- & X). apply as_int_range. apply in_firstn_nth in X. destruct X as (j & _ & _ & ->). apply nth_words, W. }
  assert (PI : forall v, In v (present (firstn n tbl)) <-> In v l /\ v <> -1). { intros v. unfold present. fold l. rewrite filter_In. destruct (Z.eqb_spec v (-1)); cbn [negb]; intuition congruence. }
  pose proof (RL mn MNI) as RMN. pose proof (RL mx MXI) as RMX. pose proof (MX1 mn MNI) as MM.
  assert (NBG : (nbit <= Nat.max nbit (S (width (largest (present (firstn n tbl))))))%nat) by lia.
  destruct (present (firstn n tbl)) as [|p0 pr] eqn:PR.
  { assert (ALL : forall v, In v l -> v = -1). { intros v V. destruct (Z.eq_dec v (-1)) as [E|E]; [exact E|]. destruct (proj2 (PI v) (conj V E)). }
    assert (nb = nbit /\ dt = datyp) as [-> ->] by (split; congruence). rewrite (ALL mn MNI), (ALL mx MXI). cbn [Z.eqb Pos.eqb andb].
    split; [reflexivity|]. split; [exact NB|]. split; [lia|]. split; [left; reflexivity|]. split; [unfold bad_nbits; rewrite (proj2 (Z.eqb_neq _ 3)), (proj2 (Z.eqb_neq _ 5)) by lia; reflexivity|]. split; [left; lia|].
    destruct D24 as [->| ->]; eexists; (split; [reflexivity|]).
    - apply unsigned_ok; try assumption. right. intros v V. left. apply ALL, V.
    - apply signed_ok; try assumption. intros v V. fold l in V. rewrite (ALL v V). assert (0 < 2 ^ Z.of_nat (nbit - 1)) by (apply Z.pow_pos_nonneg; lia). lia. }
  cbv beta iota zeta in ST. rewrite <- PR in *. set (m := largest (present (firstn n tbl))) in *. assert (P0 : In p0 l /\ p0 <> -1) by (apply PI; rewrite PR; left; reflexivity). destruct P0 as [P0 P0N].
  assert (NALL : (mn =? mx) && (mn =? -1) = false). { destruct (Z.eqb_spec mn mx) as [E|E]; [|reflexivity]. cbn [andb]. apply Z.eqb_neq. intros X. pose proof (MX1 _ P0). pose proof (MN1 _ P0). lia. }
  rewrite NALL.
  assert (EX : existsb (fun v => v <? 0) (present (firstn n tbl)) = (mn <? -1)).
  { apply Bool.eq_true_iff_eq. rewrite existsb_exists, Z.ltb_lt. split.
    - intros (v & V & N). apply PI in V. destruct V as [V VN]. apply Z.ltb_lt in N. pose proof (MN1 v V). lia.
    - intros N. exists mn. split; [apply PI; split; [exact MNI|lia]|apply Z.ltb_lt; lia]. }
  assert (EM : m = if mn <? -1 then (if - mn <? mx then mx else - mn) else mx).
  { unfold m. apply largest_eq.
    - intros v V. apply PI in V. destruct V as [V VN]. pose proof (MN1 v V). pose proof (MX1 v V). destruct (Z.ltb_spec mn (-1)); [destruct (Z.ltb_spec (- mn) mx); lia|lia].
    - destruct (Z.ltb_spec mn (-1)) as [N|N].
      + destruct (Z.ltb_spec (- mn) mx) as [N2|N2]; [exists mx; split; [apply PI; split; [exact MXI|lia]|lia]|exists mn; split; [apply PI; split; [exact MNI|lia]|lia]].
      + exists mx. assert (0 <= mx). { pose proof (MN1 p0 P0). pose proof (MX1 p0 P0). lia. } split; [apply PI; split; [exact MXI|lia]|lia]. }
  assert (M0 : 0 <= m). { unfold m, largest. clear. induction (map Z.abs (present (firstn n tbl))); cbn [fold_right]; lia. }
  assert (ML : forall v, In v l -> v = -1 \/ Z.abs v <= m). { intros v V. destruct (Z.eq_dec v (-1)); [left; assumption|right]. apply largest_ge. apply PI. auto. }
  fold m in ST. rewrite EX in ST.
  pose proof (width_bound m M0) as WB.
  assert (MNZ : mn <> - 2 ^ 31).
  { intros X. rewrite X in ST. change (- 2 ^ 31 <? -1) with true in ST. cbn [orb] in ST. destruct (Nat.leb_spec (S (width m)) 31) as [B|B]; [|discriminate]. assert (2 ^ 31 <= m) by (rewrite EM, X; change (- 2 ^ 31 <? -1) with true; destruct (Z.ltb_spec (- - 2 ^ 31) mx); lia).
    assert (2 ^ Z.of_nat (width m) <= 2 ^ 30) by (apply Z.pow_le_mono_r; lia). lia. }
  rewrite (proj2 (Z.eqb_neq _ _) MNZ). rewrite <- EM.
  assert (M31 : 0 <= m < 2 ^ 31) by (split; [exact M0|]; rewrite EM; destruct (Z.ltb_spec mn (-1)); [destruct (Z.ltb_spec (- mn) mx); lia|lia]).
  pose proof (width_spec m M31) as WS. cbv zeta in WS. rewrite WS.
  destruct (Z.eqb_spec datyp 4) as [D4|D4].
  - (* signed *)
    rewrite orb_true_r in ST. destruct (Nat.leb_spec (S (width m)) 31) as [B|B]; [|discriminate]. assert (nb = Nat.max nbit (S (width m)) /\ dt = 4) as [-> ->] by (split; congruence).
    replace (if mn <? -1 then 4 else datyp) with 4 by (destruct (mn <? -1); congruence). cbn [Z.eqb Pos.eqb]. rewrite (proj2 (Nat.ltb_ge _ _)) by lia.
    split; [reflexivity|]. split; [lia|]. split; [lia|]. split; [lia|]. split; [reflexivity|]. split; [left; lia|]. exists (Packed true). split; [reflexivity|]. apply signed_ok; try assumption; [lia|].
    intros v V. fold l in V. assert (2 ^ Z.of_nat (width m) <= 2 ^ Z.of_nat (Nat.max nbit (S (width m)) - 1)) by (apply Z.pow_le_mono_r; lia). destruct (ML v V); lia.
  - assert (datyp = 2) as -> by lia. rewrite orb_false_r in ST. destruct (Z.ltb_spec mn (-1)) as [N|N].
    + destruct (Nat.leb_spec (S (width m)) 31) as [B|B]; [|discriminate]. assert (nb = Nat.max nbit (S (width m)) /\ dt = 4) as [-> ->] by (split; congruence). cbn [Z.eqb Pos.eqb]. rewrite (proj2 (Nat.ltb_ge _ _)) by lia.
      split; [reflexivity|]. split; [lia|]. split; [lia|]. split; [lia|]. split; [reflexivity|]. split; [left; lia|]. exists (Packed true). split; [reflexivity|]. apply signed_ok; try assumption; [lia|].
      intros v V. fold l in V. assert (2 ^ Z.of_nat (width m) <= 2 ^ Z.of_nat (Nat.max nbit (S (width m)) - 1)) by (apply Z.pow_le_mono_r; lia). destruct (ML v V); lia.
    + assert (nb = Nat.max nbit (Nat.min 32 (width m)) /\ dt = 2) as [-> ->] by (split; congruence). cbn [Z.eqb Pos.eqb].
      assert (W1 : (1 <= width m <= 32)%nat).
      { unfold width. pose proof (Z.log2_nonneg (m + 1)). split; [apply (Nat.le_trans _ (Z.to_nat 1)); [cbn; lia|apply Z2Nat.inj_le; lia]|]. assert (Z.log2 (m + 1) <= 31) by (rewrite <- (Z.log2_pow2 31) by lia; apply Z.log2_le_mono; lia). lia. }
      split; [reflexivity|]. split; [lia|]. split; [lia|]. split; [lia|]. split; [reflexivity|]. split; [left; lia|]. exists (Packed false). split; [reflexivity|]. apply unsigned_ok; try assumption; [lia|].
      right. intros v V. fold l in V. pose proof (MN1 v V). assert (2 ^ Z.of_nat (width m) <= 2 ^ Z.of_nat (Nat.max nbit (Nat.min 32 (width m)))) by (apply Z.pow_le_mono_r; lia). destruct (ML v V) as [X|X]; [left; exact X|]. destruct (Z.eq_dec v (-1)); [left; assumption|right; lia].
Qed.
