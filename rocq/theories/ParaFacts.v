(** The parallelogram coders. *)
From Coq Require Import ZArith List Lia Bool.
From Verif Require Import Bits BitIO BitIOFacts CompactInt CompactIntMain TileCodec StreamFacts TileFacts MinFacts.
Import ListNotations.
Open Scope Z_scope.
Open Scope opt_scope.

Lemma scan_abs_max_spec l : l <> [] ->
  (exists v, In v l /\ scan_abs_max l = Z.abs v) /\ forall v, In v l -> Z.abs v <= scan_abs_max l.
Proof.
  intros Hl. destruct l as [|x r]; [contradiction|]. unfold scan_abs_max.
  set (f := fun mx v => if mx <? Z.abs v then Z.abs v else mx).
  assert (G : forall l a, (fold_left f l a = a \/ exists v, In v l /\ fold_left f l a = Z.abs v) /\
     a <= fold_left f l a /\ forall v, In v l -> Z.abs v <= fold_left f l a).
  { induction l as [|y l IH]; intros a; cbn [fold_left].
    - split; auto. split; [lia|]. intros v [].
    - specialize (IH (f a y)). destruct IH as (I1 & I2 & I3).
      assert (Fy : Z.abs y <= f a y /\ a <= f a y /\ (f a y = a \/ f a y = Z.abs y)).
      { unfold f. destruct (Z.ltb_spec a (Z.abs y)); lia. }
      destruct Fy as (F1 & F2 & F3). split.
      + destruct I1 as [I1|(v & Iv & Ev)].
        * destruct F3 as [F3|F3]; [left; congruence|right; exists y; split; [left; auto|congruence]].
        * right. exists v. split; [right|]; auto.
      + split; [lia|]. intros v [<-|Hv]; [lia|auto]. }
  destruct (G (x :: r) x) as (G1 & G2 & G3). split; auto.
  destruct G1 as [G1|G1]; auto. exists x. split; [left; auto|].
  specialize (G3 x (or_introl eq_refl)). lia.
Qed.

Lemma low_bits_mod b v : low_bits b v = v mod 2 ^ Z.of_nat b.
Proof.
  unfold low_bits. rewrite <- Z.land_ones by lia. f_equal.
  rewrite Z.ones_equiv, Z.shiftl_mul_pow2 by lia. unfold Z.lnot. lia.
Qed.

Lemma sext_spec b v : (1 <= b <= 31)%nat -> - 2 ^ Z.of_nat (b - 1) <= v < 2 ^ Z.of_nat (b - 1) ->
  sext b (v mod 2 ^ Z.of_nat b) = v.
Proof.
  intros Hb Hv. unfold sext. set (c := (32 - b)%nat).
  assert (E32 : 2 ^ 32 = 2 ^ Z.of_nat b * 2 ^ Z.of_nat c).
  { rewrite <- Z.pow_add_r by lia. f_equal. lia. }
  assert (Eb : 2 ^ Z.of_nat b = 2 * 2 ^ Z.of_nat (b - 1)).
  { rewrite <- Z.pow_succ_r by lia. f_equal. lia. }
  assert (E31 : 2 ^ 31 = 2 ^ Z.of_nat (b - 1) * 2 ^ Z.of_nat c).
  { rewrite <- Z.pow_add_r by lia. f_equal. lia. }
  pose proof (pow2_pos c) as Pc. pose proof (pow2_pos (b - 1)) as Pb.
  rewrite Z.shiftl_mul_pow2 by lia.
  set (m := v mod 2 ^ Z.of_nat b).
  assert (Hm : 0 <= m < 2 ^ Z.of_nat b) by (apply Z.mod_pos_bound; lia).
  rewrite (Z.mod_small (m * 2 ^ Z.of_nat c)) by nia.
  assert (Hs : s32 (m * 2 ^ Z.of_nat c) = v * 2 ^ Z.of_nat c).
  { unfold s32. destruct (Z.le_gt_cases 0 v).
    - assert (m = v) by (apply Z.mod_small; lia). destruct (Z.ltb_spec (m * 2 ^ Z.of_nat c) (2 ^ 31)); nia.
    - assert (m = v + 2 ^ Z.of_nat b).
      { unfold m. rewrite <- (Z.mod_add v 1) by lia. rewrite Z.mul_1_l. apply Z.mod_small. lia. }
      destruct (Z.ltb_spec (m * 2 ^ Z.of_nat c) (2 ^ 31)); nia. }
  rewrite Hs, Z.shiftr_div_pow2 by lia. apply Z.div_mul. lia.
Qed.

(** What a coder must satisfy for differences of absolute value at most [M]:
    codes fit the container, code 0 means all zero, otherwise the width is
    large enough and at most [W]. *)
Definition pc_good (pc : pcoder) (container : nat) (M : Z) (W : nat) : Prop :=
  forall mx, 0 <= mx <= M ->
    Z.of_nat (pc_nb pc mx) < 2 ^ Z.of_nat container /\
    (pc_nb pc mx = 0%nat -> mx = 0) /\
    (pc_nb pc mx <> 0%nat ->
       (2 <= pc_w pc (Z.of_nat (pc_nb pc mx)) <= W)%nat /\
       mx < 2 ^ Z.of_nat (pc_w pc (Z.of_nat (pc_nb pc mx)) - 1)).

Section Para.
Variables (pc : pcoder) (container W : nat) (M : Z).
Hypothesis Hgood : pc_good pc container M W.
Hypothesis HW : (W <= 31)%nat.
Hypothesis Hcont : (1 <= container <= 5)%nat.

Lemma para_tile_tokens_ok vals : vals <> [] -> Forall (fun v => Z.abs v <= M) vals ->
  Forall tokok (para_tile_tokens pc container vals) /\
  (toklen (para_tile_tokens pc container vals) <= (5 + W) * length vals)%nat.
Proof.
  intros Hne HF. rewrite Forall_forall in HF. destruct (scan_abs_max_spec vals Hne) as [(v0 & I0 & E0) HM].
  assert (Hlen : (1 <= length vals)%nat) by (destruct vals; [contradiction|simpl; lia]).
  unfold para_tile_tokens.
  destruct (Hgood (scan_abs_max vals)) as (G1 & G2 & G3). { rewrite E0. specialize (HF _ I0). lia. }
  set (nb := pc_nb pc (scan_abs_max vals)) in *.
  assert (HT : tokok (Z.of_nat nb, container)) by (split; cbn [fst snd]; lia).
  destruct (Nat.eqb_spec nb 0).
  - split; [constructor; auto|]. cbn [toklen fold_right]. nia.
  - destruct (G3 n) as [[B1 B2] B3]. set (b := pc_w pc (Z.of_nat nb)) in *. split.
    + constructor; auto. apply Forall_map. apply Forall_forall. intros v Hv. split; cbn [fst snd]; [lia|].
      rewrite low_bits_mod. apply Z.mod_pos_bound. apply pow2_pos.
    + change (toklen ((Z.of_nat nb, container) :: map (fun v => (low_bits b v, b)) vals))
        with (container + toklen (map (fun v => (low_bits b v, b)) vals))%nat. rewrite (tokbits_map1 (low_bits b)).
      assert ((b * length vals <= W * length vals)%nat) by (apply Nat.mul_le_mono_r; lia). nia.
Qed.

Lemma para_dec_tile_spec orc mem d ks s arr rest :
  Forall inr32 mem -> ks <> [] ->
  (forall k, In k ks -> (k < length arr)%nat /\ Z.abs (el d k) <= M) ->
  ahead mem s (tokbits (para_tile_tokens pc container (map (el d) ks)) ++ rest) ->
  exists s' arr', para_dec_tile orc pc mem container ks s arr = Some (s', arr') /\ ahead mem s' rest /\
                  upd (el d) ks arr arr'.
Proof.
  intros F Hne HK A. unfold para_dec_tile, para_tile_tokens in *.
  assert (Hne' : map (el d) ks <> []) by (destruct ks; [contradiction|discriminate]).
  destruct (scan_abs_max_spec _ Hne') as [(v0 & I0 & E0) HM].
  destruct (Hgood (scan_abs_max (map (el d) ks))) as (G1 & G2 & G3).
  { rewrite E0. apply in_map_iff in I0. destruct I0 as (k & <- & Hk). destruct (HK _ Hk). lia. }
  set (nb := pc_nb pc (scan_abs_max (map (el d) ks))) in *.
  unfold tokbits in A. cbn [flat_map] in A. rewrite <- app_assoc in A.
  destruct (ahead_extract orc mem s container (Z.of_nat nb) _ F ltac:(lia) ltac:(lia) A) as (s1 & E1 & A1).
  rewrite E1. cbn [bind].
  destruct (Nat.eqb_spec nb 0) as [n0|n0].
  - replace (Z.of_nat nb =? 0) with true by (symmetry; apply Z.eqb_eq; lia).
    cbn [flat_map app] in A1.
    destruct (fill_tile_spec 0 ks arr (el d)) as (a & Ea & Ua).
    { intros k Hk. split; [apply HK; auto|].
      specialize (HM (el d k) (in_map _ _ _ Hk)). specialize (G2 n0). lia. }
    rewrite Ea. cbn [bind]. exists s1, a. auto.
  - replace (Z.of_nat nb =? 0) with false by (symmetry; apply Z.eqb_neq; lia).
    destruct (G3 n0) as [[B1 B2] B3]. set (b := pc_w pc (Z.of_nat nb)) in *.
    rewrite map_map in A1. fold (tokbits (map (fun x => (low_bits b (el d x), b)) ks)) in A1.
    apply (dec_tile_spec orc mem b _ ks s1 arr (fun k => low_bits b (el d k)) (el d) rest); auto; [lia|].
    intros k Hk. destruct (HK k Hk) as [H1 H2]. split; auto. rewrite low_bits_mod.
    split; [apply Z.mod_pos_bound; apply pow2_pos|]. apply sext_spec; [lia|].
    specialize (HM (el d k) (in_map _ _ _ Hk)). lia.
Qed.

Definition ptoks (d : list Z) (ks : list nat) := para_tile_tokens pc container (map (el d) ks).

Lemma para_tokens_spec d ts : (forall ks k, In ks ts -> In k ks -> (k < length d)%nat) ->
  para_tokens pc container d ts = Some (flat_map (ptoks d) ts).
Proof.
  induction ts as [|ks ts IH]; intros H; cbn [para_tokens flat_map]; auto.
  rewrite gets_spec by (intros; apply (H ks); auto; left; auto). cbn [bind].
  rewrite IH by (intros; apply (H ks0); auto; right; auto). reflexivity.
Qed.

Lemma ptoks_ok d ts :
  (forall ks, In ks ts -> ks <> []) ->
  (forall ks k, In ks ts -> In k ks -> Z.abs (el d k) <= M) ->
  Forall tokok (flat_map (ptoks d) ts) /\
  (toklen (flat_map (ptoks d) ts) <= (5 + W) * sum (map (@length nat) ts))%nat.
Proof.
  intros H1 H2. induction ts as [|ks ts IH]; cbn [flat_map map sum fold_right].
  - split; [constructor|cbn; lia].
  - destruct IH as [IH1 IH2]; [intros; apply H1; right; auto|intros; apply (H2 ks0); auto; right; auto|].
    destruct (para_tile_tokens_ok (map (el d) ks)) as (T1 & T2).
    { specialize (H1 ks (or_introl eq_refl)). destruct ks; [contradiction|discriminate]. }
    { apply Forall_map. apply Forall_forall. intros k Hk. apply (H2 ks); auto. left; auto. }
    split; [apply Forall_app; auto|]. rewrite toklen_app. rewrite map_length in T2. unfold ptoks at 1.
    unfold sum in IH2. lia.
Qed.
End Para.

(** ** The border *)
Lemma border_in ni nj k : (1 <= ni)%nat -> (1 <= nj)%nat ->
  In k (border ni nj) <-> (k < ni * nj /\ (k < ni \/ k mod ni = 0))%nat.
Proof.
  intros Hi Hj. unfold border. rewrite in_app_iff, !in_map_iff. split.
  - intros [(i & <- & H)|(j & <- & H)]; apply in_seq in H.
    + split; [apply ftn2c_bound; lia|]. left. unfold ftn2c. nia.
    + split; [apply ftn2c_bound; lia|]. right. unfold ftn2c.
      rewrite Nat.add_sub, Nat.mul_comm. apply Nat.mod_mul. lia.
  - intros [Hk [H|H]].
    + left. exists (k + 1)%nat. split; [unfold ftn2c; lia|apply in_seq; lia].
    + destruct (Nat.eq_dec k 0) as [->|].
      * left. exists 1%nat. split; [unfold ftn2c; lia|apply in_seq; lia].
      * right. exists (k / ni + 1)%nat.
        pose proof (Nat.div_mod k ni ltac:(lia)). assert (k / ni < nj)%nat by (apply Nat.div_lt_upper_bound; lia).
        split; [unfold ftn2c; replace (k / ni + 1 - 1)%nat with (k / ni)%nat by lia; lia|].
        apply in_seq. assert (k / ni <> 0)%nat by (intros E; rewrite E in *; lia). lia.
Qed.

Lemma border_length ni nj : length (border ni nj) = (ni + (nj - 1))%nat.
Proof. unfold border. rewrite app_length, !map_length, !seq_length. reflexivity. Qed.

(** ** Differences *)
Definition inside (ni k : nat) : bool := negb ((k <? ni)%nat || (k mod ni =? 0)%nat).
Definition pred_of (u : list Z) (ni k : nat) : Z := el u (k - ni) + el u (k - 1) - el u (k - 1 - ni).
Definition dval (pc : pcoder) (ni : nat) (u : list Z) (k : nat) : Z :=
  if inside ni k then pc_cast pc (el u k - pred_of u ni k) else 0.

Lemma el_rd u k : (k < length u)%nat -> rd u k = Some (el u k).
Proof. intros H. unfold rd, el. apply nth_error_nth'. exact H. Qed.

Lemma mapo_spec {A B} (f : A -> option B) (g : A -> B) l : (forall x, In x l -> f x = Some (g x)) ->
  mapo f l = Some (map g l).
Proof.
  induction l as [|x l IH]; intros H; cbn [mapo map]; auto.
  rewrite H by (left; auto). cbn [bind]. rewrite IH by (intros; apply H; right; auto). reflexivity.
Qed.

Lemma diffs_spec pc ni nj u : (ni * nj <= length u)%nat ->
  diffs pc ni nj u = Some (map (dval pc ni u) (seq 0 (ni * nj))).
Proof.
  intros H. unfold diffs. apply mapo_spec. intros k Hk. apply in_seq in Hk. unfold diff_at, dval, inside.
  destruct ((k <? ni)%nat || (k mod ni =? 0)%nat) eqn:E; auto. cbn [negb].
  rewrite !el_rd by lia. cbn [bind]. reflexivity.
Qed.

Lemma el_map_seq (g : nat -> Z) n k : (k < n)%nat -> el (map g (seq 0 n)) k = g k.
Proof.
  intros H. unfold el. rewrite (nth_indep _ 0 (g 0%nat)) by (rewrite map_length, seq_length; auto).
  rewrite map_nth, seq_nth; auto.
Qed.

Lemma inside_ge ni i j : (2 <= i <= ni)%nat -> (2 <= j)%nat -> inside ni (ftn2c i j ni) = true.
Proof.
  intros Hi Hj. unfold inside, ftn2c. destruct (Nat.ltb_spec (ni * (j - 1) + i - 1) ni); [nia|].
  cbn [orb]. assert (X : (ni * (j - 1) + i - 1 = (i - 1) + (j - 1) * ni)%nat) by (rewrite (Nat.mul_comm ni); lia). rewrite X.
  rewrite Nat.mod_add by lia. rewrite Nat.mod_small by lia.
  destruct (Nat.eqb_spec (i - 1) 0); [lia|reflexivity].
Qed.

(** ** Rebuilding *)
Lemma foldo_app {A B} (f : A -> B -> option A) l1 l2 a :
  foldo f (l1 ++ l2) a = (a1 <- foldo f l1 a ;; foldo f l2 a1).
Proof.
  revert a. induction l1 as [|x l1 IH]; intros a; cbn [app foldo bind]; auto.
  destruct (f a x) as [a'|]; auto. cbn [bind]. apply IH.
Qed.

Section Rebuild.
Variables (pc : pcoder) (ni nj : nat) (u : nat -> Z) (tmp arr0 : list Z).
Hypothesis Hni : (2 <= ni)%nat.
Hypothesis Hlen : (ni * nj <= length arr0)%nat.
Hypothesis Htmp : forall k, (k < ni * nj)%nat -> inside ni k = true ->
  rd tmp k = Some (u k - (u (k - ni)%nat + u (k - 1)%nat - u (k - 1 - ni)%nat)).
Hypothesis Hu : forall k, (k < ni * nj)%nat -> 0 <= u k < pc_mod pc.

Definition okto (b : nat) (arr : list Z) : Prop :=
  length arr = length arr0 /\
  (forall k, (k < ni * nj)%nat -> (k < b)%nat \/ inside ni k = false -> nth_error arr k = Some (u k)) /\
  (forall k, (ni * nj <= k)%nat -> nth_error arr k = nth_error arr0 k).

Lemma rebuild_cell_ok i j arr : (2 <= i <= ni)%nat -> (2 <= j <= nj)%nat ->
  okto (ftn2c i j ni) arr ->
  exists arr', rebuild_cell pc ni tmp arr (ftn2c i j ni) = Some arr' /\ okto (S (ftn2c i j ni)) arr'.
Proof.
  intros Hi Hj (L & I & O). set (k := ftn2c i j ni) in *.
  assert (Hk : (k < ni * nj)%nat) by (apply ftn2c_bound; lia).
  assert (Hin : inside ni k = true) by (apply inside_ge; lia).
  assert (Hge : (ni + 1 <= k)%nat) by (unfold k, ftn2c; nia).
  unfold rebuild_cell. rewrite Htmp by auto. cbn [bind]. unfold rd.
  rewrite !I by (try left; lia). cbn [bind].
  replace (u k - (u (k - ni)%nat + u (k - 1)%nat - u (k - 1 - ni)%nat) +
           (u (k - ni)%nat + u (k - 1)%nat - u (k - 1 - ni)%nat)) with (u k) by lia.
  rewrite Z.mod_small by auto.
  destruct (wr_some arr k (u k)) as [a Ha]; [lia|]. rewrite Ha. exists a. split; auto.
  split; [rewrite (wr_length _ _ _ _ Ha); auto|]. split.
  - intros k' Hk' H'. destruct (Nat.eq_dec k k') as [<-|N].
    + eapply wr_same; eauto.
    + rewrite (wr_other _ _ _ _ k' Ha) by auto. apply I; auto. destruct H'; [left; lia|auto].
  - intros k' Hk'. rewrite (wr_other _ _ _ _ k' Ha) by lia. auto.
Qed.

Lemma rebuild_row j m i arr : (2 <= j <= nj)%nat -> (2 <= i)%nat -> (i + m <= ni + 1)%nat ->
  okto (ftn2c i j ni) arr ->
  exists arr', foldo (rebuild_cell pc ni tmp) (map (fun i => ftn2c i j ni) (seq i m)) arr = Some arr' /\
               okto (ftn2c (i + m) j ni) arr'.
Proof.
  intros Hj. revert i arr. induction m as [|m IH]; intros i arr Hi Him H; cbn [seq map foldo].
  - exists arr. split; auto. rewrite Nat.add_0_r. auto.
  - destruct (rebuild_cell_ok i j arr) as (a & Ea & Oa); auto; [lia|]. rewrite Ea. cbn [bind].
    replace (S (ftn2c i j ni)) with (ftn2c (S i) j ni) in Oa by (unfold ftn2c; lia).
    destruct (IH (S i) a) as (a2 & E2 & O2); auto; try lia. exists a2. split; auto.
    replace (i + S m)%nat with (S i + m)%nat by lia. auto.
Qed.

Lemma okto_skip j arr : (1 <= j)%nat -> okto (ni * (j - 1)) arr -> okto (ftn2c 2 j ni) arr.
Proof.
  intros Hj (L & I & O). split; auto. split; auto. intros k Hk [H|H]; [|apply I; auto].
  destruct (Nat.eq_dec k (ni * (j - 1))) as [E|N].
  - apply I; auto. right. unfold inside. apply negb_false_iff. apply orb_true_intro. right.
    rewrite E, Nat.mul_comm, Nat.mod_mul by lia. reflexivity.
  - apply I; auto. left. unfold ftn2c in H. lia.
Qed.

Lemma rebuild_rows n j arr : (2 <= j)%nat -> (j + n <= nj + 1)%nat ->
  okto (ni * (j - 1)) arr ->
  exists arr', foldo (rebuild_cell pc ni tmp)
     (flat_map (fun j => map (fun i => ftn2c i j ni) (seq 2 (ni - 1))) (seq j n)) arr = Some arr' /\
     okto (ni * (j + n - 1)) arr'.
Proof.
  revert j arr. induction n as [|n IH]; intros j arr Hj Hjn H; cbn [seq flat_map].
  - exists arr. split; auto. replace (j + 0 - 1)%nat with (j - 1)%nat by lia. auto.
  - destruct (rebuild_row j (ni - 1) 2 arr) as (a & Ea & Oa); try lia.
    { apply okto_skip; auto. lia. }
    rewrite foldo_app, Ea. cbn [bind].
    replace (ftn2c (2 + (ni - 1)) j ni) with (ni * (S j - 1))%nat in Oa
      by (unfold ftn2c; destruct j as [|j]; [lia|]; replace (S (S j) - 1)%nat with (S j) by lia; replace (S j - 1)%nat with j by lia; nia).
    destruct (IH (S j) a) as (a2 & E2 & O2); auto; try lia. exists a2. split; auto.
    replace (j + S n - 1)%nat with (S j + n - 1)%nat by lia. auto.
Qed.

Lemma rebuild_ok arr : (1 <= nj)%nat -> okto ni arr ->
  exists arr', rebuild pc ni nj tmp arr = Some arr' /\
    length arr' = length arr0 /\
    (forall k, (k < ni * nj)%nat -> nth_error arr' k = Some (u k)) /\
    (forall k, (ni * nj <= k)%nat -> nth_error arr' k = nth_error arr0 k).
Proof.
  intros Hj H. unfold rebuild, cells.
  destruct (rebuild_rows (nj - 1) 2 arr) as (a & Ea & (L & I & O)); try lia.
  { replace (ni * (2 - 1))%nat with ni by lia. auto. }
  exists a. split; auto. split; auto. split; auto. intros k Hk. apply I; auto. left.
  replace (2 + (nj - 1) - 1)%nat with nj by lia. auto.
Qed.
End Rebuild.
