(** Facts about the tiling and about decoding tile by tile. *)
From Coq Require Import ZArith List Lia Bool.
From Verif Require Import Bits BitIO BitIOFacts CompactInt TileCodec StreamFacts.
Import ListNotations.
Open Scope Z_scope.
Open Scope opt_scope.

(** ** Tiling *)
Section Upto.
Local Open Scope nat_scope.

Lemma upto_range fuel x step lim t : In t (upto fuel x step lim) -> x <= t <= lim.
Proof.
  revert x. induction fuel as [|f IH]; intros x; cbn [upto]; [intros []|].
  destruct (Nat.leb_spec x lim); [|intros []]. intros [E|H']; [lia|]. apply IH in H'. lia.
Qed.

Lemma lcl_le x step lim : x <= lim -> x + lcl x step lim <= lim.
Proof. unfold lcl. destruct (Nat.leb_spec lim (x + step - 1)); lia. Qed.

Lemma upto_cover fuel x step lim v : 1 <= step -> lim < x + fuel -> x <= v <= lim ->
  exists t, In t (upto fuel x step lim) /\ t <= v <= t + lcl t step lim.
Proof.
  intros Hs. revert x. induction fuel as [|f IH]; intros x Hf Hv; [lia|].
  cbn [upto]. destruct (Nat.leb_spec x lim); [|lia].
  destruct (Nat.le_gt_cases v (x + lcl x step lim)).
  - exists x. split; [left; auto|lia].
  - destruct (IH (x + step)) as (t & Ht & Hb); [lia| |].
    + unfold lcl in H0. destruct (Nat.leb_spec lim (x + step - 1)); lia.
    + exists t. split; [right; auto|auto].
Qed.

Definition sum (l : list nat) : nat := fold_right Nat.add 0 l.

Lemma upto_sum fuel x step lim : 1 <= step -> lim < x + fuel -> 
  sum (map (fun t => S (lcl t step lim)) (upto fuel x step lim)) = lim + 1 - x.
Proof.
  intros Hs. revert x. induction fuel as [|f IH]; intros x Hf; cbn [upto].
  - simpl. lia.
  - destruct (Nat.leb_spec x lim).
    + cbn [map sum fold_right]. change (fold_right Nat.add 0) with sum. rewrite IH by lia.
      unfold lcl. destruct (Nat.leb_spec lim (x + step - 1)); lia.
    + simpl. lia.
Qed.

Lemma tile_length step ni nj j i : length (tile step ni nj j i) = S (lcl j step nj) * S (lcl i step ni).
Proof.
  unfold tile.
  assert (G : forall a b o, length (flat_map (fun n => map (fun m => ftn2c (i + m) (j + n) ni) (seq 0 b)) (seq o a)) = a * b).
  { induction a as [|a IH]; intros b o; auto.
    cbn [seq flat_map]. rewrite app_length, map_length, seq_length, IH. lia. }
  apply G.
Qed.

Lemma tile_nonempty step ni nj j i : tile step ni nj j i <> [].
Proof. intros E. pose proof (tile_length step ni nj j i) as L. rewrite E in L. simpl in L. lia. Qed.

Lemma sum_app a b : sum (a ++ b) = sum a + sum b.
Proof. unfold sum. induction a; simpl; lia. Qed.
Lemma sum_map_mul {A} c (f : A -> nat) (l : list A) : sum (map (fun x => c * f x) l) = c * sum (map f l).
Proof. unfold sum. induction l; simpl; lia. Qed.

Lemma tiles_sum start step ni nj : 1 <= step -> 1 <= start ->
  sum (map (@length nat) (tiles start step ni nj)) = (ni + 1 - start) * (nj + 1 - start).
Proof.
  intros Hs Hst. unfold tiles.
  assert (G : forall l, sum (map (@length nat) (flat_map (fun j => map (tile step ni nj j) (upto ni start step ni)) l))
    = (ni + 1 - start) * sum (map (fun j => S (lcl j step nj)) l)).
  { induction l as [|j l IH]; [simpl; lia|].
    cbn [flat_map map]. rewrite map_app, sum_app, IH, map_map.
    rewrite (map_ext _ (fun i => S (lcl j step nj) * S (lcl i step ni)) (tile_length step ni nj j)).
    rewrite sum_map_mul, upto_sum by lia. cbn [sum fold_right]. fold (sum (map (fun j0 => S (lcl j0 step nj)) l)). lia. }
  rewrite G, upto_sum by lia. reflexivity.
Qed.

Lemma ftn2c_bound i j ni nj : 1 <= i <= ni -> 1 <= j <= nj -> ftn2c i j ni < ni * nj.
Proof. intros. unfold ftn2c. destruct j as [|j]; [lia|]. replace (S j - 1) with j by lia. nia. Qed.

Lemma tiles_in start step ni nj ks k : 1 <= start -> In ks (tiles start step ni nj) -> In k ks ->
  exists i j, start <= i <= ni /\ start <= j <= nj /\ k = ftn2c i j ni.
Proof.
  intros Hst H Hk. unfold tiles in H. apply in_flat_map in H. destruct H as (j & Hj & H).
  apply in_map_iff in H. destruct H as (i & <- & Hi).
  apply upto_range in Hi. apply upto_range in Hj.
  unfold tile in Hk. apply in_flat_map in Hk. destruct Hk as (n & Hn & Hk).
  apply in_map_iff in Hk. destruct Hk as (m & <- & Hm). apply in_seq in Hn, Hm.
  pose proof (lcl_le i step ni). pose proof (lcl_le j step nj).
  exists (i + m), (j + n). repeat split; lia.
Qed.

Lemma tiles_cover start step ni nj i j : 1 <= start -> 1 <= step ->
  start <= i <= ni -> start <= j <= nj ->
  exists ks, In ks (tiles start step ni nj) /\ In (ftn2c i j ni) ks.
Proof.
  intros H1 H2 Hi Hj.
  destruct (upto_cover ni start step ni i) as (ti & Iti & Bti); [auto|lia|auto|].
  destruct (upto_cover nj start step nj j) as (tj & Itj & Btj); [auto|lia|auto|].
  exists (tile step ni nj tj ti). split.
  - apply in_flat_map. exists tj. split; auto. apply in_map. auto.
  - apply in_flat_map. exists (j - tj). split; [apply in_seq; lia|].
    apply in_map_iff. exists (i - ti). split; [f_equal; lia|apply in_seq; lia].
Qed.

Lemma tiles_nonempty start step ni nj ks : In ks (tiles start step ni nj) -> ks <> [].
Proof.
  unfold tiles. intros H. apply in_flat_map in H. destruct H as (j & _ & H).
  apply in_map_iff in H. destruct H as (i & <- & _). apply tile_nonempty.
Qed.

Lemma ftn2c_inv ni nj k : 1 <= ni -> k < ni * nj ->
  exists i j, 1 <= i <= ni /\ 1 <= j <= nj /\ k = ftn2c i j ni /\ i = k mod ni + 1 /\ j = k / ni + 1.
Proof.
  intros Hni Hk. exists (k mod ni + 1), (k / ni + 1).
  pose proof (Nat.div_mod k ni ltac:(lia)). pose proof (Nat.mod_upper_bound k ni ltac:(lia)).
  assert (k / ni < nj) by (apply Nat.div_lt_upper_bound; lia).
  repeat split; try lia. unfold ftn2c. replace (k / ni + 1 - 1) with (k / ni) by lia. lia.
Qed.
End Upto.

(** ** Array updates *)
Definition upd (f : nat -> Z) (ks : list nat) (a a' : list Z) : Prop :=
  length a' = length a /\ (forall k, In k ks -> nth_error a' k = Some (f k)) /\
  (forall k, ~ In k ks -> nth_error a' k = nth_error a k).

Lemma upd_nil f a : upd f [] a a.
Proof. repeat split; auto. intros k []. Qed.

Lemma upd_app f k1 k2 a b c : upd f k1 a b -> upd f k2 b c -> upd f (k1 ++ k2) a c.
Proof.
  intros (L1 & I1 & O1) (L2 & I2 & O2). split; [congruence|]. split.
  - intros k H. destruct (in_dec Nat.eq_dec k k2) as [i|n]; auto.
    rewrite O2 by auto. apply in_app_or in H. destruct H; [auto|contradiction].
  - intros k H. rewrite O2, O1; auto; intros X; apply H; apply in_or_app; auto.
Qed.

Lemma upd_wr f k a a' : wr a k (f k) = Some a' -> upd f [k] a a'.
Proof.
  intros E. split; [eapply wr_length; eauto|]. split.
  - intros k' [<-|[]]. eapply wr_same; eauto.
  - intros k' H. eapply wr_other; eauto. intros ->. apply H. left; auto.
Qed.

Lemma upd_ext f g ks a a' : (forall k, In k ks -> f k = g k) -> upd f ks a a' -> upd g ks a a'.
Proof. intros E (L & I & O). split; auto. split; auto. intros k H. rewrite I by auto. rewrite E; auto. Qed.

Definition el (a : list Z) (k : nat) : Z := nth k a 0.

Lemma gets_spec a ks : (forall k, In k ks -> (k < length a)%nat) -> gets a ks = Some (map (el a) ks).
Proof.
  induction ks as [|k ks IH]; intros H; cbn [gets map]; auto.
  assert (Hk : (k < length a)%nat) by (apply H; left; auto).
  destruct (rd_some a k Hk) as [v Hv]. rewrite Hv. cbn [bind].
  rewrite IH by (intros; apply H; right; auto). cbn [bind]. do 2 f_equal. unfold el.
  symmetry. apply nth_error_nth. exact Hv.
Qed.

(** ** Decoding tiles *)
Lemma dec_tile_spec orc mem b g ks s arr (T f : nat -> Z) rest :
  Forall inr32 mem -> (1 <= b <= 32)%nat ->
  (forall k, In k ks -> (k < length arr)%nat /\ 0 <= T k < 2 ^ Z.of_nat b /\ g (T k) = f k) ->
  ahead mem s (tokbits (map (fun k => (T k, b)) ks) ++ rest) ->
  exists s' arr', dec_tile orc mem b g ks s arr = Some (s', arr') /\ ahead mem s' rest /\ upd f ks arr arr'.
Proof.
  intros F Hb. revert s arr. induction ks as [|k ks IH]; intros s arr H A; cbn [dec_tile map] in *.
  - exists s, arr. repeat split; auto; try apply A. intros k [].
  - destruct (H k) as (Hk & Ht & Hg); [left; auto|].
    unfold tokbits in A. cbn [flat_map] in A. rewrite <- app_assoc in A.
    destruct (ahead_extract orc mem s b (T k) _ F Hb Ht A) as (s1 & E1 & A1). rewrite E1. cbn [bind].
    rewrite Hg. destruct (wr_some arr k (f k) Hk) as [a1 Ha1]. rewrite Ha1. cbn [bind].
    pose proof (wr_length _ _ _ _ Ha1) as L1.
    destruct (IH s1 a1) as (s2 & a2 & E2 & A2 & U2).
    { intros k' Hk'. rewrite L1. apply H. right; auto. }
    { exact A1. }
    exists s2, a2. split; auto. split; auto.
    apply (upd_app f [k] ks arr a1 a2); auto. apply upd_wr; auto.
Qed.

Lemma fill_tile_spec v ks arr (f : nat -> Z) :
  (forall k, In k ks -> (k < length arr)%nat /\ v = f k) ->
  exists arr', fill_tile v ks arr = Some arr' /\ upd f ks arr arr'.
Proof.
  revert arr. induction ks as [|k ks IH]; intros arr H; cbn [fill_tile].
  - exists arr. split; auto. apply upd_nil.
  - destruct (H k) as (Hk & Hv); [left; auto|].
    destruct (wr_some arr k v Hk) as [a1 Ha1]. rewrite Ha1. cbn [bind].
    destruct (IH a1) as (a2 & E2 & U2).
    { intros k' Hk'. rewrite (wr_length _ _ _ _ Ha1). apply H. right; auto. }
    exists a2. split; auto. apply (upd_app f [k] ks arr a1 a2); auto. apply upd_wr; auto.
    rewrite <- Hv. exact Ha1.
Qed.

Lemma dec_tiles_spec mem dec ts s arr (toks : list nat -> list (Z * nat)) (f : nat -> Z) rest :
  (forall ks s arr rest, In ks ts -> (forall k, In k ks -> (k < length arr)%nat) ->
     ahead mem s (tokbits (toks ks) ++ rest) ->
     exists s' arr', dec ks s arr = Some (s', arr') /\ ahead mem s' rest /\ upd f ks arr arr') ->
  (forall ks k, In ks ts -> In k ks -> (k < length arr)%nat) ->
  ahead mem s (tokbits (flat_map toks ts) ++ rest) ->
  exists s' arr', dec_tiles dec ts s arr = Some (s', arr') /\ ahead mem s' rest /\ upd f (concat ts) arr arr'.
Proof.
  intros HD. revert s arr. induction ts as [|ks ts IH]; intros s arr H A; cbn [dec_tiles flat_map concat] in *.
  - exists s, arr. repeat split; auto; try apply A. intros k [].
  - rewrite tokbits_app, <- app_assoc in A.
    assert (Hks : forall k, In k ks -> (k < length arr)%nat) by (intros k Hk; apply (H ks); auto; left; auto).
    destruct (HD ks s arr _ (or_introl eq_refl) Hks A) as (s1 & a1 & E1 & A1 & U1).
    rewrite E1. cbn [bind].
    destruct (fun X Y => IH X s1 a1 Y A1) as (s2 & a2 & E2 & A2 & U2).
    { intros; apply HD; auto. right; auto. }
    { intros ks' k' Hks' Hk. destruct U1 as (L & _). rewrite L. apply (H ks'); auto. right; auto. }
    exists s2, a2. split; auto. split; auto. eapply upd_app; eauto.
Qed.
