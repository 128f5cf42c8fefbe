(** Facts about whole token streams. *)
From Coq Require Import ZArith List Lia Bool.
From Verif Require Import Bits BitIO BitIOFacts TileCodec.
Import ListNotations.
Open Scope Z_scope.
Open Scope opt_scope.

(** The reader [s] will see [bits] next, and something after them. *)
Definition ahead (mem : list Z) (s : rst) (bits : list bool) : Prop :=
  rok mem s /\ (rpos s + length bits < 32 * length mem)%nat /\
  slice (rpos s) (length bits) (mbits 32 mem) = bits.

Lemma ahead_extract orc mem s b v rest :
  Forall inr32 mem -> (1 <= b <= 32)%nat -> 0 <= v < 2 ^ Z.of_nat b ->
  ahead mem s (bits_of b v ++ rest) ->
  exists s', extract orc mem b s = Some (v, s') /\ ahead mem s' rest.
Proof.
  intros F Hb Hv (Hr & Hl & Hs). rewrite app_length, bits_of_length in *.
  destruct (extract_spec orc mem b s) as (t & s' & E & O & P & R & B); auto; [lia|].
  rewrite slice_app in Hs.
  assert (L : length (slice (rpos s) b (mbits 32 mem)) = b).
  { apply slice_length. rewrite mbits_length. lia. }
  apply app_inj_len in Hs; [|rewrite L, bits_of_length; reflexivity]. destruct Hs as [X Y].
  assert (t = v) by (apply (bits_of_inj b); auto; congruence). subst t.
  exists s'. split; auto. split; auto. split; [lia|]. rewrite P. exact Y.
Qed.

Lemma ahead_start mem p bits :
  Forall inr32 mem -> (32 * p + length bits < 32 * length mem)%nat ->
  slice (32 * p) (length bits) (mbits 32 mem) = bits ->
  exists s, rstart mem p = Some s /\ ahead mem s bits.
Proof.
  intros F Hl Hs. unfold rstart. destruct (rd_some mem p) as [w Hw]; [lia|]. rewrite Hw. cbn [bind].
  eexists. split; [reflexivity|].
  assert (R : rpos (mkr p w 32) = (32 * p)%nat) by (unfold rpos; cbn [r_ptr r_bits]; lia).
  split; [|rewrite R; auto].
  apply rok_word; auto. eapply Forall_forall; eauto. eapply nth_error_In; eauto.
Qed.

Lemma ahead_prefix mem s a b : ahead mem s (a ++ b) -> ahead mem s a.
Proof.
  intros (R & L & S). rewrite app_length in *. split; auto. split; [lia|].
  rewrite slice_app in S. apply app_inj_len in S; [tauto|].
  apply slice_length. rewrite mbits_length. lia.
Qed.

(** ** Writing *)
Lemma wr_app_l {A} (m e : list A) i v : (i < length m)%nat ->
  wr (m ++ e) i v = match wr m i v with Some m' => Some (m' ++ e) | None => None end.
Proof.
  revert i. induction m as [|x m IH]; intros i H; [simpl in H; lia|].
  destruct i; simpl; auto. simpl in H. rewrite IH by lia. destruct (wr m i v); auto.
Qed.

Lemma stuff_ptr orc tok b s s' : stuff orc tok b s = Some s' -> (w_ptr s <= w_ptr s')%nat.
Proof.
  unfold stuff. destruct (b <=? w_sp s)%nat.
  - intros E; injection E as <-. cbn. lia.
  - destruct (wr _ _ _); [|discriminate]. cbn [bind]. intros E; injection E as <-. cbn. lia.
Qed.

Lemma stuffs_ptr orc l s s' : stuffs orc l s = Some s' -> (w_ptr s <= w_ptr s')%nat.
Proof.
  revert s. induction l as [|[t b] l IH]; intros s; cbn [stuffs].
  - intros E; injection E as <-. lia.
  - destruct (stuff orc t b s) as [s1|] eqn:E; [|discriminate]. cbn [bind]. intros H.
    apply IH in H. apply stuff_ptr in E. lia.
Qed.

Lemma stuffs_shrink orc l m e p lws sp s' :
  stuffs orc l (mkw (m ++ e) p lws sp) = Some s' -> (w_ptr s' <= length m)%nat ->
  exists m', stuffs orc l (mkw m p lws sp) = Some (mkw m' (w_ptr s') (w_lws s') (w_sp s')) /\
             w_mem s' = m' ++ e.
Proof.
  revert m p lws sp. induction l as [|[t b] l IH]; intros m p lws sp; cbn [stuffs].
  - intros E; injection E as <-. cbn. intros _. exists m. auto.
  - intros E Hp. unfold stuff in *. cbn [w_mem w_ptr w_lws w_sp] in *.
    destruct (b <=? sp)%nat; cbn [bind] in *.
    + apply IH in E; auto.
    + destruct (wr (m ++ e) p _) as [m1|] eqn:Ew; [|discriminate]. cbn [bind] in *.
      pose proof (stuffs_ptr _ _ _ _ E) as HP. cbn [w_ptr] in HP.
      rewrite wr_app_l in Ew by lia. destruct (wr m p _) as [m2|] eqn:E2; [|discriminate].
      injection Ew as <-. cbn [bind]. apply IH in E; auto.
      rewrite (wr_length _ _ _ _ E2). lia.
Qed.

Lemma toklen_app a b : toklen (a ++ b) = (toklen a + toklen b)%nat.
Proof. unfold toklen. induction a as [|[t n] a IH]; simpl; auto. unfold toklen in IH. rewrite IH. lia. Qed.
Lemma tokbits_app a b : tokbits (a ++ b) = tokbits a ++ tokbits b.
Proof. unfold tokbits. apply flat_map_app. Qed.

Lemma firstn_mbits_committed s : wok s -> (w_ptr s <= wlen s)%nat ->
  firstn (32 * w_ptr s) (mbits 32 (w_mem s)) = firstn (32 * w_ptr s) (wview s).
Proof.
  intros Hok Hp. unfold wview. symmetry.
  assert (L : length (mbits 32 (w_mem s)) = (32 * wlen s)%nat) by (rewrite mbits_length; reflexivity).
  unfold overwrite. rewrite firstn_app, firstn_firstn, Nat.min_id, firstn_length.
  replace (32 * w_ptr s - Nat.min (32 * w_ptr s) (length (mbits 32 (w_mem s))))%nat with 0%nat by lia.
  rewrite firstn_O, app_nil_r. reflexivity.
Qed.

Lemma slice_firstn {A} p n q (l : list A) : (p + n <= q)%nat -> slice p n (firstn q l) = slice p n l.
Proof.
  intros H. unfold slice. rewrite skipn_firstn_comm, firstn_firstn. f_equal. lia.
Qed.

Lemma firstn_mbits_eq p (a b : list Z) : Forall inr32 a -> Forall inr32 b ->
  firstn (32 * p) (mbits 32 a) = firstn (32 * p) (mbits 32 b) -> length a = length b ->
  firstn p a = firstn p b.
Proof.
  intros Fa Fb E L. rewrite <- !mbits_firstn in E.
  apply (mbits_inj 32); [lia|apply Forall_firstn; auto|apply Forall_firstn; auto|auto].
Qed.

Lemma pack_stream_spec orc z p toks :
  Forall inr32 z -> (p < length z)%nat -> Forall tokok toks ->
  ((32 * p + toklen toks + 32) / 32 <= length z)%nat ->
  exists z' q, pack_stream orc z p toks = Some (z', q) /\ length z' = length z /\ Forall inr32 z' /\
    (p <= q <= length z)%nat /\ firstn p z' = firstn p z /\
    (32 * p + toklen toks <= 32 * q <= 32 * p + toklen toks + 32)%nat /\
    slice (32 * p) (toklen toks) (mbits 32 z') = tokbits toks.
Proof.
  intros F Hp HT Hroom. unfold pack_stream.
  destruct (wr_some z p 0 Hp) as [z0 Hz0]. rewrite Hz0. cbn [bind].
  pose proof (wr_length _ _ _ _ Hz0) as L0.
  assert (F0 : Forall inr32 z0).
  { rewrite (wr_eq _ _ _ _ Hz0). apply Forall_app. split; [apply Forall_firstn; auto|].
    constructor; [unfold inr32; lia|apply Forall_skipn; auto]. }
  set (l := toks ++ [(0, 16%nat); (0, 16%nat)]).
  assert (Tl : toklen l = (toklen toks + 32)%nat) by (unfold l; rewrite toklen_app; reflexivity).
  assert (Hl : Forall tokok l).
  { apply Forall_app; split; auto. repeat constructor; cbn; lia. }
  set (s0 := mkw (z0 ++ [0]) p 0 32).
  assert (P0 : wpos s0 = (32 * p)%nat) by (unfold wpos, s0; cbn [w_ptr w_sp]; lia).
  assert (W0 : wlen s0 = S (length z)) by (unfold wlen, s0; cbn [w_mem]; rewrite app_length; simpl; lia).
  pose proof (Nat.div_mod (32 * p + toklen toks + 32) 32 ltac:(lia)) as DM.
  pose proof (Nat.mod_upper_bound (32 * p + toklen toks + 32) 32 ltac:(lia)) as UB.
  destruct (stuffs_spec orc l s0) as (s' & E & O & L & P & V & R); auto.
  { split; cbn; [lia|unfold inr32; lia]. }
  { rewrite P0, W0, Tl. lia. }
  rewrite P0 in *.
  assert (Pq : (32 * w_ptr s' + (32 - w_sp s') = 32 * p + (toklen toks + 32))%nat) by (unfold wpos in P; lia).
  destruct O as [Osp Olws].
  assert (Hq : (w_ptr s' <= length z)%nat) by lia.
  unfold s0 in E. destruct (stuffs_shrink orc l z0 [0] p 0 32%nat s') as (m' & Em & Emem); auto; [lia|].
  rewrite Em. cbn [bind w_mem w_ptr].
  assert (V0 : wview s0 = mbits 32 (z0 ++ [0])).
  { unfold wview, s0; cbn [w_mem w_ptr w_lws w_sp]. change (32 - 32)%nat with 0%nat. cbn [bits_of]. apply overwrite_nil. }
  rewrite V0 in V.
  assert (Lm : length m' = length z).
  { rewrite W0 in L. unfold wlen in L. rewrite Emem, app_length in L. cbn [length] in L. lia. }
  assert (Fm : Forall inr32 m').
  { assert (X : Forall inr32 (w_mem s')).
    { apply R. unfold s0. cbn [w_mem]. apply Forall_app; split; auto. constructor; auto. unfold inr32; lia. }
    rewrite Emem in X. apply Forall_app in X. tauto. }
  assert (C : firstn (32 * w_ptr s') (mbits 32 m') = firstn (32 * w_ptr s') (overwrite (32 * p) (tokbits l) (mbits 32 (z0 ++ [0])))).
  { rewrite <- V, <- firstn_mbits_committed.
    - rewrite Emem, mbits_app, firstn_app, mbits_length.
      replace (32 * w_ptr s' - 32 * length m')%nat with 0%nat by lia. rewrite firstn_O, app_nil_r. reflexivity.
    - split; auto.
    - rewrite L, W0. lia. }
  assert (Lb : (32 * p + length (tokbits l) <= length (mbits 32 (z0 ++ [0%Z])))%nat).
  { rewrite tokbits_length, mbits_length, app_length. cbn [length]. lia. }
  exists m', (w_ptr s'). split; [reflexivity|]. split; auto. split; auto. split; [lia|]. split; [|split; [lia|]].
  - assert (X : firstn (32 * p) (mbits 32 m') = firstn (32 * p) (mbits 32 z0)).
    { transitivity (firstn (32 * p) (firstn (32 * w_ptr s') (mbits 32 m'))).
      { rewrite firstn_firstn. f_equal. lia. }
      rewrite C, firstn_firstn. rewrite overwrite_first by lia.
      rewrite Nat.min_l by lia.
      rewrite mbits_app, firstn_app, mbits_length.
      replace (32 * p - 32 * length z0)%nat with 0%nat by lia. cbn [firstn]. rewrite app_nil_r. reflexivity. }
    apply firstn_mbits_eq in X; auto; [|lia]. rewrite X, (wr_eq _ _ _ _ Hz0), firstn_app, firstn_firstn, firstn_length.
    rewrite Nat.min_id. replace (p - Nat.min p (length z))%nat with 0%nat by lia. cbn [firstn]. apply app_nil_r.
  - rewrite <- (slice_firstn _ _ (32 * w_ptr s')) by lia. rewrite C, slice_firstn by lia.
    assert (X := overwrite_slice (32 * p) (tokbits l) (mbits 32 (z0 ++ [0])) Lb).
    fold (slice (32 * p) (length (tokbits l)) (overwrite (32 * p) (tokbits l) (mbits 32 (z0 ++ [0])))) in X.
    rewrite tokbits_length, Tl, slice_app in X.
    unfold l in X at 3. rewrite tokbits_app in X. apply app_inj_len in X; [tauto|].
    rewrite tokbits_length. apply slice_length.
    rewrite overwrite_length by lia. rewrite mbits_length, app_length. cbn [length]. lia.
Qed.
