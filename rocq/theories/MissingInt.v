(** Missing values in integer fields. *)
From Coq Require Import ZArith List Lia Bool.
From Verif Require Import Bits Missing MissingFacts.
Import ListNotations.
Open Scope Z_scope.
Open Scope opt_scope.

Definition zencode_decode := fun miss => encode_decode Z Z.eqb Z.ltb (fun _ => True)
  (fun x _ => Z.eqb_refl x) ltac:(intros; apply Z.eqb_neq; lia) ltac:(intros; apply Z.ltb_lt; lia)
  ltac:(intros; rewrite Z.ltb_lt in *; lia) ltac:(intros; rewrite Z.ltb_lt, Z.eqb_eq in *; lia) miss.
Definition zanal_spec := fun miss => anal_spec Z Z.eqb Z.ltb (fun _ => True)
  (fun x _ => Z.eqb_refl x) ltac:(intros; apply Z.eqb_neq; lia) ltac:(intros; apply Z.ltb_lt; lia)
  ltac:(intros; rewrite Z.ltb_lt in *; lia) ltac:(intros; rewrite Z.ltb_lt, Z.eqb_eq in *; lia) miss.

Lemma anal_in_all_missing miss src mx mn n : anal Z.eqb Z.ltb miss src = Some (n, mx, mn) ->
  (forall v, In v src -> v = miss) -> mx = miss.
Proof.
  intros E H. assert (NE : src <> []) by (intros ->; discriminate).
  destruct (zanal_spec miss src ltac:(apply Forall_forall; auto) NE) as (mx' & mn' & E' & _ & Hin & _).
  assert (mx = mx') by congruence. subst. auto.
Qed.

Lemma decode_all_missing miss src : src <> [] -> (forall v, In v src -> v = miss) ->
  decode_kind Z.eqb Z.ltb miss src = Some src.
Proof.
  intros NE H. destruct (zanal_spec miss src ltac:(apply Forall_forall; auto) NE) as (mx & mn & E & _).
  unfold decode_kind. rewrite E. cbn [bind]. pose proof (anal_in_all_missing _ _ _ _ _ E H). subst mx.
  destruct src as [|a r]; [discriminate|]. do 2 f_equal.
  rewrite <- (map_id r) at 2. apply map_ext_in. intros x Hx.
  rewrite (H x) by (right; auto). rewrite Z.eqb_refl. reflexivity.
Qed.

(** The plug an integer encoder computes satisfies [good]: above every value
    that is not missing and not itself the missing value. *)
Theorem int_encode_decode miss plug dst src nbits top : src <> [] -> In miss src ->
  (forall v, In v src -> v <> miss -> v < top /\ v + 1 <> miss) ->
  (forall mx mn, In mx src -> mx < top -> plug mx mn nbits = mx + 1) ->
  (forall mn, plug miss mn nbits = miss + 1 /\ miss < top \/ plug miss mn nbits = top) ->
  exists n e r, encode_kind Z.eqb Z.ltb miss plug dst src nbits = Some (n, e) /\ 0 < n /\
    length e = length src /\
    (forall v, In v e -> (exists u, In u src /\ u <> miss /\ (v = u \/ v = u + 1)) \/ (forall u, In u src -> u = miss) /\ (v = top \/ v = miss + 1 /\ miss < top)) /\
    decode_kind Z.eqb Z.ltb miss e = Some r /\ length r = length src /\
    forall k, (0 < k < length src)%nat \/ k = 0%nat /\ nth 0 src 0 <> miss -> nth k r 0 = nth k src 0.
Proof.
  intros NE Hm Hd Hp Hpm.
  destruct (zanal_spec miss src ltac:(apply Forall_forall; auto) NE) as (mx & mn & E & _ & Ix & B).
  assert (Nm : nmiss Z Z.eqb miss src <> 0).
  { intros X. rewrite nmiss_zero in X. specialize (X miss Hm). rewrite Z.eqb_refl in X. discriminate. }
  assert (L0 : (0 < length src)%nat) by (destruct src; [contradiction|cbn [length]; lia]).
  destruct (Z.eq_dec mx miss) as [Em|Em].
  - (* only missing values *)
    assert (All : forall v, In v src -> v = miss).
    { intros v Hv. destruct (Z.eq_dec v miss); auto. destruct (B v Hv) as [X _]; [apply Z.eqb_neq; auto|].
      rewrite Em, Z.eqb_refl in X. discriminate. }
    subst mx. destruct (Z.eq_dec (plug miss mn nbits) miss) as [Ep|Ep].
    + exists (nmiss Z Z.eqb miss src), src, src. unfold encode_kind. rewrite E. cbn [bind].
      destruct (Z.eqb_spec (nmiss Z Z.eqb miss src) 0); [contradiction|].
      split. { do 2 f_equal. rewrite <- (map_id src) at 2. apply map_ext_in. intros x Hx.
               rewrite (All x Hx), Z.eqb_refl. auto. }
      split; [pose proof (nmiss_nonneg Z Z.eqb miss src); lia|]. split; auto. split.
      { intros v Hv. right; split; auto. left. rewrite (All v Hv). destruct (Hpm mn) as [[X _]|X]; lia. }
      split; [apply decode_all_missing; auto|]. split; auto.
    + destruct (zencode_decode miss plug dst src nbits) as (n & e & r & p & E1 & E2 & E3 & E4 & E5 & E6 & E7).
      { apply Forall_forall; auto. } { auto. } { exists miss. rewrite Z.eqb_refl. auto. }
      { intros mx mn' X _. assert (mx = miss /\ mn' = mn) as [-> ->] by (split; congruence).
        split; auto. split; [apply Z.eqb_neq; auto|]. rewrite Z.eqb_refl. discriminate. }
      exists n, e, r. split; auto. split; auto. split; auto. split.
      { intros v Hv. right. split; auto. unfold encode_kind in E1. rewrite E in E1. cbn [bind] in E1.
        destruct (Z.eqb_spec (nmiss Z Z.eqb miss src) 0); [contradiction|].
        assert (e = map (fun x => if x =? miss then plug miss mn nbits else x) src) by congruence. subst e.
        apply in_map_iff in Hv. destruct Hv as (x & <- & Hx). rewrite (All x Hx), Z.eqb_refl.
        destruct (Hpm mn) as [[X1 X2]|X]; auto. }
      split; auto. split; auto. intros k Hk.
      assert (Hk' : (k < length src)%nat) by lia.
      rewrite (E7 k 0 Hk'). rewrite (All (nth k src 0)) by (apply nth_In; auto). rewrite Z.eqb_refl.
      destruct (Nat.eqb_spec k 0); auto. subst k. destruct Hk as [|[_ Hk]]; [lia|].
      exfalso. apply Hk. apply All. apply nth_In. lia.
  - destruct (Hd mx Ix Em) as [Ht Hs].
    destruct (zencode_decode miss plug dst src nbits) as (n & e & r & p & E1 & E2 & E3 & E4 & E5 & E6 & E7).
    { apply Forall_forall; auto. } { auto. } { exists miss. rewrite Z.eqb_refl. auto. }
    { intros mx' mn' X _. assert (mx' = mx /\ mn' = mn) as [-> ->] by (split; congruence).
      rewrite Hp by auto. split; auto. split; [apply Z.eqb_neq; auto|]. intros _. apply Z.ltb_lt. lia. }
    exists n, e, r. split; auto. split; auto. split; auto. split.
    { intros v Hv. left. unfold encode_kind in E1. rewrite E in E1. cbn [bind] in E1.
      destruct (Z.eqb_spec (nmiss Z Z.eqb miss src) 0); [contradiction|]. rewrite Hp in E1 by auto.
      assert (e = map (fun x => if x =? miss then mx + 1 else x) src) by congruence. subst e.
      apply in_map_iff in Hv. destruct Hv as (x & <- & Hx).
      destruct (Z.eqb_spec x miss); [exists mx; auto|exists x; auto]. }
    split; auto. split; auto. intros k Hk.
    assert (Hk' : (k < length src)%nat) by lia.
    rewrite (E7 k 0 Hk'). destruct (Z.eqb_spec (nth k src 0) miss) as [Ek|Ek]; auto.
    destruct (Nat.eqb_spec k 0); auto. subst k. destruct Hk as [|[_ Hk]]; [lia|contradiction].
Qed.

Lemma ones_shift b n : 0 <= n <= b -> Z.shiftr (2 ^ b - 1) (b - n) = 2 ^ n - 1.
Proof.
  intros H. rewrite Z.shiftr_div_pow2 by lia.
  assert (E : 2 ^ b = 2 ^ (b - n) * 2 ^ n) by (rewrite <- Z.pow_add_r by lia; f_equal; lia).
  assert (0 < 2 ^ (b - n)) by (apply Z.pow_pos_nonneg; lia).
  symmetry. apply (Z.div_unique _ _ _ (2 ^ (b - n) - 1)); [lia|]. rewrite E. ring.
Qed.

Lemma plug_uint_top b nbits mx mn : 1 <= b -> 1 <= nbits -> 0 <= mx < 2 ^ b ->
  (mx < 2 ^ Z.min nbits b - 1 -> plug_uint b mx mn nbits = mx + 1) /\
  (2 ^ Z.min nbits b - 1 <= mx -> plug_uint b mx mn nbits = 2 ^ Z.min nbits b - 1).
Proof.
  intros Hb Hn Hx. unfold plug_uint.
  assert (E : (if nbits <? b then Z.shiftr (2 ^ b - 1) (b - nbits) else 2 ^ b - 1) = 2 ^ Z.min nbits b - 1).
  { destruct (Z.ltb_spec nbits b); [rewrite ones_shift by lia|]; do 2 f_equal; lia. }
  cbv zeta. rewrite E. pose proof (Z.pow_le_mono_r 2 (Z.min nbits b) b ltac:(lia) ltac:(lia)).
  destruct (Z.ltb_spec mx (2 ^ Z.min nbits b - 1)); split; intros; try lia. apply Z.mod_small. lia.
Qed.

Lemma plug_int_top nbits mx mn : 1 <= nbits ->
  (mx < 2 ^ (Z.min nbits 32 - 1) - 1 -> plug_int mx mn nbits = mx + 1) /\
  (2 ^ (Z.min nbits 32 - 1) - 1 <= mx -> plug_int mx mn nbits = 2 ^ (Z.min nbits 32 - 1) - 1).
Proof.
  intros Hn. unfold plug_int. change 0xFFFFFFFF with (2 ^ 32 - 1).
  assert (E : sgn 32 (Z.shiftr (if nbits <? 32 then Z.shiftr (2 ^ 32 - 1) (32 - nbits) else 2 ^ 32 - 1) 1) = 2 ^ (Z.min nbits 32 - 1) - 1).
  { replace (if nbits <? 32 then Z.shiftr (2 ^ 32 - 1) (32 - nbits) else 2 ^ 32 - 1) with (2 ^ Z.min nbits 32 - 1).
    2:{ destruct (Z.ltb_spec nbits 32); [rewrite ones_shift by lia|]; do 2 f_equal; lia. }
    replace 1 with (Z.min nbits 32 - (Z.min nbits 32 - 1)) at 2 by lia. rewrite ones_shift by lia.
    pose proof (Z.pow_le_mono_r 2 (Z.min nbits 32 - 1) 31 ltac:(lia) ltac:(lia)).
    assert (0 < 2 ^ (Z.min nbits 32 - 1)) by (apply Z.pow_pos_nonneg; lia).
    unfold sgn. rewrite Z.mod_small. 2:{ change (2 ^ 32) with (2 * 2 ^ 31). lia. }
    cbv zeta. change (32 - 1) with 31. destruct (Z.ltb_spec (2 ^ (Z.min nbits 32 - 1) - 1) (2 ^ 31)); lia. }
  cbv zeta. rewrite E. destruct (Z.ltb_spec mx (2 ^ (Z.min nbits 32 - 1) - 1)); split; intros; lia.
Qed.

Lemma plug_short_minus1 b nbits mx mn : b = 16 \/ b = 8 -> 1 <= nbits -> -2 ^ (b - 1) <= mx < 2 ^ (b - 1) ->
  (mx < -1 -> plug_short b mx mn nbits = mx + 1) /\ (-1 <= mx -> plug_short b mx mn nbits = -1).
Proof.
  intros Hb Hn Hx. unfold plug_short.
  assert (P0 : sgn b (2 ^ b - 1) = -1) by (destruct Hb as [-> | ->]; reflexivity).
  assert (S1 : sgn b (-1) = -1) by (destruct Hb as [-> | ->]; reflexivity).
  rewrite P0. cbv zeta.
  assert (Sh : forall n, 0 <= n -> Z.shiftr (-1) n = -1).
  { intros n Hn'. rewrite Z.shiftr_div_pow2 by lia. symmetry.
    assert (0 < 2 ^ n) by (apply Z.pow_pos_nonneg; lia).
    apply (Z.div_unique _ _ _ (2 ^ n - 1)); lia. }
  replace (if nbits <? b then sgn b (Z.shiftr (-1) (b - nbits)) else -1) with (-1).
  2:{ destruct (Z.ltb_spec nbits b); auto. rewrite Sh by lia. auto. }
  rewrite Sh by lia. rewrite S1. destruct (Z.ltb_spec mx (-1)); split; intros; try lia.
  unfold sgn. destruct Hb as [-> | ->].
  - change (16 - 1) with 15 in *. rewrite <- (Z.mod_unique (mx + 1) (2 ^ 16) (-1) (mx + 1 + 2 ^ 16)).
    + cbv zeta. destruct (Z.ltb_spec (mx + 1 + 2 ^ 16) (2 ^ 15)); change (2 ^ 16) with 65536 in *; change (2 ^ 15) with 32768 in *; lia.
    + change (2 ^ 16) with 65536 in *; change (2 ^ 15) with 32768 in *; lia.
    + lia.
  - change (8 - 1) with 7 in *. rewrite <- (Z.mod_unique (mx + 1) (2 ^ 8) (-1) (mx + 1 + 2 ^ 8)).
    + cbv zeta. destruct (Z.ltb_spec (mx + 1 + 2 ^ 8) (2 ^ 7)); change (2 ^ 8) with 256 in *; change (2 ^ 7) with 128 in *; lia.
    + change (2 ^ 8) with 256 in *; change (2 ^ 7) with 128 in *; lia.
    + lia.
Qed.

Lemma unsigned_roundtrip b miss dst src nbits : 1 <= b -> 1 <= nbits -> Forall (fun v => 0 <= v < 2 ^ b) src -> src <> [] -> In miss src ->
  (forall v, In v src -> v <> miss -> v < 2 ^ Z.min nbits b - 1 /\ v + 1 <> miss) ->
  exists n e r, encode_kind Z.eqb Z.ltb miss (plug_uint b) dst src nbits = Some (n, e) /\ 0 < n /\
    length e = length src /\ Forall (fun v => 0 <= v < 2 ^ Z.min nbits b) e /\
    decode_kind Z.eqb Z.ltb miss e = Some r /\ length r = length src /\
    forall k, (0 < k < length src)%nat \/ k = 0%nat /\ nth 0 src 0 <> miss -> nth k r 0 = nth k src 0.
Proof.
  intros Hb Hn F NE Hm Hd. rewrite Forall_forall in F.
  destruct (int_encode_decode miss (plug_uint b) dst src nbits (2 ^ Z.min nbits b - 1)) as (n & e & r & E1 & E2 & E3 & E4 & E5 & E6 & E7); auto.
  - intros mx mn Hx Ht. apply plug_uint_top; auto.
  - intros mn. destruct (plug_uint_top b nbits miss mn Hb Hn (F miss Hm)) as [P1 P2].
    destruct (Z.lt_ge_cases miss (2 ^ Z.min nbits b - 1)); [left|right]; auto.
  - exists n, e, r. repeat (split; [assumption|]). split; auto. apply Forall_forall. intros v Hv.
    assert (0 < 2 ^ Z.min nbits b) by (apply Z.pow_pos_nonneg; lia).
    pose proof (F miss Hm).
    destruct (E4 v Hv) as [(u & Hu & Nu & Ev)|(_ & [Ev|Ev])]; [|lia|lia].
    pose proof (F u Hu). destruct (Hd u Hu Nu). lia.
Qed.

Lemma signed_roundtrip miss dst src nbits : 1 <= nbits -> src <> [] -> In miss src ->
  (forall v, In v src -> v <> miss -> v < 2 ^ (Z.min nbits 32 - 1) - 1 /\ v + 1 <> miss) ->
  exists n e r, encode_kind Z.eqb Z.ltb miss plug_int dst src nbits = Some (n, e) /\ 0 < n /\
    length e = length src /\
    (forall lo, (exists v, In v src /\ v <> miss) -> (forall v, In v src -> v <> miss -> lo <= v) ->
       Forall (fun v => lo <= v < 2 ^ (Z.min nbits 32 - 1)) e) /\
    decode_kind Z.eqb Z.ltb miss e = Some r /\ length r = length src /\
    forall k, (0 < k < length src)%nat \/ k = 0%nat /\ nth 0 src 0 <> miss -> nth k r 0 = nth k src 0.
Proof.
  intros Hn NE Hm Hd.
  destruct (int_encode_decode miss plug_int dst src nbits (2 ^ (Z.min nbits 32 - 1) - 1)) as (n & e & r & E1 & E2 & E3 & E4 & E5 & E6 & E7); auto.
  - intros mx mn Hx Ht. apply plug_int_top; auto.
  - intros mn. destruct (plug_int_top nbits miss mn Hn) as [P1 P2].
    destruct (Z.lt_ge_cases miss (2 ^ (Z.min nbits 32 - 1) - 1)); [left|right]; auto.
  - exists n, e, r. repeat (split; [assumption|]). split; auto. intros lo (u0 & Hu0 & Nu0) Hlo. apply Forall_forall. intros v Hv.
    destruct (E4 v Hv) as [(u & Hu & Nu & Ev)|(All & _)]; [|exfalso; apply Nu0; apply All; auto].
    destruct (Hd u Hu Nu). specialize (Hlo u Hu Nu). lia.
Qed.

Lemma short_roundtrip b miss dst src nbits : b = 16 \/ b = 8 -> 1 <= nbits -> Forall (fun v => -2 ^ (b - 1) <= v < 2 ^ (b - 1)) src -> src <> [] -> In miss src ->
  (forall v, In v src -> v <> miss -> v < -1 /\ v + 1 <> miss) ->
  exists n e r, encode_kind Z.eqb Z.ltb miss (plug_short b) dst src nbits = Some (n, e) /\ 0 < n /\
    length e = length src /\
    decode_kind Z.eqb Z.ltb miss e = Some r /\ length r = length src /\
    forall k, (0 < k < length src)%nat \/ k = 0%nat /\ nth 0 src 0 <> miss -> nth k r 0 = nth k src 0.
Proof.
  intros Hb Hn F NE Hm Hd. rewrite Forall_forall in F.
  destruct (int_encode_decode miss (plug_short b) dst src nbits (-1)) as (n & e & r & E1 & E2 & E3 & E4 & E5 & E6 & E7); auto.
  - intros mx mn Hx Ht. apply plug_short_minus1; auto.
  - intros mn. destruct (plug_short_minus1 b nbits miss mn Hb Hn (F miss Hm)) as [P1 P2].
    destruct (Z.lt_ge_cases miss (-1)); [left|right]; auto.
  - exists n, e, r. repeat (split; [assumption|]). assumption.
Qed.

Lemma none_missing miss plug dst src nbits : src <> [] -> ~ In miss src ->
  encode_kind Z.eqb Z.ltb miss plug dst src nbits = Some (0, dst).
Proof.
  intros NE N. unfold encode_kind. destruct (zanal_spec miss src ltac:(apply Forall_forall; auto) NE) as (mx & mn & E & _).
  rewrite E. cbn [bind].
  assert (Z0 : nmiss Z Z.eqb miss src = 0).
  { apply nmiss_zero. intros v Hv. apply Z.eqb_neq. intros ->. contradiction. }
  rewrite Z0. reflexivity.
Qed.

(** For any comparisons: without an element equal to the missing value the
    count is 0 and the destination is untouched. *)
Lemma none_missing_any T (eqb ltb : T -> T -> bool) miss plug dst src nbits : src <> [] ->
  (forall v, In v src -> eqb v miss = false) -> encode_kind eqb ltb miss plug dst src nbits = Some (0, dst).
Proof.
  intros NE N. unfold encode_kind, anal. destruct src as [|a r]; [contradiction|].
  pose proof (anal_loop_count T eqb ltb miss r a a (if eqb a miss then 1 else 0)) as C.
  destruct (anal_loop eqb ltb miss r a a _) as [[c mx] mn]. cbn [fst] in C. cbn [bind].
  rewrite (N a) in C by (left; auto). rewrite (proj2 (nmiss_zero T eqb miss r)) in C by (intros v Hv; apply N; right; auto).
  subst c. reflexivity.
Qed.
