(** Facts on missing values, for any element type whose comparisons behave. *)
From Coq Require Import ZArith List Lia Bool.
From Verif Require Import Bits Missing.
Import ListNotations.
Open Scope Z_scope.
Open Scope opt_scope.

Section Kind.
Variable T : Type.
Variables (eqb ltb : T -> T -> bool).
(** The values on which the comparisons are those of a total order. *)
Variable P : T -> Prop.
Hypothesis eq_refl' : forall x, P x -> eqb x x = true.
Hypothesis lt_neq : forall x y, P x -> P y -> ltb x y = true -> eqb x y = false.
Hypothesis lt_total : forall x y, P x -> P y -> eqb x y = false -> ltb x y = false -> ltb y x = true.
Hypothesis lt_trans : forall x y z, P x -> P y -> P z -> ltb x y = true -> ltb y z = true -> ltb x z = true.
Hypothesis lt_eq_r : forall x y z, P x -> P y -> P z -> ltb x y = true -> eqb y z = true -> ltb x z = true.

Variable miss : T.
Hypothesis Pm : P miss.

Lemma lt_irr x : P x -> ltb x x = false.
Proof. intros H. destruct (ltb x x) eqn:E; auto. apply lt_neq in E; auto. rewrite eq_refl' in E; auto. Qed.

(** [mx] is not exceeded by [v]. *)
Lemma le_lt_trans x y z : P x -> P y -> P z -> ltb y x = false -> ltb y z = true -> ltb x z = true.
Proof.
  intros Hx Hy Hz H1 H2. destruct (ltb x y) eqn:E; [apply (lt_trans x y z); auto|].
  destruct (ltb x z) eqn:E2; auto. exfalso.
  destruct (eqb x z) eqn:E3.
  - assert (ltb y x = true); [|congruence].
    destruct (eqb x y) eqn:E4.
    + (* x == y and x == z : y < z contradicts *)
      destruct (ltb y x) eqn:E5; auto. exfalso.
      (* y < z, z == ? *)
      assert (X : eqb z y = true -> False).
      { intros X. assert (ltb y y = true) by (apply (lt_eq_r y z y); auto). rewrite lt_irr in H; auto. discriminate. }
      destruct (ltb z x) eqn:E6.
      * assert (ltb y x = true) by (apply (lt_trans y z x); auto). congruence.
      * assert (Z1 : eqb z x = true).
        { destruct (eqb z x) eqn:E7; auto. assert (ltb x z = true) by (apply lt_total; auto). congruence. }
        assert (ltb y x = true) by (apply (lt_eq_r y z x); auto). congruence.
    + apply lt_total; auto.
  - assert (ltb z x = true) by (apply lt_total; auto).
    assert (ltb y x = true) by (apply (lt_trans y z x); auto). congruence.
Qed.

(** Number of missing values. *)
Fixpoint nmiss (l : list T) : Z := match l with [] => 0 | v :: r => (if eqb v miss then 1 else 0) + nmiss r end.
Lemma nmiss_nonneg l : 0 <= nmiss l.
Proof. induction l as [|v r IH]; cbn [nmiss]; [lia|]. destruct (eqb v miss); lia. Qed.
Lemma nmiss_zero l : nmiss l = 0 <-> forall v, In v l -> eqb v miss = false.
Proof.
  induction l as [|v r IH]; cbn [nmiss].
  - split; auto. intros _ v [].
  - pose proof (nmiss_nonneg r). destruct (eqb v miss) eqn:E.
    + split; [lia|]. intros H0. specialize (H0 v (or_introl eq_refl)). congruence.
    + rewrite Z.add_0_l, IH. split.
      * intros H0 w [<-|Hw]; auto.
      * intros H0 w Hw. apply H0. right; auto.
Qed.

Lemma anal_loop_count l mx mn c : fst (fst (anal_loop eqb ltb miss l mx mn c)) = c + nmiss l.
Proof.
  revert mx mn c. induction l as [|v r IH]; intros mx mn c; cbn [anal_loop nmiss]; [cbn; lia|].
  destruct (eqb v miss); rewrite IH; lia.
Qed.

(** On a list without missing values the result is its maximum. *)
Lemma anal_loop_max l mx mn c : Forall P l -> P mx -> eqb mx miss = false -> (forall v, In v l -> eqb v miss = false) ->
  let '(_, mx', _) := anal_loop eqb ltb miss l mx mn c in
  (mx' = mx \/ In mx' l) /\ P mx' /\ ltb mx' mx = false /\ forall v, In v l -> ltb mx' v = false.
Proof.
  revert mx mn c. induction l as [|v r IH]; intros mx mn c F Hx Nx Nl; cbn [anal_loop].
  - split; auto. split; auto. split; [apply lt_irr; auto|]. intros v [].
  - inversion F as [|? ? Hv Fr]; subst. rewrite Nx. rewrite (Nl v) by (left; auto).
    destruct (ltb mx v) eqn:E.
    + specialize (IH v (if ltb v (if eqb mn miss then v else mn) then v else if eqb mn miss then v else mn) c Fr Hv (Nl v (or_introl eq_refl))
         (fun w Hw => Nl w (or_intror Hw))).
      destruct (anal_loop eqb ltb miss r v _ c) as [[c' mx'] mn']. destruct IH as (I1 & I2 & I3 & I4).
      split; [right; cbn; destruct I1; auto|]. split; auto. split.
      * destruct (ltb mx' mx) eqn:E2; auto. assert (ltb mx' v = true) by (apply (lt_trans mx' mx v); auto). congruence.
      * intros w [<-|Hw]; auto.
    + specialize (IH mx (if ltb v (if eqb mn miss then v else mn) then v else if eqb mn miss then v else mn) c Fr Hx Nx (fun w Hw => Nl w (or_intror Hw))).
      destruct (anal_loop eqb ltb miss r mx _ c) as [[c' mx'] mn']. destruct IH as (I1 & I2 & I3 & I4).
      split; [destruct I1; auto; right; right; auto|]. split; auto. split; auto.
      intros w [<-|Hw]; auto. destruct (ltb mx' v) eqn:E2; auto. exfalso.
      assert (ltb mx v = true) by (apply (le_lt_trans mx mx' v); auto). congruence.
Qed.

Definition plugged (p : T) (src : list T) : list T := map (fun x => if eqb x miss then p else x) src.

Theorem decode_plugged p src : Forall P src -> src <> [] -> P p -> eqb p miss = false -> nmiss src <> 0 ->
  (forall x, In x src -> eqb x miss = false -> ltb x p = true) ->
  exists r, decode_kind eqb ltb miss (plugged p src) = Some r /\ length r = length src /\
    forall k d, (k < length src)%nat -> nth k r d =
      if eqb (nth k src d) miss then (if (k =? 0)%nat then p else miss) else nth k src d.
Proof.
  intros F NE Pp Np Nm Hlt. destruct src as [|a src]; [contradiction|].
  set (e := plugged p (a :: src)).
  assert (Ee : forall v, In v e -> P v /\ eqb v miss = false /\ (v = p \/ ltb v p = true)).
  { intros v Hv. unfold e, plugged in Hv. apply in_map_iff in Hv. destruct Hv as (x & <- & Hx).
    rewrite Forall_forall in F. destruct (eqb x miss) eqn:E; repeat split; auto. }
  assert (Pe : In p e).
  { destruct (existsb (fun x => eqb x miss) (a :: src)) eqn:X.
    - apply existsb_exists in X. destruct X as (x & Hx & E). unfold e, plugged. apply in_map_iff. exists x. rewrite E. auto.
    - exfalso. apply Nm. apply nmiss_zero. intros v Hv. destruct (eqb v miss) eqn:E; auto.
      assert (existsb (fun x => eqb x miss) (a :: src) = true) by (apply existsb_exists; eauto). congruence. }
  set (a' := if eqb a miss then p else a).
  assert (Ea : e = a' :: plugged p src) by reflexivity.
  unfold decode_kind, anal. rewrite Ea. cbn [bind].
  assert (In1 : In a' e) by (rewrite Ea; left; auto).
  assert (In2 : forall v, In v (plugged p src) -> In v e) by (intros v Hv; rewrite Ea; right; auto).
  pose proof (anal_loop_max (plugged p src) a' a' (if eqb a' miss then 1 else 0)) as M.
  destruct (anal_loop eqb ltb miss (plugged p src) a' a' _) as [[c mx] mn].
  destruct M as (M1 & M2 & M3 & M4).
  { apply Forall_forall. intros v Hv. apply Ee; auto. }
  { apply Ee; auto. }
  { apply Ee; auto. }
  { intros v Hv. apply Ee; auto. }
  assert (Mp : mx = p).
  { assert (Mi : In mx e) by (destruct M1 as [->|]; auto).
    destruct (Ee mx Mi) as (_ & _ & [E|E]); auto. exfalso.
    rewrite Ea in Pe. destruct Pe as [Hp|Hp]; [rewrite Hp in M3; congruence|]. rewrite M4 in E by auto. discriminate. }
  subst mx. cbn [bind]. eexists. split; [reflexivity|].
  split; [unfold plugged; cbn [length]; rewrite !map_length; reflexivity|].
  intros k d Hk. destruct k as [|k].
  - cbn [nth Nat.eqb]. reflexivity.
  - cbn [nth Nat.eqb length] in *. unfold plugged. rewrite map_map.
    set (g := fun x => if eqb (if eqb x miss then p else x) p then miss else if eqb x miss then p else x).
    rewrite (nth_indep _ d (g d)) by (rewrite map_length; lia). rewrite map_nth. unfold g.
    assert (Hin : In (nth k src d) (a :: src)) by (right; apply nth_In; lia).
    destruct (eqb (nth k src d) miss) eqn:E.
    + rewrite eq_refl' by auto. reflexivity.
    + rewrite lt_neq; auto. rewrite Forall_forall in F; auto.
Qed.

(** The maximum the encoder computes: not exceeded by any non-missing value. *)
Lemma anal_loop_bound l mx mn c : Forall P l -> P mx ->
  let '(_, mx', _) := anal_loop eqb ltb miss l mx mn c in
  P mx' /\ (mx' = mx \/ In mx' l) /\ (eqb mx miss = false -> eqb mx' miss = false /\ ltb mx' mx = false) /\
  forall v, In v l -> eqb v miss = false -> eqb mx' miss = false /\ ltb mx' v = false.
Proof.
  revert mx mn c. induction l as [|v r IH]; intros mx mn c F Hx; cbn [anal_loop].
  - split; auto. split; auto. split; [intros N; split; auto; apply lt_irr; auto|]. intros v [].
  - inversion F as [|? ? Hv Fr]; subst.
    destruct (eqb v miss) eqn:Ev.
    + set (mx1 := if eqb mx miss then v else mx).
      assert (P1 : P mx1) by (unfold mx1; destruct (eqb mx miss); auto).
      specialize (IH mx1 (if eqb mn miss then v else mn) (c + 1) Fr P1).
      destruct (anal_loop eqb ltb miss r mx1 _ _) as [[c' mx'] mn']. destruct IH as (I1 & I2 & I3 & I4).
      split; auto. split.
      { unfold mx1 in I2. destruct (eqb mx miss); destruct I2 as [->|]; cbn; auto. }
      split.
      { intros N. unfold mx1 in I3. rewrite N in I3. auto. }
      intros w [<-|Hw] Nw; [congruence|auto].
    + set (mx1 := if eqb mx miss then v else mx). set (mx2 := if ltb mx1 v then v else mx1).
      set (mn2 := if ltb v (if eqb mn miss then v else mn) then v else if eqb mn miss then v else mn).
      assert (P2 : P mx2) by (unfold mx2, mx1; destruct (eqb mx miss), (ltb _ v); auto).
      assert (N2 : eqb mx2 miss = false) by (unfold mx2, mx1; destruct (eqb mx miss) eqn:?, (ltb _ v); auto).
      assert (V2 : ltb mx2 v = false).
      { unfold mx2. destruct (ltb mx1 v) eqn:E; auto. apply lt_irr; auto. }
      assert (X2 : eqb mx miss = false -> ltb mx2 mx = false).
      { intros N. unfold mx2, mx1. rewrite N. destruct (ltb mx v) eqn:E; [|apply lt_irr; auto].
        destruct (ltb v mx) eqn:E2; auto. assert (ltb mx mx = true) by (apply (lt_trans mx v mx); auto).
        rewrite lt_irr in H; auto. }
      specialize (IH mx2 mn2 c Fr P2).
      destruct (anal_loop eqb ltb miss r mx2 mn2 c) as [[c' mx'] mn']. destruct IH as (I1 & I2 & I3 & I4).
      destruct (I3 N2) as [J1 J2].
      assert (K : forall y, P y -> ltb mx2 y = false -> ltb mx' y = false).
      { intros y Hy H. destruct (ltb mx' y) eqn:E; auto. exfalso.
        assert (ltb mx2 y = true) by (apply (le_lt_trans mx2 mx' y); auto). congruence. }
      split; auto. split.
      { destruct I2 as [->|]; [|right; right; auto]. unfold mx2, mx1.
        destruct (eqb mx miss), (ltb _ v); cbn; auto. }
      split; [intros N; split; auto|].
      intros w [<-|Hw] Nw; [auto|apply I4; auto].
Qed.

Lemma anal_spec src : Forall P src -> src <> [] ->
  exists mx mn, anal eqb ltb miss src = Some (nmiss src, mx, mn) /\ P mx /\ In mx src /\
    forall v, In v src -> eqb v miss = false -> eqb mx miss = false /\ ltb mx v = false.
Proof.
  intros F NE. destruct src as [|a src]; [contradiction|]. inversion F as [|? ? Ha Fr]; subst.
  unfold anal. pose proof (anal_loop_count src a a (if eqb a miss then 1 else 0)) as C.
  pose proof (anal_loop_bound src a a (if eqb a miss then 1 else 0) Fr Ha) as B.
  destruct (anal_loop eqb ltb miss src a a _) as [[c mx] mn]. cbn [fst] in C. destruct B as (B1 & B2 & B3 & B4).
  exists mx, mn. split; [cbn [nmiss]; congruence|]. split; auto. split; [destruct B2 as [->|]; cbn; auto|].
  intros v [<-|Hv] Nv; auto.
Qed.

Theorem encode_none plug dst src nbits : Forall P src -> src <> [] -> (forall v, In v src -> eqb v miss = false) ->
  encode_kind eqb ltb miss plug dst src nbits = Some (0, dst).
Proof.
  intros F NE H. destruct (anal_spec src F NE) as (mx & mn & E & _). unfold encode_kind. rewrite E. cbn [bind].
  rewrite (proj2 (nmiss_zero src) H). reflexivity.
Qed.

Theorem encode_decode plug dst src nbits : Forall P src -> src <> [] -> (exists v, In v src /\ eqb v miss = true) ->
  (forall mx mn, anal eqb ltb miss src = Some (nmiss src, mx, mn) -> P mx ->
     P (plug mx mn nbits) /\ eqb (plug mx mn nbits) miss = false /\
     (eqb mx miss = false -> ltb mx (plug mx mn nbits) = true)) ->
  exists n e r p, encode_kind eqb ltb miss plug dst src nbits = Some (n, e) /\ n = nmiss src /\ 0 < n /\
    length e = length src /\
    decode_kind eqb ltb miss e = Some r /\ length r = length src /\
    forall k d, (k < length src)%nat -> nth k r d =
      if eqb (nth k src d) miss then (if (k =? 0)%nat then p else miss) else nth k src d.
Proof.
  intros F NE (v0 & Hv0 & Ev0) HP. destruct (anal_spec src F NE) as (mx & mn & E & Px & Ix & B).
  unfold encode_kind. rewrite E. cbn [bind].
  assert (Nm : nmiss src <> 0).
  { intros X. rewrite nmiss_zero in X. rewrite X in Ev0 by auto. discriminate. }
  destruct (Z.eqb_spec (nmiss src) 0); [contradiction|].
  destruct (HP mx mn E Px) as (Pp & Np & Lp).
  destruct (decode_plugged (plug mx mn nbits) src) as (r & Er & Lr & Nr); auto.
  { intros x Hx Nx. destruct (B x Hx Nx) as [B1 B2]. rewrite Forall_forall in F.
    apply (le_lt_trans x mx (plug mx mn nbits)); auto. }
  exists (nmiss src), (plugged (plug mx mn nbits) src), r, (plug mx mn nbits).
  split; [reflexivity|]. split; auto. split; [pose proof (nmiss_nonneg src); lia|].
  split; [unfold plugged; apply map_length|]. auto.
Qed.
End Kind.
