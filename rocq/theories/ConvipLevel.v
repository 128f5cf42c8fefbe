(** Levels, their codes and what is read back (Convip.v). *)
From Coq Require Import ZArith List Bool Lia Reals Lra Psatz.
From Flocq Require Import Core BinarySingleNaN Relative.
From Verif Require Import Bits BitIOFacts Flo FloatField FloatDouble FloatFieldFacts Convip ConvipFacts ConvipMain ConvipBack ConvipTrip ConvipSame.
Import ListNotations.
Open Scope Z_scope.
Open Scope opt_scope.

(** Below this, indices of kind 17 fit. *)
Definition top_of (k : Z) : Z := if k =? 17 then 480000000 else hi_of k.
Definition new_kind (k : Z) : Prop := In k [0; 1; 2; 3; 4; 5; 6; 7; 10; 17; 21].
Lemma new_kind_cases k : new_kind k -> kind_A k \/ k = 6 \/ k = 17 \/ k = 21.
Proof. intros H. unfold kind_A. repeat (destruct H as [<-|H]; [cbn; auto 12|]). destruct H. Qed.

(** How [q] comes of [p]. *)
Inductive way (k : Z) (p q : f32) : Prop :=
| way_0 : k = 2 -> r32 p = 0%R -> r32 q = 0%R -> way k p q
| way_A m e t : kind_A k -> coded p k m e t -> (k <> 2 \/ r32 p <> 0%R) -> ((0 <= r32 p)%R \/ 1 <= m) -> r32 q = r32 (half_value (signed_m (r32 p) m) e) -> way k p q
| way_B m e t : k = 6 -> coded p k m e t -> settled 6 (r32 (half_value m e)) (r32 q) -> way k p q
| way_C m e t : k = 17 -> coded p k m e t -> settled 17 (r32 (half_value m e)) (r32 q) -> way k p q
| way_D m e t : k = 21 -> coded p k m e t -> settled 21 (rnd32 (r32 (half_value m e) / 10000)) (r32 q) -> way k p q.

Definition in_range (k : Z) (p : f32) : Prop := is_finite p = true /\ (IZR (low_of k) <= r32 p <= IZR (top_of k))%R.
Definition passes (k : Z) (p q : f32) (ip : Z) : Prop := to_ip true p k = Some ip /\ 0 <= ip < 2 ^ 28 /\ from_ip ip = (q, k) /\ is_finite q = true.

Lemma to_ip_plain p k : new_kind k -> is_finite p = true -> k <> 2 \/ r32 p <> 0%R -> to_ip true p k = to_ip_new p k.
Proof.
  intros K F N. unfold to_ip. assert (is_invalid_kind k = false) as -> by (unfold new_kind in K; repeat (destruct K as [<-|K]; [reflexivity|]); destruct K).
  destruct (Z.eqb_spec k 2) as [->|]; [|reflexivity]. destruct N as [N|N]; [congruence|]. cbn [andb]. replace (f32_eqb p (f32_of 0)) with false; [reflexivity|].
  unfold f32_eqb. destruct (f32_of_ok 0 ltac:(lia)) as [Z1 Z2]. symmetry. rewrite Beqb_correct by assumption. apply Req_bool_false. fold (r32 p) (r32 (f32_of 0)). rewrite Z1. exact N.
Qed.
Lemma to_ip_zero p : is_finite p = true -> r32 p = 0%R -> to_ip true p 2 = Some 0.
Proof.
  intros F Z. unfold to_ip. change (is_invalid_kind 2) with false. cbn [Z.eqb Pos.eqb andb]. replace (f32_eqb p (f32_of 0)) with true; [reflexivity|].
  unfold f32_eqb. destruct (f32_of_ok 0 ltac:(lia)) as [Z1 Z2]. symmetry. rewrite Beqb_correct by assumption. apply Req_bool_true. fold (r32 p) (r32 (f32_of 0)). rewrite Z1. exact Z.
Qed.

Lemma level_A k p : kind_A k -> in_range k p -> (forall m e t, coded p k m e t -> (0 <= r32 p)%R \/ 1 <= m) -> exists ip q, passes k p q ip /\ way k p q /\ (IZR (low_of k) <= r32 q <= IZR (hi_of k))%R.
Proof.
  intros A [F V] S. assert (K : new_kind k) by (unfold kind_A, new_kind in *; repeat (destruct A as [<-|A]; [cbn; auto 14|]); destruct A).
  assert (TK : top_of k = hi_of k) by (unfold top_of; destruct (Z.eqb_spec k 17) as [->|]; [|reflexivity]; apply kind_A_facts in A; lia). rewrite TK in V.
  destruct (Z.eq_dec k 2) as [K2|K2]; [destruct (Req_dec (r32 p) 0) as [P0|P0]|].
  - subst k. exists 0, (f32_of 0). destruct (f32_of_ok 0 ltac:(lia)) as [Z1 Z2]. split; [split; [apply to_ip_zero; assumption|]; split; [lia|]; split; [reflexivity|exact Z2]|]. split; [apply way_0; auto|]. rewrite Z1. change (IZR (low_of 2)) with 0%R. change (IZR (hi_of 2)) with 1100%R. lra.
  - destruct (A_coded p k A F V) as (m & e & t & C). specialize (S m e t C). destruct (A_decoded p k m e t A F V C S) as (D & IP & FQ & RQ & RG). cbv zeta in *. pose proof C as (TO & _). rewrite (A_scaled k _ A) in TO. rewrite (Z.mod_small k) in TO by (apply kind_A_facts in A; lia).
    eexists _, _. split; [split; [rewrite to_ip_plain by auto; exact TO|]; split; [exact IP|]; split; [exact D|exact FQ]|]. split; [exact (way_A k p _ m e t A C ltac:(auto) S RQ)|exact RG].
  - destruct (A_coded p k A F V) as (m & e & t & C). specialize (S m e t C). destruct (A_decoded p k m e t A F V C S) as (D & IP & FQ & RQ & RG). cbv zeta in *. pose proof C as (TO & _). rewrite (A_scaled k _ A) in TO. rewrite (Z.mod_small k) in TO by (apply kind_A_facts in A; lia).
    eexists _, _. split; [split; [rewrite to_ip_plain by auto; exact TO|]; split; [exact IP|]; split; [exact D|exact FQ]|]. split; [exact (way_A k p _ m e t A C ltac:(auto) S RQ)|exact RG].
Qed.

Lemma settled_range k h q : In k [6; 17; 21] -> (IZR (low_of k) <= h <= IZR (hi_of k))%R -> settled k h q -> (IZR (low_of k) <= q <= IZR (hi_of k))%R.
Proof.
  intros K H S. unfold settled in S. rewrite S. destruct (Rlt_bool _ _); [|exact H].
  destruct (f32_of_ok 0 ltac:(lia)) as [Z0 _]. destruct (f32_of_ok 1 ltac:(lia)) as [Z1 _].
  destruct K as [<-|[<-|[<-|[]]]]; [change (zero_val2 6) with (f32_of 1); rewrite Z1|change (zero_val2 17) with (f32_of 1); rewrite Z1|change (zero_val2 21) with (f32_of 0); rewrite Z0]; split; apply IZR_le; vm_compute; discriminate.
Qed.
Lemma level_rest k p : In k [6; 17; 21] -> in_range k p -> exists ip q, passes k p q ip /\ way k p q /\ (IZR (low_of k) <= r32 q <= IZR (hi_of k))%R.
Proof.
  intros K [F V]. destruct K as [<-|[<-|[<-|[]]]].
  - destruct (trip_B p F V) as (ip & q & m & e & t & C & (TO & IP & FR & FQ & ST & RG) & _). exists ip, q. split; [split; [rewrite to_ip_plain; [exact TO|cbn; auto 14|exact F|left; discriminate]|auto]|]. split; [exact (way_B 6 p q m e t eq_refl C ST)|apply (settled_range 6 _ _ ltac:(cbn; auto) RG ST)].
  - destruct (trip_C p F V) as (ip & q & m & e & t & C & (TO & IP & FR & FQ & ST & RG) & _). exists ip, q. split; [split; [rewrite to_ip_plain; [exact TO|cbn; auto 14|exact F|left; discriminate]|auto]|]. split; [exact (way_C 17 p q m e t eq_refl C ST)|apply (settled_range 17 _ _ ltac:(cbn; auto) RG ST)].
  - destruct (trip_D p F V) as (ip & q & m & e & t & C & (TO & IP & FR & FQ & ST & RG) & _). exists ip, q. split; [split; [rewrite to_ip_plain; [exact TO|cbn; auto 14|exact F|left; discriminate]|auto]|]. split; [exact (way_D 21 p q m e t eq_refl C ST)|apply (settled_range 21 _ _ ltac:(cbn; auto) RG ST)].
Qed.

(** Not a negative value too small for a digit. *)
Definition visible (p : f32) : Prop := (0 <= r32 p \/ r32 p <= - / 100000000000)%R.
Lemma level_ok k p : new_kind k -> in_range k p -> visible p -> exists ip q, passes k p q ip /\ way k p q /\ (IZR (low_of k) <= r32 q <= IZR (hi_of k))%R.
Proof.
  intros K R S. destruct (new_kind_cases k K) as [A|H]; [|apply level_rest; [destruct H as [->|[->| ->]]; cbn; auto|exact R]].
  apply level_A; [exact A|exact R|]. intros m e t (_ & G & M & _). destruct S as [S|S]; [left; exact S|right]. rewrite (A_scaled k _ A) in G.
  apply (at_least_one (limit2 (r32 p)) m e (Rabs (r32 p)) t); [apply limit2_ok|rewrite Rabs_left by lra; lra|exact G|exact M].
Qed.

(** Kind 21. *)
Lemma small_21 : (10019 / 100000000 <= small 21 <= 10021 / 100000000)%R.
Proof.
  unfold small. change (zero_at 21) with small21. pose proof (proj1 small21_ok) as S. destruct (lit32_ok 1001 1000 ltac:(lia) ltac:(lia) ltac:(lia)) as [A _]. apply near_pos in A; [|lra|apply bpow_ge_0]. rewrite e24_val in A.
  set (a := r32 (lit32 1001 1000)) in *. clearbody a. assert (P : (10019 / 100000000 + / 1000000000 <= a * small21 <= 10021 / 100000000 - / 1000000000)%R) by (split; nra).
  assert (N : near e24 (a * small21) (rnd32 (a * small21))) by (apply rnd32_near; right; rewrite Rabs_pos_eq by lra; apply Rle_trans with (bpow radix2 (-20)); [apply bpow_le; lia|change (bpow radix2 (-20)) with (/ 1048576)%R; lra]).
  apply near_pos in N; [|lra|apply bpow_ge_0]. rewrite e24_val in N. lra.
Qed.
Lemma coded_21 p m e t : (0 <= r32 p <= 1000000)%R -> coded p 21 m e t ->
  let x := (clear21 (r32 p) * 10000)%R in good_end 100000 x t e /\ (Rabs (t - IZR m) <= /2)%R /\ loop_end 100000 x t e m /\ (1000999 / 1000000 <= x <= 10000000000)%R /\
    (Rabs (r32 (half_value m e) - x) <= rt_error 100000 x)%R /\ near e24 (r32 (half_value m e) / 10000) (rnd32 (r32 (half_value m e) / 10000)) /\ (1 < r32 (half_value m e))%R.
Proof.
  intros V (_ & G & M & LE) x. assert (SC : scaled 21 (r32 p) = x) by (unfold scaled, x, clear21; change (zero_at 21) with small21; rewrite Rabs_pos_eq by lra; reflexivity).
  pose proof (proj1 small21_ok) as S21. assert (X : (1000999 / 1000000 <= x <= 10000000000)%R) by (unfold x, clear21; destruct (Rlt_bool_spec (r32 p) small21); lra).
  assert (LI : limit2 x = 100000) by (unfold limit2; rewrite Rle_bool_true by lra; reflexivity). assert (AB : Rabs x = x) by (apply Rabs_pos_eq; lra). rewrite SC, LI, AB in *.
  pose proof (half_error 100000 m e x t ltac:(lia) ltac:(lra) G M) as HE. assert (H1 : (1 < r32 (half_value m e))%R) by (unfold rt_error in HE; apply Rabs_le_inv in HE; lra).
  split; [exact G|]. split; [exact M|]. split; [exact LE|]. split; [exact X|]. split; [exact HE|]. split; [|exact H1].
  apply rnd32_near. right. rewrite Rabs_pos_eq by lra. apply Rle_trans with (bpow radix2 (-20)); [apply bpow_le; lia|change (bpow radix2 (-20)) with (/ 1048576)%R; lra].
Qed.

(** ** How far *)
Definition coarse (k : Z) (v : R) : R := if (k =? 17) || Rlt_bool v 0 then (110 / 1000000)%R else (53 / 10000000)%R.
Definition close (k : Z) (v w : R) : Prop := (Rabs (w - v) <= coarse k v * Rabs v + / 100000000000)%R.
Definition snapped (k : Z) (v w : R) : Prop := In k [6; 17] /\ (v < 10012 / 10000 /\ w = 1)%R \/ k = 21 /\ (v < 1003 / 10000000 /\ w = 0)%R.

Lemma way_close k p q : new_kind k -> in_range k p -> way k p q -> close k (r32 p) (r32 q) \/ snapped k (r32 p) (r32 q).
Proof.
  intros K [F V] W. destruct W as [-> P Q|m e t A C N2 S Q|m e t -> C S|m e t -> C S|m e t -> C S].
  - left. unfold close. rewrite P, Q, Rminus_0_r, Rabs_R0. change (coarse 2 0) with (coarse 2 0). lra.
  - left. destruct C as (_ & G & M & _). rewrite (A_scaled k _ A) in G. pose proof (kind_A_facts k A) as (KB & _ & _ & _ & LO & HI & _ & NL). assert (TK : top_of k = hi_of k) by (unfold top_of; destruct (Z.eqb_spec k 17); [lia|reflexivity]). rewrite TK in V.
    assert (X : (0 <= Rabs (r32 p) <= 10000000000)%R).
    { split; [apply Rabs_pos|]. apply Rabs_le. assert (IZR (hi_of k) <= 10000000000)%R by (apply IZR_le; lia). assert (-480000000 <= IZR (low_of k))%R by (apply IZR_le; lia). lra. }
    pose proof (half_error _ m e _ t (limit2_ok _) X G M) as HE. pose proof (coded_m _ m e _ t G M) as [MB _]. destruct G as (E & _). unfold close, coarse. rewrite Q, (proj2 (Z.eqb_neq k 17)) by lia. cbn [orb]. unfold signed_m, limit2, rt_error in *. destruct (Rle_bool_spec 0 (r32 p)) as [P|P].
    + rewrite Rlt_bool_false by exact P. rewrite (Rabs_pos_eq (r32 p)) in * by exact P. lra.
    + rewrite Rlt_bool_true by exact P. rewrite half_opp by lia. rewrite (Rabs_left (r32 p)) in * by exact P. replace (- r32 (half_value m e) - r32 p)%R with (- (r32 (half_value m e) - - r32 p))%R by ring. rewrite Rabs_Ropp. lra.
  - change (IZR (low_of 6)) with 1%R in V. change (IZR (top_of 6)) with 200000%R in V. destruct C as (_ & G & M & _). replace (scaled 6 (r32 p)) with (r32 p) in G by (unfold scaled; change (zero_at 6) with 1%R; rewrite Rlt_bool_false by (rewrite Rabs_pos_eq; lra); change (fact_of 6) with 1; ring).
    replace (limit2 (r32 p)) with 100000 in G by (unfold limit2; rewrite Rle_bool_true by lra; reflexivity). rewrite Rabs_pos_eq in G by lra. pose proof (half_error 100000 m e (r32 p) t ltac:(lia) ltac:(lra) G M) as HE. unfold rt_error in HE.
    unfold settled in S. destruct (Rlt_bool_spec (Rabs (r32 (half_value m e))) (small 6)) as [L|L].
    + right. left. split; [cbn; auto|]. change (zero_val2 6) with (f32_of 1) in S. rewrite (proj1 (f32_of_ok 1 ltac:(lia))) in S. split; [|exact S]. pose proof (small_6 6 ltac:(cbn; auto)). apply Rabs_lt_inv in L. apply Rabs_le_inv in HE. lra.
    + left. unfold close, coarse. rewrite S. cbn [Z.eqb Pos.eqb orb]. rewrite Rlt_bool_false by lra. rewrite (Rabs_pos_eq (r32 p)) by lra. lra.
  - change (IZR (low_of 17)) with 1%R in V. change (IZR (top_of 17)) with 480000000%R in V. destruct C as (_ & G & M & _). replace (scaled 17 (r32 p)) with (- r32 p)%R in G by (unfold scaled; change (zero_at 17) with 1%R; rewrite Rlt_bool_false by (rewrite Rabs_pos_eq; lra); change (fact_of 17) with (-1); ring).
    replace (limit2 (- r32 p)) with 4800 in G by (unfold limit2; rewrite Rle_bool_false by lra; reflexivity). rewrite Rabs_Ropp, Rabs_pos_eq in G by lra. pose proof (half_error 4800 m e (r32 p) t ltac:(lia) ltac:(lra) G M) as HE. unfold rt_error in HE.
    unfold settled in S. destruct (Rlt_bool_spec (Rabs (r32 (half_value m e))) (small 17)) as [L|L].
    + right. left. split; [cbn; auto|]. change (zero_val2 17) with (f32_of 1) in S. rewrite (proj1 (f32_of_ok 1 ltac:(lia))) in S. split; [|exact S]. pose proof (small_6 17 ltac:(cbn; auto)). apply Rabs_lt_inv in L. apply Rabs_le_inv in HE. lra.
    + left. unfold close, coarse. rewrite S. cbn [Z.eqb Pos.eqb orb]. rewrite (Rabs_pos_eq (r32 p)) by lra. lra.
  - change (IZR (low_of 21)) with 0%R in V. change (IZR (top_of 21)) with 1000000%R in V.
    destruct (coded_21 p m e t V C) as (_ & _ & _ & X & HE & N & H1). cbv zeta in *. set (x := (clear21 (r32 p) * 10000)%R) in *. set (h := rnd32 _) in *. pose proof small_21 as S1. pose proof (proj1 small21_ok) as S2. apply near_pos in N; [|lra|apply bpow_ge_0]. rewrite e24_val in N. unfold rt_error in HE. apply Rabs_le_inv in HE.
    assert (H0 : (0 <= h)%R) by lra. unfold settled in S. rewrite (Rabs_pos_eq h H0) in S. destruct (Rlt_bool_spec h (small 21)) as [L|L].
    + right. right. split; [reflexivity|]. change (zero_val2 21) with (f32_of 0) in S. rewrite (proj1 (f32_of_ok 0 ltac:(lia))) in S. split; [|exact S]. unfold x, clear21 in *. destruct (Rlt_bool_spec (r32 p) small21); lra.
    + left. unfold close, coarse. rewrite S. cbn [Z.eqb Pos.eqb orb]. rewrite Rlt_bool_false by lra. rewrite (Rabs_pos_eq (r32 p)) by lra. unfold x, clear21 in *. destruct (Rlt_bool_spec (r32 p) small21); [lra|]. apply Rabs_le. lra.
Qed.

(** ** Again *)
Lemma near_half m e : 0 <= m <= 1048575 -> 0 <= e <= 15 -> near (/ 7000000) (IZR m / T (e - 4)) (r32 (half_value m e)).
Proof. intros M E. destruct (half_value_ok m e ltac:(lia) E) as (_ & N & _). eapply near_weak; [|exact N]. lra. Qed.
Lemma limit2_in s : In (limit2 s) [4800; 100000]. Proof. unfold limit2. destruct (Rle_bool 0 s); cbn; auto. Qed.

Lemma coded_6 p m e t : (1 <= r32 p)%R -> coded p 6 m e t -> good_end 100000 (r32 p) t e /\ (Rabs (t - IZR m) <= /2)%R /\ loop_end 100000 (r32 p) t e m.
Proof.
  intros V (_ & G & M & LE). replace (scaled 6 (r32 p)) with (r32 p) in * by (unfold scaled; change (zero_at 6) with 1%R; rewrite Rlt_bool_false by (rewrite Rabs_pos_eq; lra); change (fact_of 6) with 1; ring).
  replace (limit2 (r32 p)) with 100000 in * by (unfold limit2; rewrite Rle_bool_true by lra; reflexivity). rewrite Rabs_pos_eq in * by lra. auto.
Qed.
Lemma coded_17 p m e t : (1 <= r32 p)%R -> coded p 17 m e t -> good_end 4800 (r32 p) t e /\ (Rabs (t - IZR m) <= /2)%R /\ loop_end 4800 (r32 p) t e m.
Proof.
  intros V (_ & G & M & LE). replace (scaled 17 (r32 p)) with (- r32 p)%R in * by (unfold scaled; change (zero_at 17) with 1%R; rewrite Rlt_bool_false by (rewrite Rabs_pos_eq; lra); change (fact_of 17) with (-1); ring).
  replace (limit2 (- r32 p)) with 4800 in * by (unfold limit2; rewrite Rle_bool_false by lra; reflexivity). rewrite Rabs_Ropp, Rabs_pos_eq in * by lra. auto.
Qed.


Lemma A_again k p q m e t m' e' t' : kind_A k -> coded p k m e t -> (0 <= r32 p)%R \/ 1 <= m -> r32 q = r32 (half_value (signed_m (r32 p) m) e) -> coded q k m' e' t' ->
  ((0 <= r32 q)%R \/ 1 <= m') /\ r32 (half_value (signed_m (r32 q) m') e') = r32 q.
Proof.
  intros A (_ & G & M & _) S Q (_ & G' & M' & _). rewrite (A_scaled k _ A) in G. rewrite (A_scaled k _ A) in G'. pose proof (limit2_ok (r32 p)) as LB. pose proof (coded_m _ m e _ t G M) as [MB _]. pose proof (coded_m _ m' e' _ t' G' M') as [MB' _].
  pose proof (limit2_ok (r32 q)) as LB'. assert (E : 0 <= e <= 15) by apply G. assert (E' : 0 <= e' <= 15) by apply G'. pose proof (near_half m e ltac:(lia) E) as N. pose proof (limit2_in (r32 p)) as LI. pose proof (half_bounds m e ltac:(lia) E) as (HB & _).
  unfold signed_m in *. destruct (Rle_bool_spec 0 (r32 p)) as [P|P].
  - assert (P' : (0 <= r32 q)%R) by (rewrite Q; exact HB). rewrite Rle_bool_true by exact P'. split; [left; exact P'|]. rewrite Q. refine (proj1 (again (limit2 (r32 p)) m e (Rabs (r32 p)) t (r32 (half_value m e)) m' e' t' LI (Rabs_pos _) G M N _ M')).
    rewrite <- Q. replace (limit2 (r32 p)) with (limit2 (r32 q)) by (unfold limit2; rewrite !Rle_bool_true by assumption; reflexivity). rewrite (Rabs_pos_eq (r32 q)) in G' by exact P'. exact G'.
  - assert (M1 : 1 <= m) by (destruct S; [lra|assumption]). rewrite half_opp in Q by lia. assert (HP : (0 < r32 (half_value m e))%R).
    { pose proof (T_pos (e - 4)) as T0. assert (1 <= IZR m)%R by (apply IZR_le; exact M1). assert (Y : (0 < IZR m / T (e - 4))%R) by (unfold Rdiv; apply Rmult_lt_0_compat; [lra|apply Rinv_0_lt_compat, T0]). apply near_pos in N; [|lra|lra]. lra. }
    assert (P' : (r32 q < 0)%R) by lra. rewrite Rle_bool_false by exact P'.
    destruct (again (limit2 (r32 p)) m e (Rabs (r32 p)) t (r32 (half_value m e)) m' e' t' LI (Rabs_pos _) G M N) as [W1 W2]; [|exact M'|].
    + replace (limit2 (r32 p)) with (limit2 (r32 q)) by (unfold limit2; rewrite !Rle_bool_false by assumption; reflexivity). rewrite (Rabs_left (r32 q)) in G' by exact P'. rewrite Q, Ropp_involutive in G'. rewrite Q. exact G'.
    + split; [right; exact (W2 M1)|]. rewrite half_opp by lia. rewrite W1, Q. reflexivity.
Qed.

Lemma settled_one k h q : In k [6; 17] -> (1 <= h <= 1 + 2 / 10000)%R -> settled k h q -> q = 1%R.
Proof.
  intros K H S. pose proof (small_6 k K) as S6. assert (Z : r32 (zero_val2 k) = 1%R) by (destruct K as [<-|[<-|[]]]; apply f32_of_ok; lia). unfold settled in S. rewrite Z in S. rewrite S, Rlt_bool_true; [reflexivity|]. rewrite Rabs_pos_eq by lra.
  destruct (lit32_ok 1001 1000 ltac:(lia) ltac:(lia) ltac:(lia)) as [A _]. apply near_pos in A; [|lra|apply bpow_ge_0]. rewrite e24_val in A. unfold small. assert (zero_at k = 1%R) as -> by (destruct K as [<-|[<-|[]]]; reflexivity). rewrite Rmult_1_r, rnd32_id by apply f32_fmt. lra.
Qed.
(** Either snapped or kept. *)
Lemma settled_two k h q : In k [6; 17] -> settled k h q -> q = 1%R \/ q = h.
Proof. intros K S. assert (Z : r32 (zero_val2 k) = 1%R) by (destruct K as [<-|[<-|[]]]; apply f32_of_ok; lia). unfold settled in S. rewrite Z in S. destruct (Rlt_bool _ _); auto. Qed.

Lemma one_again k l2 p q q' m e t m' e' t' : In k [6; 17] -> In l2 [4800; 100000] -> (1 <= p <= 10000000000)%R -> (1 <= q)%R ->
  good_end l2 p t e -> (Rabs (t - IZR m) <= /2)%R -> settled k (r32 (half_value m e)) q ->
  good_end l2 q t' e' -> (Rabs (t' - IZR m') <= /2)%R -> settled k (r32 (half_value m' e')) q' -> q' = q.
Proof.
  intros K L P Q1 G M S G' M' S'. assert (LB : 4800 <= l2 <= 100000) by (destruct L as [<-|[<-|[]]]; lia). pose proof (coded_m l2 m e p t G M) as [MB _].
  destruct (settled_two k _ _ K S) as [->|Q].
  - apply (settled_one k (r32 (half_value m' e')) q' K); [|exact S']. split; [apply (half_one l2 m' e' 1 t'); [exact LB|lra|exact G'|exact M']|]. pose proof (half_error l2 m' e' 1 t' LB ltac:(lra) G' M') as HE. unfold rt_error in HE.
    assert (LR : (4800 <= IZR l2)%R) by (apply IZR_le; lia). assert (/ IZR l2 <= / 4800)%R by (apply Rinv_le; lra). unfold Rdiv in HE. apply Rabs_le_inv in HE. lra.
  - destruct (again l2 m e p t q m' e' t' L ltac:(lra) G M) as [W _]; [rewrite Q; apply near_half; [lia|apply G]|exact G'|exact M'|]. unfold settled in *. rewrite W in S'. congruence.
Qed.

Lemma way_again k p q : new_kind k -> in_range k p -> way k p q -> is_finite q = true -> exists ip' q', passes k q q' ip' /\ r32 q' = r32 q.
Proof.
  intros K R W F. pose proof R as [FP V]. assert (U : forall q', way k q q' -> in_range k q -> r32 q' = r32 q).
  { intros q' W' [_ V']. destruct W as [-> P Q|m e t A C N2 S Q|m e t -> C S|m e t -> C S|m e t -> C S].
    - destruct W' as [_ P' Q'|m' e' t' A' C' [N2'|N2'] S' Q'|m' e' t' K' C' S'|m' e' t' K' C' S'|m' e' t' K' C' S']; try discriminate; congruence.
    - destruct W' as [_ P' Q'|m' e' t' A' C' N2' S' Q'|m' e' t' -> C' S'|m' e' t' -> C' S'|m' e' t' -> C' S']; [congruence| | | |]; [|exfalso; unfold kind_A in A; repeat (destruct A as [A|A]; [discriminate|]); destruct A..].
      destruct (A_again k p q m e t m' e' t' A C S Q C') as [_ B]. congruence.
    - change (IZR (low_of 6)) with 1%R in V, V'. change (IZR (top_of 6)) with 200000%R in V. destruct W' as [K' P' Q'|m' e' t' A' C' N2' S' Q'|m' e' t' _ C' S'|m' e' t' K' C' S'|m' e' t' K' C' S']; try discriminate; [exfalso; unfold kind_A in A'; repeat (destruct A' as [A'|A']; [discriminate|]); destruct A'|].
      destruct (coded_6 p m e t (proj1 V) C) as (G & M & _). destruct (coded_6 q m' e' t' (proj1 V') C') as (G' & M' & _). apply (one_again 6 100000 (r32 p) (r32 q) (r32 q') m e t m' e' t'); try assumption; [cbn; auto|cbn; auto|lra|lra].
    - change (IZR (low_of 17)) with 1%R in V, V'. change (IZR (top_of 17)) with 480000000%R in V. destruct W' as [K' P' Q'|m' e' t' A' C' N2' S' Q'|m' e' t' K' C' S'|m' e' t' _ C' S'|m' e' t' K' C' S']; try discriminate; [exfalso; unfold kind_A in A'; repeat (destruct A' as [A'|A']; [discriminate|]); destruct A'|].
      destruct (coded_17 p m e t (proj1 V) C) as (G & M & _). destruct (coded_17 q m' e' t' (proj1 V') C') as (G' & M' & _). apply (one_again 17 4800 (r32 p) (r32 q) (r32 q') m e t m' e' t'); try assumption; [cbn; auto|cbn; auto|lra|lra].
    - change (IZR (low_of 21)) with 0%R in V, V'. change (IZR (top_of 21)) with 1000000%R in V, V'. destruct W' as [K' P' Q'|m' e' t' A' C' N2' S' Q'|m' e' t' K' C' S'|m' e' t' K' C' S'|m' e' t' _ C' S']; try discriminate; [exfalso; unfold kind_A in A'; repeat (destruct A' as [A'|A']; [discriminate|]); destruct A'|].
      destruct (coded_21 p m e t V C) as (G & M & _ & X & HE & N & H1). destruct (coded_21 q m' e' t' V' C') as (G' & M' & _ & X' & HE' & N' & H1'). cbv zeta in *. pose proof small_21 as S1. pose proof (proj1 small21_ok) as S2.
      assert (Z : r32 (zero_val2 21) = 0%R) by (apply f32_of_ok; lia). unfold settled in S. rewrite Z in S. destruct (Rlt_bool_spec (Rabs (rnd32 (r32 (half_value m e) / 10000))) (small 21)) as [L|L].
      + rewrite S in *. unfold clear21 in *. rewrite (Rlt_bool_true 0 small21) in * by lra. unfold settled in S'. rewrite Z, Rlt_bool_true in S'; [exact S'|]. apply near_pos in N'; [|lra|apply bpow_ge_0]. rewrite e24_val in N'. unfold rt_error in HE'. apply Rabs_le_inv in HE'. rewrite Rabs_pos_eq by lra. lra.
      + apply near_pos in N as N0; [|lra|apply bpow_ge_0]. rewrite e24_val in N0. rewrite Rabs_pos_eq in L by lra. unfold clear21 in G', X'. rewrite Rlt_bool_false in G', X' by lra.
        pose proof (coded_m 100000 m e _ t G M) as [MB _]. assert (NN : near (/ 7000000) (IZR m / T (e - 4)) (r32 q * 10000)).
        { destruct (half_value_ok m e ltac:(lia) (proj1 G)) as (_ & NH & _). rewrite S. apply (near_trans (/ 16000000) e24 _ _ (r32 (half_value m e))); [lra|apply bpow_ge_0|rewrite e24_val; lra|exact NH|]. replace (r32 (half_value m e)) with (r32 (half_value m e) / 10000 * 10000)%R at 1 by field. apply near_scale. exact N. }
        destruct (again 100000 m e (clear21 (r32 p) * 10000) t (r32 q * 10000) m' e' t' ltac:(cbn; auto) ltac:(lra) G M NN G' M') as [W _]. unfold settled in S'. rewrite W in S'. rewrite Rlt_bool_false in S' by (rewrite <- S, Rabs_pos_eq by lra; lra). congruence. }
  assert (RQ : in_range k q).
  { split; [exact F|]. destruct W as [-> P Q|m e t A C N2 S Q|m e t -> C S|m e t -> C S|m e t -> C S].
    - rewrite Q. change (IZR (low_of 2)) with 0%R. change (IZR (top_of 2)) with 1100%R. lra.
    - assert (TK : top_of k = hi_of k) by (unfold top_of; destruct (Z.eqb_spec k 17) as [->|]; [|reflexivity]; apply kind_A_facts in A; lia). rewrite TK in *. destruct (A_decoded p k m e t A FP V C S) as (_ & _ & _ & RQ & RG). rewrite Q, <- RQ. exact RG.
    - change (top_of 6) with (hi_of 6). change (IZR (low_of 6)) with 1%R in V. change (IZR (top_of 6)) with 200000%R in V. destruct (coded_6 p m e t (proj1 V) C) as (G & M & _). refine (settled_range 6 _ _ ltac:(cbn; auto) _ S). split; [apply (half_one 100000 m e (r32 p) t); [lia|lra|exact G|exact M]|].
      apply (half_high 100000 m e (r32 p) t (hi_of 6)); [lia|change (IZR (hi_of 6)) with 200000%R; lra|vm_compute; split; [reflexivity|discriminate]|left; reflexivity|apply hi_ok|exact G|exact M].
    - change (IZR (low_of 17)) with 1%R in *. change (IZR (top_of 17)) with 480000000%R in *. destruct (coded_17 p m e t (proj1 V) C) as (G & M & _).
      assert (H : (1 <= r32 (half_value m e) <= 480000000)%R). { split; [apply (half_one 4800 m e (r32 p) t); [lia|lra|exact G|exact M]|]. apply (half_high 4800 m e (r32 p) t 480000000); [lia|lra|lia|right; reflexivity|apply (fmt32_int2 234375 11); lia|exact G|exact M]. }
      destruct (settled_two 17 _ _ ltac:(cbn; auto) S) as [->| ->]; lra.
    - change (top_of 21) with (hi_of 21). destruct (coded_21 p m e t V C) as (G & M & _ & X & HE & N & H1). cbv zeta in *. refine (settled_range 21 _ _ ltac:(cbn; auto) _ S).
      assert (H2 : (r32 (half_value m e) <= 10000000000)%R) by (apply (half_high 100000 m e (clear21 (r32 p) * 10000) t 10000000000); [lia|lra|lia|right; reflexivity|apply (hi_ok 3)|exact G|exact M]).
      change (IZR (low_of 21)) with 0%R. split; [rewrite <- (rnd32_id 0 (generic_format_0 _ _)); apply rnd32_le; lra|]. rewrite <- (rnd32_id (IZR (hi_of 21))) by apply hi_ok. apply rnd32_le. change (IZR (hi_of 21)) with 1000000%R. lra. }
  assert (LV : exists ip' q', passes k q q' ip' /\ way k q q'); [|destruct LV as (ip' & q' & PS & W'); exists ip', q'; split; [exact PS|exact (U q' W' RQ)]].
  destruct (new_kind_cases k K) as [A|H].
  - destruct (level_A k q A RQ) as (ip' & q' & PS & W' & _); [|exists ip', q'; auto]. intros m' e' t' C'. destruct W as [-> P Q|m e t _ C N2 S Q|m e t -> C S|m e t -> C S|m e t -> C S]; [left; lra|exact (proj1 (A_again k p q m e t m' e' t' A C S Q C'))|exfalso; unfold kind_A in A; repeat (destruct A as [A|A]; [discriminate|]); destruct A..].
  - destruct (level_rest k q) as (ip' & q' & PS & W' & _); [destruct H as [->|[->| ->]]; cbn; auto|exact RQ|exists ip', q'; auto].
Qed.

(** ** Order *)
Lemma not_A k : kind_A k -> k <> 6 /\ k <> 17 /\ k <> 21.
Proof. intros A. apply kind_A_facts in A. assert (0 <= k <= 10) by apply A. split; [|lia]. intros ->. destruct A as (_ & _ & Z & _). vm_compute in Z. lra. Qed.
Lemma settled_order k h h' q q' : (0 <= r32 (zero_val2 k))%R -> (forall x, small k <= x -> r32 (zero_val2 k) <= x)%R -> (0 <= h <= h')%R -> settled k h q -> settled k h' q' -> (q <= q')%R.
Proof.
  intros Z S H Q Q'. unfold settled in *. rewrite Rabs_pos_eq in Q, Q' by lra. destruct (Rlt_bool_spec h (small k)) as [A|A]; destruct (Rlt_bool_spec h' (small k)) as [B|B]; rewrite Q, Q'; [lra|apply S; exact B|lra|lra].
Qed.
Lemma A_sign k p q m e t : kind_A k -> coded p k m e t -> (0 <= r32 p)%R \/ 1 <= m -> r32 q = r32 (half_value (signed_m (r32 p) m) e) ->
  (0 <= r32 p -> 0 <= r32 q /\ r32 q = r32 (half_value m e) /\ good_end 100000 (r32 p) t e /\ loop_end 100000 (r32 p) t e m)%R /\
  (r32 p < 0 -> r32 q <= 0 /\ r32 q = - r32 (half_value m e) /\ good_end 4800 (- r32 p) t e /\ loop_end 4800 (- r32 p) t e m)%R /\ (Rabs (t - IZR m) <= /2)%R.
Proof.
  intros A (_ & G & M & LE) S Q. rewrite (A_scaled k _ A) in G, LE. pose proof (limit2_ok (r32 p)) as LB. pose proof (coded_m _ m e _ t G M) as [MB _]. pose proof (half_bounds m e ltac:(lia) (proj1 G)) as (HB & _).
  unfold signed_m, limit2 in *. split; [|split; [|exact M]]; intros P.
  - rewrite Rle_bool_true in * by exact P. rewrite (Rabs_pos_eq (r32 p)) in * by exact P. rewrite Q. auto.
  - rewrite Rle_bool_false in * by exact P. rewrite (Rabs_left (r32 p)) in * by exact P. rewrite half_opp in Q by (try lia; apply G). rewrite Q. split; [lra|auto].
Qed.

Lemma way_order k p1 q1 p2 q2 : new_kind k -> in_range k p1 -> in_range k p2 -> way k p1 q1 -> way k p2 q2 -> (r32 p1 <= r32 p2)%R -> (r32 q1 <= r32 q2)%R.
Proof.
  intros K [F1 V1] [F2 V2] W1 W2 P. assert (TB : (IZR (top_of k) <= 10000000000 /\ -480000000 <= IZR (low_of k))%R) by (unfold new_kind in K; split; apply IZR_le; repeat (destruct K as [<-|K]; [vm_compute; discriminate|]); destruct K).
  destruct W1 as [K1 Z1 Q1|m1 e1 t1 A1 C1 N1 S1 Q1|m1 e1 t1 K1 C1 S1|m1 e1 t1 K1 C1 S1|m1 e1 t1 K1 C1 S1]; destruct W2 as [K2 Z2 Q2|m2 e2 t2 A2 C2 N2 S2 Q2|m2 e2 t2 K2 C2 S2|m2 e2 t2 K2 C2 S2|m2 e2 t2 K2 C2 S2].
  all: try (rewrite K1 in K2; discriminate).
  all: try (exfalso; pose proof (not_A k A1); lia).
  all: try (exfalso; pose proof (not_A k A2); lia).
  - lra.
  - rewrite Q1. destruct (A_sign k p2 q2 m2 e2 t2 A2 C2 S2 Q2) as (B & _ & _). apply B. subst k. change (IZR (low_of 2)) with 0%R in V2. lra.
  - subst k. exfalso. change (IZR (low_of 2)) with 0%R in V1. destruct N1 as [N1|N1]; [congruence|lra].
  - destruct (A_sign k p1 q1 m1 e1 t1 A1 C1 S1 Q1) as (B1 & D1 & M1). destruct (A_sign k p2 q2 m2 e2 t2 A2 C2 S2 Q2) as (B2 & D2 & M2). destruct (Rle_or_lt 0 (r32 p1)) as [X1|X1].
    + destruct (B1 X1) as (_ & E1 & G1 & L1). destruct (B2 ltac:(lra)) as (_ & E2 & G2 & L2). rewrite E1, E2. apply (order_half 100000 (r32 p1) t1 e1 m1 (r32 p2) t2 e2 m2); try assumption; [cbn; auto|lra|lra].
    + destruct (D1 X1) as (Y1 & E1 & G1 & L1). destruct (Rle_or_lt 0 (r32 p2)) as [X2|X2]; [destruct (B2 X2) as (Y2 & _); lra|]. destruct (D2 X2) as (_ & E2 & G2 & L2). rewrite E1, E2. apply Ropp_le_contravar. apply (order_half 4800 (- r32 p2) t2 e2 m2 (- r32 p1) t1 e1 m1); try assumption; [cbn; auto|lra|lra].
  - subst k. change (IZR (low_of 6)) with 1%R in *. change (IZR (top_of 6)) with 200000%R in *. destruct (coded_6 p1 m1 e1 t1 (proj1 V1) C1) as (G1 & M1 & L1). destruct (coded_6 p2 m2 e2 t2 (proj1 V2) C2) as (G2 & M2 & L2).
    assert (Z : r32 (zero_val2 6) = 1%R) by (apply f32_of_ok; lia). refine (settled_order 6 _ _ _ _ _ _ _ S1 S2); [rewrite Z; lra|rewrite Z; pose proof (small_6 6 ltac:(cbn; auto)); intros; lra|]. split; [pose proof (half_one 100000 m1 e1 (r32 p1) t1 ltac:(lia) (proj1 V1) G1 M1); lra|]. apply (order_half 100000 (r32 p1) t1 e1 m1 (r32 p2) t2 e2 m2); try assumption; [cbn; auto|lra|lra].
  - subst k. change (IZR (low_of 17)) with 1%R in *. change (IZR (top_of 17)) with 480000000%R in *. destruct (coded_17 p1 m1 e1 t1 (proj1 V1) C1) as (G1 & M1 & L1). destruct (coded_17 p2 m2 e2 t2 (proj1 V2) C2) as (G2 & M2 & L2).
    assert (Z : r32 (zero_val2 17) = 1%R) by (apply f32_of_ok; lia). refine (settled_order 17 _ _ _ _ _ _ _ S1 S2); [rewrite Z; lra|rewrite Z; pose proof (small_6 17 ltac:(cbn; auto)); intros; lra|]. split; [pose proof (half_one 4800 m1 e1 (r32 p1) t1 ltac:(lia) (proj1 V1) G1 M1); lra|]. apply (order_half 4800 (r32 p1) t1 e1 m1 (r32 p2) t2 e2 m2); try assumption; [cbn; auto|lra|lra].
  - subst k. destruct (coded_21 p1 m1 e1 t1 V1 C1) as (G1 & M1 & L1 & X1 & _ & _ & H1). destruct (coded_21 p2 m2 e2 t2 V2 C2) as (G2 & M2 & L2 & X2 & _ & _ & H2). cbv zeta in *.
    assert (Z : r32 (zero_val2 21) = 0%R) by (apply f32_of_ok; lia). refine (settled_order 21 _ _ _ _ _ _ _ S1 S2); [rewrite Z; lra|rewrite Z; pose proof small_21; intros; lra|]. split; [rewrite <- (rnd32_id 0 (generic_format_0 _ _)); apply rnd32_le; lra|]. apply rnd32_le.
    enough (r32 (half_value m1 e1) <= r32 (half_value m2 e2))%R by lra. apply (order_half 100000 (clear21 (r32 p1) * 10000) t1 e1 m1 (clear21 (r32 p2) * 10000) t2 e2 m2); try assumption; [cbn; auto| |lra]. split; [lra|]. unfold clear21. destruct (Rlt_bool_spec (r32 p1) small21); destruct (Rlt_bool_spec (r32 p2) small21); lra.
Qed.
