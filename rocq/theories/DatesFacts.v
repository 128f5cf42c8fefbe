From Coq Require Import ZArith List Lia Bool.
From Verif Require Import Bits Dates DatesSpec DatesCal.
Import ListNotations.
Open Scope Z_scope.

(** * datec inverts jd *)
Lemma leap_cases : forall y, leap y = true <-> (y mod 4 = 0 /\ (y mod 100 <> 0 \/ y mod 400 = 0)).
Proof.
  intros y. unfold leap. rewrite orb_true_iff, andb_true_iff, negb_true_iff, !Z.eqb_eq, Z.eqb_neq.
  split; [intros [[A B]|A]|intros [A [B|B]]]; try tauto.
  split; [|tauto]. Z.div_mod_to_equations; lia.
Qed.

(** March based months: mm = 1 for March, ..., 12 for February; Y counts the
    years from March. *)
Lemma datec_core : forall Y mm d, 0 <= Y -> 1 <= mm <= 12 ->
  1 <= d <= 31 -> d - 31 + (367 * mm) / 12 <= 365 ->
  (d - 31 + (367 * mm) / 12 = 365 -> leap (Y + 1) = true) ->
  (mm <> 12 -> d + (367 * mm) / 12 <= (367 * (mm + 1)) / 12) ->
  datec (d - 32075 + 1461 * Y /f 4 + 367 * mm /f 12 - 3 * ((Y + 100) /f 100) /f 4)
  = (Y - 4800 + mm /f 11, mm + 2 - 12 * (mm /f 11), d).
Proof.
  intros Y mm d HY HM HD V1 V2 V3.
  rewrite (Z.quot_div_nonneg (1461 * Y)), (Z.quot_div_nonneg (367 * mm)), (Z.quot_div_nonneg (Y + 100)) by lia.
  rewrite (Z.quot_div_nonneg (3 * ((Y + 100) / 100))) by (try lia; Z.div_mod_to_equations; lia).
  rewrite leap_cases in V2.
  set (v := d - 31 + 367 * mm / 12) in *.
  pose proof (Z.div_mod Y 100 ltac:(lia)) as YE. pose proof (Z.mod_pos_bound Y 100 ltac:(lia)) as RB.
  assert (CE : (Y + 100) / 100 = Y / 100 + 1) by (Z.div_mod_to_equations; lia). rewrite CE.
  assert (C0 : 0 <= Y / 100) by (apply Z.div_pos; lia).
  set (C := Y / 100 + 1) in *. set (R := Y mod 100) in *.
  assert (Y4 : 1461 * Y / 4 = 36525 * (C - 1) + 1461 * R / 4).
  { replace (1461 * Y) with (1461 * R + (36525 * (C - 1)) * 4) by lia. rewrite Z.div_add by lia. lia. }
  rewrite Y4.
  assert (V0 : 0 <= v) by (unfold v; Z.div_mod_to_equations; lia).
  (* leap years in terms of R and C *)
  assert (L4 : v = 365 -> R mod 4 = 3).
  { intros E. destruct (V2 E) as [A _]. unfold R. clear - A HY. Z.div_mod_to_equations; lia. }
  assert (LC : v = 365 -> R = 99 -> C mod 4 = 0).
  { intros E E'. destruct (V2 E) as [_ [A|A]].
    - exfalso. apply A. replace (Y + 1) with (C * 100) by lia. apply Z.mod_mul. lia.
    - replace (Y + 1) with (C * 100) in A by lia. clear - A. Z.div_mod_to_equations; lia. }
  set (w := v + 1461 * R / 4).
  assert (W : 0 <= w <= 36524 /\ (w = 36524 -> C mod 4 = 0)).
  { unfold w. assert (v <= 365) by exact V1. split; [Z.div_mod_to_equations; lia|].
    intros E. apply LC; Z.div_mod_to_equations; lia. }
  destruct W as [WB WC].
  assert (CP : 1 <= C) by lia.
  replace (d - 32075 + (36525 * (C - 1) + 1461 * R / 4) + 367 * mm / 12 - 3 * C / 4)
    with (w + 36525 * C - 3 * C / 4 - 68569) by (unfold w, v; lia).
  assert (I : 4000 * (w + 1) / 1461001 = R).
  { symmetry. apply (Z.div_unique _ _ _ (4000 * (w + 1) - 1461001 * R)); [|lia]. left. unfold w.
    assert (v <= 365) by exact V1.
    assert (X : R mod 4 = 3 \/ v <= 364) by lia. clear - RB X H V0. Z.div_mod_to_equations; lia. }
  unfold datec. cbv zeta.
  replace (w + 36525 * C - 3 * C / 4 - 68569 + 68569) with (w + 36525 * C - 3 * C / 4) by lia.
  assert (N : 4 * (w + 36525 * C - 3 * C / 4) /f 146097 = C).
  { rewrite Z.quot_div_nonneg by (try lia; Z.div_mod_to_equations; lia).
    symmetry. apply (Z.div_unique _ _ _ (4 * (w + 36525 * C - 3 * C / 4) - 146097 * C)); [|lia]. left.
    assert (X : C mod 4 = 0 \/ w <= 36523) by lia. clear - X WB CP. Z.div_mod_to_equations; lia. }
  rewrite N.
  assert (L : w + 36525 * C - 3 * C / 4 - (146097 * C + 3) /f 4 = w).
  { rewrite Z.quot_div_nonneg by lia. clear. Z.div_mod_to_equations; lia. }
  rewrite L.
  rewrite (Z.quot_div_nonneg (4000 * (w + 1))) by lia. rewrite I.
  rewrite (Z.quot_div_nonneg (1461 * R)) by lia.
  replace (w - 1461 * R / 4 + 31) with (d + 367 * mm / 12) by (unfold w, v; lia).
  assert (J : 80 * (d + 367 * mm / 12) /f 2447 = mm /\ 2447 * mm /f 80 = 367 * mm / 12).
  { rewrite !Z.quot_div_nonneg by (try lia; Z.div_mod_to_equations; lia).
    assert (D : mm = 1 \/ mm = 2 \/ mm = 3 \/ mm = 4 \/ mm = 5 \/ mm = 6 \/ mm = 7 \/ mm = 8 \/ mm = 9 \/ mm = 10 \/ mm = 11 \/ mm = 12) by lia.
    repeat (destruct D as [->|D]); try subst mm; (split; [|reflexivity]).
    all: clear - V1 V3 HD; unfold v in V1.
    all: try (specialize (V3 ltac:(lia))).
    all: repeat match goal with H : context [367 * ?a / 12] |- _ => let v := eval vm_compute in (367 * a / 12) in change (367 * a / 12) with v in H end.
    all: match goal with |- context [367 * ?a / 12] => let v := eval vm_compute in (367 * a / 12) in change (367 * a / 12) with v end.
    all: repeat match goal with H : context [367 * ?a / 12] |- _ => let v := eval vm_compute in (367 * a / 12) in change (367 * a / 12) with v in H end.
    all: Z.div_mod_to_equations; lia. }
  destruct J as [J1 J2]. rewrite J1, J2. f_equal; [f_equal|]; lia.
Qed.

Lemma datec_jd : forall y m d, 0 <= y -> 1 <= m <= 12 -> 1 <= d <= month_len y m -> datec (jd y m d) = (y, m, d).
Proof.
  intros y m d Y M D. unfold jd.
  assert (C : m = 1 \/ m = 2 \/ m = 3 \/ m = 4 \/ m = 5 \/ m = 6 \/ m = 7 \/ m = 8 \/ m = 9 \/ m = 10 \/ m = 11 \/ m = 12) by lia.
  rewrite month_len_leap in D.
  repeat (destruct C as [->|C]); try subst m.
  all: match goal with |- context [(?a - 14) /f 12] => let v := eval vm_compute in ((a - 14) /f 12) in change ((a - 14) /f 12) with v end.
  all: match goal with |- context [367 * ?e /f 12] => let v := eval vm_compute in e in change e with v end.
  all: match type of D with context [month_len 4 ?e] => 
     let v := eval vm_compute in (month_len 4 e) in change (month_len 4 e) with v in D;
     let v := eval vm_compute in (month_len 1 e) in change (month_len 1 e) with v in D end.
  1-2: replace (y + 4900 + -1) with (y + 4800 + -1 + 100) by lia.
  3-12: replace (y + 4900 + 0) with (y + 4800 + 0 + 100) by lia.
  all: rewrite datec_core.
  all: try (match goal with |- (_, _, _) = _ => idtac end;
    match goal with |- context [?a /f 11] => let v := eval vm_compute in (a /f 11) in change (a /f 11) with v end;
    f_equal; [f_equal; lia]).
  all: repeat match goal with |- context [367 * ?a / 12] => let v := eval vm_compute in (367 * a / 12) in change (367 * a / 12) with v end.
  all: try (destruct (leap y) eqn:LY; lia).
  (* February 29 *)
  intros E29. destruct (leap y) eqn:LY; [|lia]. replace (y + 4800 + -1 + 1) with (y + 12 * 400) by lia.
  rewrite leap_cases in LY |- *. clear - LY. Z.div_mod_to_equations; lia.
Qed.

Lemma days_in_months_12 : forall y, days_in_months y 12 = year_len y.
Proof. intros y. rewrite days_in_months_leap. unfold year_len. destruct (leap y); reflexivity. Qed.
Lemma month_len_pos : forall y m, 1 <= m <= 12 -> 28 <= month_len y m <= 31.
Proof.
  intros y m M. rewrite month_len_leap.
  assert (C : m = 1 \/ m = 2 \/ m = 3 \/ m = 4 \/ m = 5 \/ m = 6 \/ m = 7 \/ m = 8 \/ m = 9 \/ m = 10 \/ m = 11 \/ m = 12) by lia.
  repeat (destruct C as [->|C]); try subst m; destruct (leap y);
    match goal with |- context [month_len ?a ?b] => let v := eval vm_compute in (month_len a b) in change (month_len a b) with v end; lia.
Qed.

(** Every day has a date. *)
Lemma every_day : forall n, exists y m d,
  0 <= y /\ 1 <= m <= 12 /\ 1 <= d <= month_len y m /\ day_number y m d = Z.of_nat n.
Proof.
  induction n as [|n IH].
  - exists 0, 1, 1. split; [lia|]. split; [lia|]. split; [vm_compute; split; discriminate|reflexivity].
  - destruct IH as (y & m & d & Y & M & D & E).
    destruct (Z.eq_dec d (month_len y m)) as [->|N].
    + destruct (Z.eq_dec m 12) as [->|N].
      * exists (y + 1), 1, 1. pose proof (month_len_pos (y + 1) 1 ltac:(lia)). split; [lia|]. split; [lia|]. split; [lia|].
        unfold day_number in *. replace (Z.to_nat (y + 1)) with (S (Z.to_nat y)) by lia.
        cbn [days_before_year]. rewrite Z2Nat.id by lia. rewrite <- days_in_months_12.
        change (Z.to_nat (12 - 1)) with 11%nat in E. change (Z.to_nat (1 - 1)) with 0%nat.
        change (days_in_months y 12) with (days_in_months y 11 + month_len y (Z.of_nat 11 + 1)).
        change (Z.of_nat 11 + 1) with 12. change (days_in_months (y + 1) 0) with 0. lia.
      * exists y, (m + 1), 1. pose proof (month_len_pos y (m + 1) ltac:(lia)). split; [lia|]. split; [lia|]. split; [lia|].
        unfold day_number in *. replace (Z.to_nat (m + 1 - 1)) with (S (Z.to_nat (m - 1))) by lia.
        cbn [days_in_months]. replace (Z.of_nat (Z.to_nat (m - 1)) + 1) with m by lia. lia.
    + exists y, m, (d + 1). split; [lia|]. split; [lia|]. split; [lia|]. unfold day_number in *. lia.
Qed.

Lemma datec_cover : forall j, jd0 <= j -> exists y m d,
  datec j = (y, m, d) /\ 0 <= y /\ 1 <= m <= 12 /\ 1 <= d <= month_len y m /\ jd y m d = j.
Proof.
  intros j J. destruct (every_day (Z.to_nat (j - jd0))) as (y & m & d & Y & M & D & E).
  exists y, m, d. assert (jd y m d = j) as <- by (rewrite jd_day by lia; lia).
  rewrite datec_jd by assumption. repeat split; lia.
Qed.
