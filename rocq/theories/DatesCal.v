From Coq Require Import ZArith List Lia Bool.
From Verif Require Import Bits Dates DatesSpec.
Import ListNotations.
Open Scope Z_scope.

Ltac nonneg_quot :=
  repeat match goal with
  | |- context [?a /f ?b] => rewrite (Z.quot_div_nonneg a b) by (try lia; Z.div_mod_to_equations; lia)
  | |- context [?a %f ?b] => rewrite (Z.rem_mod_nonneg a b) by (try lia; Z.div_mod_to_equations; lia)
  end.

(** Closed form of the number of days before a year. *)
Lemma days_before_closed : forall n, let y := Z.of_nat n in
  days_before_year n = 365 * y + (y + 3) / 4 - (y + 99) / 100 + (y + 399) / 400.
Proof.
  induction n as [|n IH]; [reflexivity|].
  cbn [days_before_year]. rewrite IH. unfold year_len, leap. cbv zeta.
  replace (Z.of_nat (S n)) with (Z.of_nat n + 1) by lia.
  set (y := Z.of_nat n). clearbody y.
  destruct (Z.eqb_spec (y mod 4) 0); destruct (Z.eqb_spec (y mod 100) 0); destruct (Z.eqb_spec (y mod 400) 0);
    cbn [andb orb negb]; Z.div_mod_to_equations; lia.
Qed.

Lemma month_len_leap : forall y m, month_len y m = if leap y then month_len 4 m else month_len 1 m.
Proof. intros. unfold month_len. change (leap 4) with true. change (leap 1) with false. destruct (leap y); reflexivity. Qed.
Lemma days_in_months_leap : forall y n, days_in_months y n = if leap y then days_in_months 4 n else days_in_months 1 n.
Proof.
  intros y n. induction n as [|n IH]; cbn [days_in_months]; [destruct (leap y); reflexivity|].
  rewrite IH, month_len_leap. destruct (leap y); reflexivity.
Qed.

Lemma jd_day : forall y m d, 0 <= y -> 1 <= m <= 12 -> jd y m d = jd0 + day_number y m d.
Proof.
  intros y m d Y M. unfold day_number. pose proof (days_before_closed (Z.to_nat y)) as B.
  cbv zeta in B. rewrite Z2Nat.id in B by lia. rewrite B. clear B. unfold jd, jd0.
  assert (C : m = 1 \/ m = 2 \/ m = 3 \/ m = 4 \/ m = 5 \/ m = 6 \/ m = 7 \/ m = 8 \/ m = 9 \/ m = 10 \/ m = 11 \/ m = 12) by lia.
  rewrite days_in_months_leap.
  unfold leap at 1.
  repeat (destruct C as [->|C]); try subst m.
  all: match goal with |- context [(?a - 14) /f 12] => let v := eval vm_compute in ((a - 14) /f 12) in change ((a - 14) /f 12) with v end.
  all: match goal with |- context [Z.to_nat ?e] => let v := eval vm_compute in (Z.to_nat e) in change (Z.to_nat e) with v end.
  all: match goal with |- context [days_in_months 4 ?n] =>
         let v := eval vm_compute in (days_in_months 4 n) in change (days_in_months 4 n) with v;
         let v := eval vm_compute in (days_in_months 1 n) in change (days_in_months 1 n) with v end.
  all: nonneg_quot.
  all: destruct (Z.eqb_spec (y mod 4) 0); destruct (Z.eqb_spec (y mod 100) 0); destruct (Z.eqb_spec (y mod 400) 0);
    cbn [andb orb negb]; Z.div_mod_to_equations; lia.
Qed.

