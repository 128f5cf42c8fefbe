From Coq Require Import ZArith List Lia Bool.
From Verif Require Import Bits Dates DatesSpec DatesCal DatesFacts.
Import ListNotations.
Open Scope Z_scope.

Ltac nnq :=
  repeat match goal with
  | |- context [?a /f ?b] => rewrite (Z.quot_div_nonneg a b) by lia
  | |- context [?a %f ?b] => rewrite (Z.rem_mod_nonneg a b) by lia
  end.

(** * Base 8 digits *)
Lemma dec8_enc8 : forall t, 0 <= t -> dec8 (enc8 t) = t.
Proof.
  intros t T. unfold dec8, enc8. rewrite (Z.quot_div_nonneg t) by lia. rewrite (Z.rem_mod_nonneg t) by lia.
  assert (0 <= t / 8) by (apply Z.div_pos; lia). assert (0 <= t mod 8 < 8) by (apply Z.mod_pos_bound; lia).
  nnq. Z.div_mod_to_equations; lia.
Qed.
Lemma enc8_bounds : forall t, 0 <= t -> 0 <= enc8 t /\ 4 * enc8 t <= 5 * t + 7.
Proof.
  intros t T. unfold enc8. nnq. Z.div_mod_to_equations; lia.
Qed.

(** * Printable dates *)
Lemma mdays_ok : forall y m d, 0 <= y -> 1 <= m <= 12 ->
  (d <=? mdays m) && feb29_ok y m d = (d <=? month_len y m).
Proof.
  intros y m d Y M. unfold feb29_ok.
  assert (B : bissextile y = leap y).
  { unfold bissextile, leap. rewrite !Z.rem_mod_nonneg by lia. reflexivity. }
  rewrite B, month_len_leap.
  assert (C : m = 1 \/ m = 2 \/ m = 3 \/ m = 4 \/ m = 5 \/ m = 6 \/ m = 7 \/ m = 8 \/ m = 9 \/ m = 10 \/ m = 11 \/ m = 12) by lia.
  repeat (destruct C as [->|C]); try subst m.
  all: match goal with |- context [mdays ?a] => let v := eval vm_compute in (mdays a) in change (mdays a) with v end.
  all: match goal with |- context [month_len 4 ?a] =>
     let v := eval vm_compute in (month_len 4 a) in change (month_len 4 a) with v;
     let v := eval vm_compute in (month_len 1 a) in change (month_len 1 a) with v end.
  2: { destruct (leap y); change (2 =? 2) with true; cbn [andb]; destruct (Z.leb_spec d 29); destruct (Z.eqb_spec d 29);
       cbn [andb negb orb]; try (destruct (Z.leb_spec d 28)); try reflexivity; lia. }
  all: match goal with |- context [?a =? 2] => change (a =? 2) with false end; cbn [andb negb orb]; rewrite andb_true_r; destruct (leap y); reflexivity.
Qed.

Lemma validtme_ok : forall y m d z, 0 <= y < 10000 -> 0 <= z < 24 -> 1 <= m <= 12 -> 1 <= d <= month_len y m ->
  validtme y m d z = true /\ feb29_ok y m d = true.
Proof.
  intros y m d z Y Z M D. pose proof (mdays_ok y m d ltac:(lia) M) as E.
  replace (d <=? month_len y m) with true in E by (symmetry; apply Z.leb_le; lia).
  apply andb_true_iff in E. destruct E as [E1 E2]. split; [|exact E2]. unfold validtme.
  rewrite E1. rewrite !andb_true_iff, !Z.leb_le, !Z.ltb_lt. intuition lia.
Qed.
Lemma validtm_ok : forall y m d z, 1900 <= y < 2236 -> 0 <= z < 24 -> 1 <= m <= 12 -> 1 <= d <= month_len y m ->
  validtm y m d z = true /\ feb29_ok y m d = true.
Proof.
  intros y m d z Y Z M D. pose proof (mdays_ok y m d ltac:(lia) M) as E.
  replace (d <=? month_len y m) with true in E by (symmetry; apply Z.leb_le; lia).
  apply andb_true_iff in E. destruct E as [E1 E2]. split; [|exact E2]. unfold validtm.
  rewrite E1. rewrite !andb_true_iff, !Z.leb_le, !Z.ltb_lt. intuition lia.
Qed.

Definition digits (a : moment) : Prop :=
  pdate a /f 10000 %f 10000 = yr a /\ pdate a /f 100 %f 100 = mon a /\ pdate a %f 100 = day a /\
  ptime a /f 1000000 %f 100 = hr a /\ ptime a /f 10000 %f 100 = mnt a /\ ptime a /f 100 %f 100 = sec a /\ ptime a %f 100 = 0.

Lemma digits_ok : forall a, 0 <= yr a < 10000 -> 0 <= mon a < 100 -> 0 <= day a < 100 ->
  0 <= hr a < 100 -> 0 <= mnt a < 100 -> 0 <= sec a < 100 -> digits a.
Proof.
  intros a Y M D H MI S. unfold digits, pdate, ptime.
  rewrite !(Z.quot_div_nonneg (_ + day a)), !(Z.quot_div_nonneg (_ + sec a * 100)) by lia.
  rewrite !Z.rem_mod_nonneg by (try lia; apply Z.div_pos; lia).
  repeat split; Z.div_mod_to_equations; lia.
Qed.
Lemma moment_digits : forall a, is_moment a -> digits a.
Proof.
  intros a [[Y [M D]] [H [MI S]]]. pose proof (month_len_pos (yr a) (mon a) M). apply digits_ok; lia.
Qed.

(** * Years and days *)
Definition dn (a : moment) : Z := day_number (yr a) (mon a) (day a).

Lemma days_in_months_mono : forall y n k, (n <= k)%nat -> (k <= 12)%nat -> days_in_months y n <= days_in_months y k.
Proof.
  intros y n k NK K. induction NK as [|k NK IH]; [lia|].
  cbn [days_in_months]. pose proof (month_len_pos y (Z.of_nat k + 1) ltac:(lia)). lia.
Qed.
Lemma dn_year : forall y m d, 0 <= y -> 1 <= m <= 12 -> 1 <= d <= month_len y m ->
  days_before_year (Z.to_nat y) <= day_number y m d < days_before_year (Z.to_nat (y + 1)).
Proof.
  intros y m d Y M D. unfold day_number. replace (Z.to_nat (y + 1)) with (S (Z.to_nat y)) by lia.
  cbn [days_before_year]. rewrite Z2Nat.id by lia. rewrite <- days_in_months_12.
  pose proof (days_in_months_mono y 0 (Z.to_nat (m - 1)) ltac:(lia) ltac:(lia)) as B1. cbn [days_in_months] in B1.
  pose proof (days_in_months_mono y (S (Z.to_nat (m - 1))) 12 ltac:(lia) ltac:(lia)) as B2.
  rewrite days_in_months_12 in B2 |- *. cbn [days_in_months] in B2.
  replace (Z.of_nat (Z.to_nat (m - 1)) + 1) with m in B2 by lia. lia.
Qed.
Lemma days_before_mono : forall y z, 0 <= y <= z -> days_before_year (Z.to_nat y) <= days_before_year (Z.to_nat z).
Proof.
  intros y z B. rewrite !days_before_closed. rewrite !Z2Nat.id by lia. Z.div_mod_to_equations; lia.
Qed.
(** A year bound is a day bound. *)
Lemma year_split : forall k a, 0 <= k -> is_moment a ->
  (yr a < k <-> dn a < days_before_year (Z.to_nat k)).
Proof.
  intros k a K [[Y [M D]] _]. unfold dn. pose proof (dn_year (yr a) (mon a) (day a) ltac:(lia) M D) as B. split; intros H.
  - pose proof (days_before_mono (yr a + 1) k ltac:(lia)). lia.
  - destruct (Z_lt_le_dec (yr a) k) as [|L]; [assumption|].
    pose proof (days_before_mono k (yr a) ltac:(lia)). lia.
Qed.
Lemma year_days : days_before_year (Z.to_nat 1900) = 693961 /\ days_before_year (Z.to_nat 1980) = 723180 /\
  days_before_year (Z.to_nat 2000) = 730485 /\ days_before_year (Z.to_nat 2236) = 816682 /\ days_before_year (Z.to_nat 10000) = 3652425.
Proof. rewrite !days_before_closed. rewrite !Z2Nat.id by lia. vm_compute. repeat split. Qed.

Lemma dn_range : forall a, is_moment a -> 0 <= dn a < 3652425.
Proof.
  intros a A. destruct year_days as (_ & _ & _ & _ & E). rewrite <- E. split.
  - destruct A as [[Y [M D]] _]. unfold dn. pose proof (dn_year (yr a) (mon a) (day a) ltac:(lia) M D) as B.
    pose proof (days_before_mono 0 (yr a) ltac:(lia)) as B0. change (days_before_year (Z.to_nat 0)) with 0 in B0. lia.
  - apply year_split; [lia|exact A|]. destruct A as [[Y _] _]. lia.
Qed.
Lemma dn_basic : forall a, is_moment a -> (1900 <= yr a <= 2235 <-> 693961 <= dn a < 816682).
Proof.
  intros a A. destruct year_days as (E1 & _ & _ & E2 & _).
  pose proof (year_split 1900 a ltac:(lia) A) as Y1. pose proof (year_split 2236 a ltac:(lia) A) as Y2.
  rewrite E1 in Y1. rewrite E2 in Y2. lia.
Qed.
Lemma dn_1980 : forall a, is_moment a -> (1980 <= yr a <-> 723180 <= dn a).
Proof.
  intros a A. destruct year_days as (_ & E1 & _).
  pose proof (year_split 1980 a ltac:(lia) A) as Y1. rewrite E1 in Y1. lia.
Qed.
Lemma dn_2000 : forall a, is_moment a -> (2000 <= yr a <-> 730485 <= dn a).
Proof.
  intros a A. destruct year_days as (_ & _ & E1 & _).
  pose proof (year_split 2000 a ltac:(lia) A) as Y1. rewrite E1 in Y1. lia.
Qed.

Lemma jd_dn : forall a, is_moment a -> jd (yr a) (mon a) (day a) = 1721060 + dn a.
Proof. intros a [[Y [M D]] _]. rewrite jd_day by lia. reflexivity. Qed.
Lemma datec_dn : forall a, is_moment a -> datec (1721060 + dn a) = (yr a, mon a, day a).
Proof. intros a A. rewrite <- jd_dn by exact A. destruct A as [[Y [M D]] _]. apply datec_jd; lia. Qed.

(** The three counts: seconds (specification), 5 second steps from 1980 (true
    date), hours (extended true date). *)
Definition td (a : moment) : Z := (dn a - 723180) * 17280 + hr a * 720 + (mnt a * 60 + sec a) / 5.
Definition eh (a : moment) : Z := dn a * 24 + hr a.
Lemma td_seconds : forall a, is_moment a -> td a = seconds a / 5 - 723180 * 17280.
Proof.
  intros a _. unfold td, seconds. fold (dn a).
  replace (dn a * 86400 + hr a * 3600 + mnt a * 60 + sec a) with (mnt a * 60 + sec a + (dn a * 17280 + hr a * 720) * 5) by lia.
  rewrite Z.div_add by lia. lia.
Qed.
Lemma sub_hour : forall a, is_moment a -> 0 <= (mnt a * 60 + sec a) / 5 < 720.
Proof. intros a [_ [H [M S]]]. Z.div_mod_to_equations; lia. Qed.

(** Breaking a true date down. *)
Lemma td_parts : forall a, is_moment a -> 1900 <= yr a ->
  jd1900 + (td a - td1900) /f 17280 = 1721060 + dn a /\ (td a - td1900) %f 17280 /f 720 = hr a /\
  (td a - td1900) %f 17280 - hr a * 720 = (mnt a * 60 + sec a) / 5 /\ 0 <= td a - td1900.
Proof.
  intros a A Y. pose proof (sub_hour a A) as SH. destruct year_days as (E & _).
  assert (B : 693961 <= dn a).
  { pose proof (year_split 1900 a ltac:(lia) A) as Y1. rewrite E in Y1. lia. }
  destruct A as [_ [H _]]. unfold jd1900, td1900, td. set (q := (mnt a * 60 + sec a) / 5) in *. clearbody q.
  replace ((dn a - 723180) * 17280 + hr a * 720 + q - -504904320) with ((dn a - 693961) * 17280 + (hr a * 720 + q)) by lia.
  rewrite (Z.quot_div_nonneg (_ + _) 17280) by lia. rewrite (Z.rem_mod_nonneg (_ + _) 17280) by lia.
  replace ((dn a - 693961) * 17280 + (hr a * 720 + q)) with (hr a * 720 + q + (dn a - 693961) * 17280) by lia.
  rewrite Z.div_add, Z.mod_add by lia. rewrite Z.div_small, Z.mod_small by lia.
  rewrite Z.quot_div_nonneg by lia. replace (hr a * 720 + q) with (q + hr a * 720) by lia.
  rewrite Z.div_add by lia. rewrite Z.div_small by lia. lia.
Qed.
(** Restoring minutes and seconds. *)
Lemma sec_parts : forall mi s, 0 <= mi < 60 -> 0 <= s < 60 -> s mod 5 = 0 ->
  ((mi * 60 + s) / 5 * 5) /f 60 = mi /\ ((mi * 60 + s) / 5 * 5) %f 60 = s.
Proof.
  intros mi s M S E.
  assert (X : (mi * 60 + s) / 5 * 5 = mi * 60 + s) by (Z.div_mod_to_equations; lia). rewrite X.
  nnq. Z.div_mod_to_equations; lia.
Qed.

Lemma eh_parts : forall a, is_moment a -> eh a /f 24 = dn a /\ eh a %f 24 = hr a /\ 0 <= eh a < 87658200.
Proof.
  intros a A. pose proof (dn_range a A) as B. destruct A as [_ [H _]]. unfold eh.
  nnq. replace (dn a * 24 + hr a) with (hr a + dn a * 24) by lia. rewrite Z.div_add, Z.mod_add by lia.
  rewrite Z.div_small, Z.mod_small by lia. lia.
Qed.
Lemma td_nonneg : forall a, is_moment a -> 1980 <= yr a -> 0 <= td a.
Proof.
  intros a A Y. pose proof (sub_hour a A). apply dn_1980 in Y; [|exact A]. destruct A as [_ [H0 _]]. unfold td. lia.
Qed.
Lemma td_max : forall a, is_moment a -> yr a <= 2235 -> td a <= 1615714559.
Proof.
  intros a A Y. pose proof (sub_hour a A). destruct year_days as (_ & _ & _ & E & _).
  pose proof (year_split 2236 a ltac:(lia) A) as Y1. rewrite E in Y1. destruct A as [_ [H0 _]]. unfold td. lia.
Qed.
Lemma td_min : forall a, is_moment a -> 1900 <= yr a -> td1900 <= td a.
Proof. intros a A Y. destruct (td_parts a A Y) as (_ & _ & _ & H). lia. Qed.
Lemma td_hour : forall a, is_moment a -> whole_hour a -> td a = eh a * 720 - 723180 * 17280.
Proof. intros a A [M S]. unfold td, eh. rewrite M, S. change ((0 * 60 + 0) / 5) with 0. lia. Qed.

Lemma validtd_td : forall a, is_moment a -> 1900 <= yr a -> (1980 <= yr a \/ whole_hour a) -> validtd (td a) = true.
Proof.
  intros a A Y W. unfold validtd. destruct (Z_lt_le_dec (td a) 0) as [L|L].
  2:{ replace (0 <=? td a) with true by (symmetry; apply Z.leb_le; lia). reflexivity. }
  destruct W as [W|W]; [pose proof (td_nonneg a A W); lia|].
  apply orb_true_iff. right. rewrite !andb_true_iff, Z.ltb_lt, Z.leb_le, Z.eqb_eq.
  pose proof (td_min a A Y) as B. split; [split; [exact L|exact B]|].
  rewrite Z.rem_mod_nonneg by lia. rewrite (td_hour a A W). unfold td1900.
  replace (eh a * 720 - 723180 * 17280 - -504904320) with ((eh a - 16655064) * 720) by lia. apply Z.mod_mul. lia.
Qed.

Lemma int32_ext : forall v, 0 <= v < 110000000 ->
  int32 (v + troisg) = v + troisg - 2 ^ 32 /\ int32 (v + troisg) mod 2 ^ 32 = v + troisg /\ int32 (v + troisg) < -1 /\ - 2 ^ 31 <= int32 (v + troisg).
Proof.
  intros v V. unfold int32, troisg. rewrite (Z.mod_small (v + 3000000000)) by lia.
  destruct (Z.ltb_spec (v + 3000000000) (2 ^ 31)) as [L|L]; [lia|].
  repeat split; try lia. replace (v + 3000000000 - 2 ^ 32) with (v + 3000000000 + (-1) * 2 ^ 32) by lia.
  rewrite Z.mod_add by lia. apply Z.mod_small. lia.
Qed.
