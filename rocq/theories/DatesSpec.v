(** Specification of dates, independent of Dates.v: the gregorian calendar as
    month lengths, and the count of the days elapsed since 0000/01/01. *)
From Coq Require Import ZArith List Bool.
Import ListNotations.
Open Scope Z_scope.

Definition leap (y : Z) : bool := (y mod 4 =? 0) && negb (y mod 100 =? 0) || (y mod 400 =? 0).
Definition month_len (y m : Z) : Z :=
  nth (Z.to_nat (m - 1)) [31; if leap y then 29 else 28; 31; 30; 31; 30; 31; 31; 30; 31; 30; 31] 0.
Definition year_len (y : Z) : Z := if leap y then 366 else 365.

(** Days in years 0 .. n-1. *)
Fixpoint days_before_year (n : nat) : Z :=
  match n with
  | O => 0
  | S k => days_before_year k + year_len (Z.of_nat k)
  end.
(** Days in months 1 .. n of year y. *)
Fixpoint days_in_months (y : Z) (n : nat) : Z :=
  match n with
  | O => 0
  | S k => days_in_months y k + month_len y (Z.of_nat k + 1)
  end.
(** Days from 0000/01/01 to y/m/d. *)
Definition day_number (y m d : Z) : Z := days_before_year (Z.to_nat y) + days_in_months y (Z.to_nat (m - 1)) + (d - 1).

Definition is_date (y m d : Z) : Prop := 0 <= y < 10000 /\ 1 <= m <= 12 /\ 1 <= d <= month_len y m.
Definition is_time (h mi s : Z) : Prop := 0 <= h < 24 /\ 0 <= mi < 60 /\ 0 <= s < 60.

Record moment := { yr : Z; mon : Z; day : Z; hr : Z; mnt : Z; sec : Z }.
Definition is_moment (a : moment) : Prop := is_date (yr a) (mon a) (day a) /\ is_time (hr a) (mnt a) (sec a).
(** The printable date YYYYMMDD and the printable time HHMMSShh. *)
Definition pdate (a : moment) : Z := yr a * 10000 + mon a * 100 + day a.
Definition ptime (a : moment) : Z := hr a * 1000000 + mnt a * 10000 + sec a * 100.
(** Seconds elapsed since 0000/01/01 00:00:00. *)
Definition seconds (a : moment) : Z := day_number (yr a) (mon a) (day a) * 86400 + hr a * 3600 + mnt a * 60 + sec a.

Definition whole_hour (a : moment) : Prop := mnt a = 0 /\ sec a = 0.
(** What a stamp can hold: 5 second steps in 1980 .. 2235, else whole hours. *)
Definition stampable (a : moment) : Prop :=
  is_moment a /\ (whole_hour a \/ 1980 <= yr a <= 2235 /\ sec a mod 5 = 0).
(** 1901/01/01 01:00:00, kept apart by the code. *)
Definition oddity : moment := {| yr := 1901; mon := 1; day := 1; hr := 1; mnt := 0; sec := 0 |}.
(** Day of the week of the n-th day, Sunday = 1; day 0, 0000/01/01, is a Saturday. *)
Definition weekday (n : Z) : Z := 1 + (n + 6) mod 7.
