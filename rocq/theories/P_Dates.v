(** C34, C35: dates. *)
From Coq Require Import ZArith List Lia Bool.
From Verif Require Import Bits Dates DatesSpec DatesCal DatesFacts DatesConv DatesModes DatesThm.
Import ListNotations.
Open Scope Z_scope.

(** The julian day of a date counts the days of the calendar, and datec finds
    the date back. *)
Theorem c34_calendar : forall y m d, is_date y m d ->
  jd y m d = 1721060 + day_number y m d /\ datec (jd y m d) = (y, m, d).
Proof.
  intros y m d (Y & M & D). split; [apply jd_day; lia|apply datec_jd; lia].
Qed.
Print Assumptions c34_calendar.
Example c34_calendar_ex : is_date 2024 2 29 /\ ~ is_date 2023 2 29 /\ ~ is_date 1900 2 29 /\ is_date 2000 2 29.
Proof. unfold is_date. change (month_len 2024 2) with 29. change (month_len 2023 2) with 28.
  change (month_len 1900 2) with 28. change (month_len 2000 2) with 29. lia. Qed.

(** Printable date to stamp and back (newdate modes 3 and -3). The stamp is a
    32 bit integer. *)
Theorem c34_print_stamp_print : forall a, stampable a -> exists s,
  mode_3 (pdate a) (ptime a) = Some s /\ mode_m3 s = Some (pdate a, ptime a) /\ - 2 ^ 31 <= s < 2 ^ 31.
Proof.
  intros a ST. exists (stamp_of a). split; [apply mode_3_ok; exact ST|]. split; [apply mode_m3_ok; exact ST|].
  destruct (basic_dec a) as [B|B].
  - destruct (oddity_dec a) as [O|O].
    + rewrite (stamp_of_ext a (or_intror O)). pose proof (ext_stamp_facts a (proj1 ST)). lia.
    + rewrite (stamp_of_basic a (proj1 ST) B O). pose proof (stamp_basic_neg a 0 ST B ltac:(lia)). lia.
  - rewrite (stamp_of_ext a (or_introl B)). pose proof (ext_stamp_facts a (proj1 ST)). lia.
Qed.
Print Assumptions c34_print_stamp_print.

(** Two dates have the same stamp only if they are the same. *)
Theorem c34_stamp_injective : forall a b, stampable a -> stampable b ->
  mode_3 (pdate a) (ptime a) = mode_3 (pdate b) (ptime b) -> a = b.
Proof.
  intros a b SA SB E. rewrite !mode_3_ok in E by assumption. injection E as E.
  pose proof (mode_m3_ok a SA) as A. pose proof (mode_m3_ok b SB) as B. rewrite E, B in A. injection A as P T.
  destruct (moment_digits a (proj1 SA)) as (A1 & A2 & A3 & A4 & A5 & A6 & _).
  destruct (moment_digits b (proj1 SB)) as (B1 & B2 & B3 & B4 & B5 & B6 & _).
  destruct a as [y1 m1 d1 h1 n1 c1], b as [y2 m2 d2 h2 n2 c2]. cbn [yr mon day hr mnt sec] in *. congruence.
Qed.
Print Assumptions c34_stamp_injective.

Definition some_day : moment := {| yr := 2024; mon := 2; day := 29; hr := 17; mnt := 43; sec := 55 |}.
Definition far_day : moment := {| yr := 9999; mon := 12; day := 31; hr := 23; mnt := 0; sec := 0 |}.
Definition old_day : moment := {| yr := 1964; mon := 2; day := 29; hr := 6; mnt := 0; sec := 0 |}.
Lemma some_day_ok : stampable some_day /\ basic some_day.
Proof.
  unfold stampable, is_moment, is_date, is_time, basic. cbn [some_day yr mon day hr mnt sec].
  change (month_len 2024 2) with 29. change (55 mod 5) with 0. lia.
Qed.
Lemma far_day_ok : stampable far_day /\ whole_hour far_day.
Proof.
  unfold stampable, is_moment, is_date, is_time, whole_hour. cbn [far_day yr mon day hr mnt sec].
  change (month_len 9999 12) with 31. lia.
Qed.
Lemma old_day_ok : stampable old_day /\ basic old_day /\ whole_hour old_day.
Proof.
  unfold stampable, is_moment, is_date, is_time, whole_hour, basic. cbn [old_day yr mon day hr mnt sec].
  change (month_len 1964 2) with 29. lia.
Qed.
Example c34_print_stamp_print_ex :
  mode_3 20240229 17435500 = Some 471623957 /\ mode_m3 471623957 = Some (20240229, 17435500) /\
  mode_3 19640229 6000000 = Some 22964060 /\ mode_3 99991231 23000000 = Some (-1185394549) /\ 
  mode_m3 (-1185394549) = Some (99991231, 23000000).
Proof. vm_compute. repeat split. Qed.

(** Whatever stamp is accepted, it prints a date of the calendar, and this date
    makes a stamp that prints the same date. *)
Theorem c34_stamp_prints_a_date : forall s p t, - 2 ^ 31 <= s < 2 ^ 31 -> mode_m3 s = Some (p, t) ->
  exists a, stampable a /\ pdate a = p /\ ptime a = t /\
    exists s', mode_3 p t = Some s' /\ mode_m3 s' = Some (p, t).
Proof.
  intros s p t R E. destruct (mode_m3_prints s p t R E) as (a & A & <- & <-). exists a.
  split; [exact A|]. split; [reflexivity|]. split; [reflexivity|]. exists (stamp_of a).
  split; [apply mode_3_ok; exact A|apply mode_m3_ok; exact A].
Qed.
Print Assumptions c34_stamp_prints_a_date.
Example c34_stamp_prints_a_date_ex : mode_m3 (-1294967295) = Some (101, 1000000) /\ mode_m3 471623955 = Some (20240229, 17434500).
Proof. vm_compute. split; reflexivity. Qed.

(** A printable date that is not in the calendar, or an hour over 23, is
    refused. *)
Theorem c34_not_a_date : forall y m d h rest,
  0 <= y < 10000 -> 0 <= m < 100 -> 0 <= d < 100 -> 0 <= h < 100 -> 0 <= rest < 1000000 ->
  ~ (is_date y m d /\ h < 24) -> mode_3 (y * 10000 + m * 100 + d) (h * 1000000 + rest) = None.
Proof.
  intros y m d h rest Y M D H R N. apply mode_3_refuses; try assumption. intros [A B]. apply N. split; [exact A|lia].
Qed.
Print Assumptions c34_not_a_date.
Example c34_not_a_date_ex : mode_3 (2023 * 10000 + 2 * 100 + 29) (0 * 1000000 + 0) = None.
Proof. vm_compute. reflexivity. Qed.

(** True dates (modes 2 and -2): the true date counts 5 second steps since
    1980/01/01, and prints back. *)
Theorem c34_true_date : forall a, stampable a -> 1900 <= yr a <= 2235 -> a <> oddity ->
  mode_2 (pdate a) (ptime a) = Some (seconds a / 5 - 723180 * 17280) /\
  mode_m2 (seconds a / 5 - 723180 * 17280) = Some (pdate a, ptime a).
Proof.
  intros a ST B N. rewrite <- (td_seconds a (proj1 ST)). split; [apply mode_2_ok; [apply ST|exact B|exact N]|apply mode_m2_ok; assumption].
Qed.
Print Assumptions c34_true_date.
(** Every true date up to the end of 2235 prints, and all of them but that of
    1901/01/01 01Z come back. *)
Theorem c34_true_date_back : forall t, 0 <= t <= 1615714559 \/ (-504904320 <= t < 0 /\ t mod 720 = 0) ->
  t <> -498596400 -> exists p q, mode_m2 t = Some (p, q) /\ mode_2 p q = Some t.
Proof.
  intros t T NO.
  assert (V : validtd t = true /\ t <= 1615714559).
  { unfold validtd. destruct T as [T|[T1 T2]]; [rewrite (proj2 (Z.leb_le 0 t) ltac:(lia)); split; [reflexivity|lia]|].
    split; [|lia]. apply orb_true_iff. right. rewrite !andb_true_iff, Z.ltb_lt, Z.leb_le, Z.eqb_eq. unfold td1900. split; [lia|].
    rewrite Z.rem_mod_nonneg by lia. replace (t - -504904320) with (t + 701256 * 720) by lia. rewrite Z.mod_add by lia. exact T2. }
  destruct V as [V B]. destruct (td_surj t V B) as (a & SA & BA & E). exists (pdate a), (ptime a).
  rewrite <- E. split; [apply mode_m2_ok; assumption|]. apply mode_2_ok; [apply SA|exact BA|].
  intros ->. apply NO. rewrite <- E. rewrite td_hour by (exact moment_oddity || exact whole_oddity). rewrite eh_oddity. reflexivity.
Qed.
Print Assumptions c34_true_date_back.
Example c34_true_date_ex : mode_2 20240229 17435500 = Some 278739167 /\ mode_m2 278739167 = Some (20240229, 17435500).
Proof. vm_compute. split; reflexivity. Qed.

(** True date and run number to stamp and back (modes -1 and 1): the true date
    always comes back; so does the run number, unless the stamp is a new style
    one, which is used from 2000 and for fractions of an hour. *)
Theorem c34_run_number : forall t run, 0 <= t <= 1615714559 \/ (-504904320 <= t < 0 /\ t mod 720 = 0) -> 0 <= run <= 9 ->
  exists s, mode_m1 t run = Some s /\ - 2 ^ 31 <= s < 2 ^ 31 /\
    mode_1 s = Some (t, if (t <? 126230400) && (t mod 720 =? 0) then run else 0).
Proof.
  intros t run T R.
  assert (V : validtd t = true /\ t <= 1615714559).
  { unfold validtd. destruct T as [T|[T1 T2]]; [rewrite (proj2 (Z.leb_le 0 t) ltac:(lia)); split; [reflexivity|lia]|].
    split; [|lia]. apply orb_true_iff. right. rewrite !andb_true_iff, Z.ltb_lt, Z.leb_le, Z.eqb_eq. unfold td1900. split; [lia|].
    rewrite Z.rem_mod_nonneg by lia. replace (t - -504904320) with (t + 701256 * 720) by lia. rewrite Z.mod_add by lia. exact T2. }
  destruct V as [V B]. destruct (td_surj t V B) as (a & SA & BA & E). exists (bstamp a run).
  pose proof (mode_m1_ok a run SA BA ltac:(lia)) as M1. rewrite E in M1. split; [exact M1|].
  split; [pose proof (stamp_basic_neg a run SA BA R); lia|].
  pose proof (mode_1_ok a run SA BA R) as M. rewrite E in M. rewrite M. f_equal. f_equal.
  unfold mode_m1 in M1. rewrite V in M1. destruct (Z.ltb_spec 9 run); [lia|]. cbn [orb negb] in M1.
  assert (TR : (t %f 720 =? 0) = (t mod 720 =? 0)).
  { destruct (Z_le_dec 0 t) as [L|L]; [rewrite Z.rem_mod_nonneg by lia; reflexivity|].
    destruct T as [T|[_ T]]; [lia|]. rewrite T. replace (t %f 720) with 0; [reflexivity|]. symmetry.
    apply Z.rem_divide; [lia|]. apply Z.mod_divide; [lia|exact T]. }
  rewrite <- TR.
  assert (NS : new_style a = (td2000 <=? t) || negb (t %f 720 =? 0)).
  { rewrite <- E, (td_rem a SA BA). unfold new_style. pose proof (sub_hour a (proj1 SA)) as SH.
    pose proof (dn_2000 a (proj1 SA)) as D2. pose proof (stampable_basic a SA) as SB.
    assert (HH : 0 <= hr a < 24) by apply SA.
    replace (td2000 <=? td a) with (2000 <=? yr a).
    - destruct (Z.leb_spec 1980 (yr a)) as [L|L]; [reflexivity|]. cbn [andb]. rewrite orb_false_r.
      destruct SB as [SB|SB]; [lia|]. rewrite (proj1 (whole_zero a (proj1 SA)) SB). cbn [Z.eqb negb]. rewrite orb_false_r. reflexivity.
    - unfold td, td2000. destruct (Z.leb_spec 2000 (yr a)); symmetry; [apply Z.leb_le|apply Z.leb_gt]; lia. }
  rewrite NS. unfold td2000. rewrite Z.ltb_antisym. destruct (126230400 <=? t); destruct (t %f 720 =? 0); reflexivity.
Qed.
Print Assumptions c34_run_number.
Example c34_run_number_ex : mode_m1 (-14400) 7 = Some 123179047 /\ mode_1 123179047 = Some (-14400, 7) /\ mode_m1 1 7 = Some 123200001.
Proof. vm_compute. repeat split. Qed.

(** Extended stamps and extended true dates (modes 5, -5, 6, -6, 7, -7), for
    whole hours of years 0 to 9999. The extended true date counts hours since
    0000/01/01. *)
Theorem c34_extended : forall a, stampable a -> whole_hour a ->
  (exists x, mode_5 (pdate a) (ptime a) = Some x /\ mode_m5 x = Some (pdate a, ptime a)) /\
  mode_7 (pdate a) (ptime a) = Some (seconds a / 3600) /\ mode_m7 (seconds a / 3600) = Some (pdate a, ptime a) /\
  exists s, mode_3 (pdate a) (ptime a) = Some s /\ mode_6 s = Some (seconds a / 3600) /\ mode_m6 (seconds a / 3600) = Some s.
Proof.
  intros a ST W. pose proof (proj1 ST) as A.
  assert (E : seconds a / 3600 = eh a).
  { unfold seconds. fold (dn a). destruct W as [-> ->]. unfold eh.
    replace (dn a * 86400 + hr a * 3600 + 0 * 60 + 0) with ((dn a * 24 + hr a) * 3600) by lia. apply Z.div_mul. lia. }
  rewrite E. rewrite <- (whole_ptime a W) || idtac.
  split; [exists (ext_stamp a); split; [apply mode_5_ok; exact A|rewrite mode_m5_ok by exact A; rewrite (whole_ptime a W); reflexivity]|].
  split; [apply mode_7_ok; exact A|]. split; [rewrite mode_m7_ok by exact A; rewrite (whole_ptime a W); reflexivity|].
  exists (stamp_of a). split; [apply mode_3_ok; exact ST|]. split; [apply mode_6_ok; exact ST|apply mode_m6_ok; assumption].
Qed.
Print Assumptions c34_extended.
Example c34_extended_ex : stampable far_day /\ whole_hour far_day /\ mode_7 99991231 23000000 = Some 87658199.
Proof. split; [apply far_day_ok|]. split; [apply far_day_ok|]. vm_compute. reflexivity. Qed.

(** Date arrays (modes -4 and 4): the fields are those of the date, the first
    is the day of the week, and they make the same stamp if the year is 100 or
    more. *)
Theorem c34_array : forall a s, stampable a -> mode_3 (pdate a) (ptime a) = Some s ->
  dmagtp2 s = (weekday (day_number (yr a) (mon a) (day a)), mon a, day a, yr a, hr a, (mnt a * 60 + sec a) * 100) /\
  (100 <= yr a -> itdmag2 (mon a) (day a) (yr a) (hr a) ((mnt a * 60 + sec a) * 100) = s).
Proof.
  intros a s ST E. rewrite mode_3_ok in E by exact ST. assert (s = stamp_of a) as -> by congruence.
  split; [apply dmagtp2_ok; exact ST|intros Y; apply itdmag2_ok; assumption].
Qed.
Print Assumptions c34_array.
Example c34_array_ex : dmagtp2 471623957 = (5, 2, 29, 2024, 17, 263500).
Proof. vm_compute. reflexivity. Qed.

(** ** What newdate does not keep *)
(** Before 1980 the minutes are dropped, without an error. *)
Theorem c34_minutes_before_1980_refuted : exists s,
  mode_3 19791231 23300000 = Some s /\ mode_m3 s = Some (19791231, 23000000).
Proof. exists 123179230. split; vm_compute; reflexivity. Qed.
(** Minutes over 59 are accepted and spill in the hours. *)
Theorem c34_bad_minutes_refuted : exists s, mode_3 20240101 990000 = Some s /\ mode_m3 s = Some (20240101, 1390000).
Proof. exists 470335084. split; vm_compute; reflexivity. Qed.
(** 1901/01/01 01Z: its true date is given in hours since year 0, and prints as
    another date. *)
Theorem c34_oddity_refuted : exists t, mode_2 19010101 1000000 = Some t /\ mode_m2 t <> Some (19010101, 1000000).
Proof. exists 16663825. split; [vm_compute; reflexivity|]. vm_compute. discriminate. Qed.
(** Mode 1 accepts old stamps that mode -3 refuses, here 1985/02/30. *)
Theorem c34_bad_stamp_refuted : exists s t, mode_1 s = Some (t, 0) /\ mode_m3 s = None.
Proof. exists 23085000, 32607360. vm_compute. split; reflexivity. Qed.
(** Mode 6 accepts one stamp more than mode -5: that of 10000/01/01. *)
Theorem c34_year_10000_refuted : exists s t, mode_6 s = Some t /\ mode_m5 s = None /\ mode_m7 t = None.
Proof. exists (3000000000 + 109572750 - 2 ^ 32). exists 87658200. repeat split; vm_compute; reflexivity. Qed.
(** Date arrays cannot hold years 0 to 99. *)
Theorem c34_array_year_refuted : exists s, mode_3 500101 0 = Some s /\ dmagtp2 s = (7, 1, 1, 50, 0, 0) /\ itdmag2 1 1 50 0 0 <> s.
Proof. exists (-1294419406). split; [vm_compute; reflexivity|]. split; [vm_compute; reflexivity|]. vm_compute. discriminate. Qed.

(** * C35 *)
(** Whole hours, years 0 to 9999: adding the time from a to b to the stamp of a
    gives the stamp of b, and the difference of the stamps is that time. The
    unit is 1/720 hour. *)
Theorem c35_hours : forall r a b s1 s2, stampable a -> whole_hour a -> stampable b -> whole_hour b ->
  (b = oddity -> a = oddity \/ ~ 1900 <= yr a <= 2235) ->
  mode_3 (pdate a) (ptime a) = Some s1 -> mode_3 (pdate b) (ptime b) = Some s2 ->
  incdat r s1 ((seconds b - seconds a) / 5) = Some s2 /\ difdat r s2 s1 = Some ((seconds b - seconds a) / 5).
Proof.
  intros r a b s1 s2 SA WA SB WB OD E1 E2. rewrite mode_3_ok in E1, E2 by assumption.
  assert (s1 = stamp_of a) as -> by congruence. assert (s2 = stamp_of b) as -> by congruence.
  rewrite seconds_hours by (assumption || apply SA || apply SB). split; [|apply difdat_hours; assumption].
  assert (X : (~ basic a \/ a = oddity) \/ (basic a /\ a <> oddity)).
  { destruct (basic_dec a); destruct (oddity_dec a); tauto. }
  destruct X as [X|[B N]]; [apply incdat_ext; assumption|].
  rewrite (stamp_of_basic a (proj1 SA) B N). rewrite incdat_basic_hours by (assumption || lia).
  destruct (basic_dec b) as [BB|BB]; [|reflexivity]. f_equal. symmetry.
  replace (run_of a 0) with 0 by (unfold run_of; destruct (new_style a); reflexivity).
  apply stamp_of_basic; [apply SB|exact BB|]. intros O. destruct (OD O) as [Y|Y]; [tauto|apply Y; exact B].
Qed.
Print Assumptions c35_hours.

(** 5 second steps, from 1980 or later to any date held by a stamp up to
    2235/12/31 23:59:00. *)
Theorem c35_steps : forall a b s1 s2, stampable a -> 1980 <= yr a <= 2235 -> stampable b -> 1900 <= yr b <= 2235 ->
  b <> oddity -> seconds b <= (723180 * 17280 + 1615714548) * 5 ->
  mode_3 (pdate a) (ptime a) = Some s1 -> mode_3 (pdate b) (ptime b) = Some s2 ->
  incdat false s1 ((seconds b - seconds a) / 5) = Some s2 /\ difdat false s2 s1 = Some ((seconds b - seconds a) / 5).
Proof.
  intros a b s1 s2 SA YA SB YB O L E1 E2. rewrite mode_3_ok in E1, E2 by assumption.
  assert (s1 = stamp_of a) as -> by congruence. assert (s2 = stamp_of b) as -> by congruence.
  rewrite seconds_steps by assumption.
  assert (OA : a <> oddity) by (intros ->; cbn [oddity yr] in YA; lia).
  assert (BA : basic a) by (unfold basic; lia).
  rewrite (stamp_of_basic a (proj1 SA) BA OA), (stamp_of_basic b (proj1 SB) YB O).
  split; [|apply difdat_steps; assumption || lia].
  rewrite incdat_steps; try assumption; try lia.
  - unfold run_of. destruct (new_style a); reflexivity.
  - rewrite (td_seconds b (proj1 SB)). unfold td2235.
    assert (seconds b / 5 <= 723180 * 17280 + 1615714548); [|lia].
    replace (723180 * 17280 + 1615714548) with ((723180 * 17280 + 1615714548) * 5 / 5) by (apply Z.div_mul; lia).
    apply Z.div_le_mono; lia.
Qed.
Print Assumptions c35_steps.
Example c35_steps_ex : stampable some_day /\ stampable old_day /\
  incdat false 471623957 ((-1) * 12) = Some 471623943 /\ mode_m3 471623943 = Some (20240229, 17425500).
Proof. split; [apply some_day_ok|]. split; [apply old_day_ok|]. vm_compute. split; reflexivity. Qed.
Example c35_hours_ex : stampable old_day /\ whole_hour old_day /\ stampable far_day /\ whole_hour far_day /\
  incdat false 22964060 (720 * (87658199 - 17217486)) = Some (-1185394549).
Proof.
  split; [apply old_day_ok|]. split; [apply old_day_ok|]. split; [apply far_day_ok|]. split; [apply far_day_ok|].
  vm_compute. reflexivity.
Qed.

(** Adding is associative: two increments in a row amount to their sum, through
    any date in between. *)
Theorem c35_associative : forall r a b c s, stampable a -> whole_hour a -> stampable b -> whole_hour b -> stampable c -> whole_hour c ->
  b <> oddity -> c <> oddity -> mode_3 (pdate a) (ptime a) = Some s ->
  exists s', incdat r s ((seconds b - seconds a) / 5) = Some s' /\
    incdat r s' ((seconds c - seconds b) / 5) = incdat r s ((seconds c - seconds a) / 5).
Proof.
  intros r a b c s SA WA SB WB SC WC OB OC E.
  destruct (c34_print_stamp_print b SB) as (s2 & E2 & _). destruct (c34_print_stamp_print c SC) as (s3 & E3 & _).
  exists s2.
  split; [apply (c35_hours r a b s s2 SA WA SB WB ltac:(tauto) E E2)|].
  destruct (c35_hours r b c s2 s3 SB WB SC WC ltac:(tauto) E2 E3) as [-> _].
  destruct (c35_hours r a c s s3 SA WA SC WC ltac:(tauto) E E3) as [-> _]. reflexivity.
Qed.
Print Assumptions c35_associative.
Theorem c35_associative_steps : forall a b c s, stampable a -> stampable b -> stampable c ->
  1980 <= yr a <= 2235 -> 1980 <= yr b <= 2235 -> 1900 <= yr c <= 2235 -> c <> oddity ->
  seconds b <= (723180 * 17280 + 1615714548) * 5 -> seconds c <= (723180 * 17280 + 1615714548) * 5 ->
  mode_3 (pdate a) (ptime a) = Some s ->
  exists s', incdat false s ((seconds b - seconds a) / 5) = Some s' /\
    incdat false s' ((seconds c - seconds b) / 5) = incdat false s ((seconds c - seconds a) / 5).
Proof.
  intros a b c s SA SB SC YA YB YC O LB LC E.
  destruct (c34_print_stamp_print b SB) as (s2 & E2 & _). destruct (c34_print_stamp_print c SC) as (s3 & E3 & _).
  assert (OB : b <> oddity) by (intros ->; cbn [oddity yr] in YB; lia).
  exists s2.
  split; [apply (c35_steps a b s s2 SA YA SB ltac:(lia) OB LB E E2)|].
  destruct (c35_steps b c s2 s3 SB YB SC YC O LC E2 E3) as [-> _].
  destruct (c35_steps a c s s3 SA YA SC YC O LC E E3) as [-> _]. reflexivity.
Qed.
Print Assumptions c35_associative_steps.

(** The run number of an old stamp (before 2000) goes with the date. *)
Theorem c35_run_number : forall r a b run s1 s2, stampable a -> whole_hour a -> stampable b -> whole_hour b ->
  1900 <= yr a < 2000 -> 1900 <= yr b < 2000 -> a <> oddity -> b <> oddity -> 0 <= run <= 9 ->
  mode_3 (pdate a) (ptime a) = Some s1 -> mode_3 (pdate b) (ptime b) = Some s2 ->
  incdat r (s1 + run) ((seconds b - seconds a) / 5) = Some (s2 + run).
Proof.
  intros r a b run s1 s2 SA WA SB WB YA YB OA OB R E1 E2. rewrite mode_3_ok in E1, E2 by assumption.
  assert (s1 = stamp_of a) as -> by congruence. assert (s2 = stamp_of b) as -> by congruence.
  assert (BA : basic a) by (unfold basic; lia). assert (BB : basic b) by (unfold basic; lia).
  assert (O : forall c, is_moment c -> whole_hour c -> yr c < 2000 -> new_style c = false).
  { intros c C W Y. unfold new_style. rewrite (proj2 (Z.leb_gt 2000 (yr c)) Y). rewrite (proj1 (whole_zero c C) W).
    cbn [Z.eqb negb orb]. rewrite andb_false_r. reflexivity. }
  rewrite (stamp_of_basic a (proj1 SA) BA OA), (stamp_of_basic b (proj1 SB) BB OB).
  pose proof (O a (proj1 SA) WA ltac:(lia)) as NA. pose proof (O b (proj1 SB) WB ltac:(lia)) as NB.
  rewrite seconds_hours by (assumption || apply SA || apply SB).
  replace (bstamp a 0 + run) with (bstamp a run) by (unfold bstamp; rewrite NA; lia).
  rewrite incdat_basic_hours by assumption. destruct (basic_dec b); [|tauto].
  unfold run_of. rewrite NA. unfold bstamp. rewrite NB. f_equal. lia.
Qed.
Print Assumptions c35_run_number.

(** ** What incdat does not do *)
(** Before 1980 half an hour is rounded to a full hour, without an error. *)
Theorem c35_half_hour_refuted : exists s, mode_3 19640229 6000000 = Some s /\ exists s', incdat false s 360 = Some s' /\ mode_m3 s' = Some (19640229, 7000000).
Proof. exists 22964060. split; [vm_compute; reflexivity|]. exists 22964070. split; vm_compute; reflexivity. Qed.
(** The last minute of 2235 cannot be reached: the increment is rounded to
    hours and the start time too. *)
Theorem c35_last_minute_refuted : exists s s', mode_3 22351231 23304500 = Some s /\
  incdat false s (29 * 12) = Some s' /\ mode_m3 s' = Some (22351231, 23000000).
Proof. exists 2142842761, 2142842300. repeat split; vm_compute; reflexivity. Qed.
(** 1901/01/01 01Z reached from a basic stamp is not the stamp newdate gives,
    but the difference of the dates is right. *)
Theorem c35_oddity_refuted : exists s s', mode_3 19010101 0 = Some s /\ incdat false s 720 = Some s' /\
  mode_3 19010101 1000000 <> Some s' /\ mode_m3 s' = Some (19010101, 1000000).
Proof. exists 10101000, 10101010. split; [vm_compute; reflexivity|]. split; [vm_compute; reflexivity|]. split; [vm_compute; discriminate|vm_compute; reflexivity]. Qed.
