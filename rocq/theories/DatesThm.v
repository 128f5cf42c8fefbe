From Coq Require Import ZArith List Lia Bool.
From Verif Require Import Bits Dates DatesSpec DatesCal DatesFacts DatesConv DatesModes.
Import ListNotations.
Open Scope Z_scope.
Open Scope opt_scope.

(** * Counts and moments *)
Lemma dn_surj : forall n h mi s, 0 <= n < 3652425 -> is_time h mi s -> exists a,
  is_moment a /\ dn a = n /\ hr a = h /\ mnt a = mi /\ sec a = s.
Proof.
  intros n h mi s N T. destruct (every_day (Z.to_nat n)) as (y & m & d & Y & M & D & E). rewrite Z2Nat.id in E by lia.
  exists {| yr := y; mon := m; day := d; hr := h; mnt := mi; sec := s |}. unfold dn, is_moment, is_date.
  cbn [yr mon day hr mnt sec]. split; [|repeat split; exact E].
  split; [|exact T]. split; [|split; assumption]. split; [exact Y|].
  destruct (Z_lt_le_dec y 10000) as [L|L]; [exact L|].
  pose proof (dn_year y m d Y M D) as B. pose proof (days_before_mono 10000 y ltac:(lia)) as C.
  destruct year_days as (_ & _ & _ & _ & E1). lia.
Qed.

(** Every valid true date up to the end of 2235 is that of one moment. *)
Lemma td_surj : forall t, validtd t = true -> t <= 1615714559 -> exists a, stampable a /\ basic a /\ td a = t.
Proof.
  intros t V B.
  assert (C : 0 <= t \/ (td1900 <= t < 0 /\ (t - td1900) mod 720 = 0)).
  { unfold validtd in V. apply orb_true_iff in V. destruct V as [V|V]; [left; apply Z.leb_le; exact V|right].
    rewrite !andb_true_iff, Z.ltb_lt, Z.leb_le, Z.eqb_eq in V. destruct V as [[V1 V2] V3].
    rewrite Z.rem_mod_nonneg in V3 by lia. split; [lia|exact V3]. }
  assert (L : td1900 <= t) by (unfold td1900 in *; lia). unfold td1900 in *.
  set (u := t - -504904320) in *. assert (U : 0 <= u) by (unfold u; lia).
  set (n := 693961 + u / 17280). set (r := u mod 17280).
  assert (R : 0 <= r < 17280) by (apply Z.mod_pos_bound; lia).
  pose proof (Z.div_mod u 17280 ltac:(lia)) as UE. fold r in UE.
  set (h := r / 720). set (q := r mod 720). assert (Q : 0 <= q < 720) by (apply Z.mod_pos_bound; lia).
  pose proof (Z.div_mod r 720 ltac:(lia)) as RE. fold h q in RE.
  assert (N : 693961 <= n < 816682).
  { unfold n. split; [pose proof (Z.div_pos u 17280 U ltac:(lia)); lia|]. assert (u / 17280 < 122721); [|lia]. apply Z.div_lt_upper_bound; unfold u; lia. }
  destruct (dn_surj n h (q / 12) (q mod 12 * 5) ltac:(lia)) as (a & A & E1 & E2 & E3 & E4).
  { assert (0 <= h < 24) by (unfold h; Z.div_mod_to_equations; lia). split; [lia|]. Z.div_mod_to_equations; lia. }
  assert (BA : basic a) by (apply dn_basic; [exact A|lia]).
  assert (QE : (q / 12 * 60 + q mod 12 * 5) / 5 = q) by (clear; Z.div_mod_to_equations; lia).
  exists a. split; [|split; [exact BA|]].
  - split; [exact A|]. destruct (Z_le_dec 1980 (yr a)) as [Y|Y].
    + right. unfold basic in BA. split; [lia|]. rewrite E4. apply Z.mod_mul. lia.
    + left. unfold whole_hour. rewrite E3, E4.
      assert (NN : ~ 723180 <= dn a) by (intros H; apply Y; apply dn_1980; assumption). rewrite E1 in NN.
      destruct C as [C|[_ C]].
      { exfalso. apply NN. unfold n. assert (29219 <= u / 17280) by (apply Z.div_le_lower_bound; unfold u; lia). lia. }
      assert (q = 0).
      { assert (X : u = q + (24 * (u / 17280) + h) * 720) by lia. rewrite X in C. rewrite Z.mod_add in C by lia.
        rewrite Z.mod_small in C by lia. exact C. }
      rewrite H. split; reflexivity.
  - unfold td. rewrite E1, E2, E3, E4, QE. unfold n. unfold u in *. lia.
Qed.
Lemma eh_surj : forall t, 0 <= t < 87658200 -> exists a, stampable a /\ whole_hour a /\ eh a = t.
Proof.
  intros t T. pose proof (Z.div_mod t 24 ltac:(lia)) as E. pose proof (Z.mod_pos_bound t 24 ltac:(lia)) as B.
  destruct (dn_surj (t / 24) (t mod 24) 0 0) as (a & A & E1 & E2 & E3 & E4).
  - split; [apply Z.div_pos; lia|]. apply Z.div_lt_upper_bound; lia.
  - repeat split; lia.
  - exists a. split; [split; [exact A|left; split; assumption]|]. split; [split; assumption|]. unfold eh. lia.
Qed.

(** * incdat and difdat *)
Lemma nint_720 : forall h, nint (720 * h) 720 = h.
Proof.
  intros h. unfold nint. destruct (Z.leb_spec 0 (720 * h)); rewrite Z.quot_div_nonneg by lia;
    Z.div_mod_to_equations; lia.
Qed.
Lemma round_hour_720 : forall q, round_hour (720 * q) = 720 * q.
Proof.
  intros q. unfold round_hour. destruct (Z.leb_spec 0 (720 * q)).
  - rewrite Z.quot_div_nonneg by lia. Z.div_mod_to_equations; lia.
  - replace (720 * q + -360) with (- (720 * (- q) + 360)) by lia. rewrite Z.quot_opp_l by lia.
    rewrite Z.quot_div_nonneg by lia. Z.div_mod_to_equations; lia.
Qed.
Lemma td_basic_bound : forall a, is_moment a -> whole_hour a -> (basic a <-> td1900 <= td a <= td2235).
Proof.
  intros a A W. pose proof (dn_basic a A) as DB. fold (basic a) in DB. rewrite DB. rewrite (td_hour a A W).
  assert (0 <= hr a < 24) by apply A. unfold eh, td1900, td2235. lia.
Qed.
Lemma stamp_basic_neg : forall a run, stampable a -> basic a -> 0 <= run <= 9 -> -1 < bstamp a run < 2 ^ 31.
Proof.
  intros a run ST B R. pose proof (proj1 ST) as A. unfold bstamp. destruct (new_style a) eqn:E.
  - apply new_style_true in E. pose proof (new_stamp_range a A ltac:(unfold basic in B; lia)). unfold tdstart in *. lia.
  - destruct (new_style_false a ST B E) as [_ Y]. pose proof (old_stamp_range a A ltac:(unfold basic in B; lia)). change (2 ^ 31) with 2147483648. lia.
Qed.
Lemma to_hours : forall a run, stampable a -> basic a -> 0 <= run <= 9 ->
  ext_hours (bstamp a run) = Some (eh a).
Proof.
  intros a run ST B R. unfold ext_hours. pose proof (stamp_basic_neg a run ST B R).
  destruct (Z.ltb_spec (-1) (bstamp a run)); [|lia]. rewrite mode_m3_b by assumption. cbn [bind].
  apply mode_7_ok. apply ST.
Qed.
Lemma ext_hours_ok : forall a, stampable a -> ext_hours (stamp_of a) = Some (eh a).
Proof.
  intros a ST. pose proof (proj1 ST) as A.
  assert (X : (~ basic a \/ a = oddity) \/ (basic a /\ a <> oddity)).
  { destruct (basic_dec a); destruct (oddity_dec a); tauto. }
  destruct X as [X|[B N]].
  - unfold ext_hours. rewrite (stamp_of_ext a X). destruct (ext_stamp_facts a A) as (L & _).
    destruct (Z.ltb_spec (-1) (ext_stamp a)); [lia|]. rewrite <- (stamp_of_ext a X). apply mode_6_ok. exact ST.
  - rewrite (stamp_of_basic a A B N). apply to_hours; [exact ST|exact B|lia].
Qed.

Definition run_of (a : moment) (run : Z) : Z := if new_style a then 0 else run.
Lemma bstamp_run : forall b, bstamp b 0 = if new_style b then new_stamp b else old_stamp b.
Proof. intros b. unfold bstamp. destruct (new_style b); [reflexivity|lia]. Qed.

Lemma td_diff : forall a b, is_moment a -> is_moment b -> whole_hour a -> whole_hour b ->
  td b - td a = 720 * (eh b - eh a).
Proof. intros a b A B WA WB. rewrite (td_hour a A WA), (td_hour b B WB). lia. Qed.

(** Leaving from a basic stamp, by whole hours. *)
Lemma incdat_basic_hours : forall r a b run, stampable a -> basic a -> whole_hour a -> stampable b -> whole_hour b -> 0 <= run <= 9 ->
  incdat r (bstamp a run) (720 * (eh b - eh a)) =
  Some (if basic_dec b then bstamp b (run_of a run) else stamp_of b).
Proof.
  intros r a b run SA BA WA SB WB R. pose proof (proj1 SA) as A. pose proof (proj1 SB) as B.
  pose proof (stamp_basic_neg a run SA BA R) as NB. unfold incdat.
  destruct (Z.ltb_spec (bstamp a run) (-1)); [lia|]. rewrite mode_1_ok by assumption. cbn [bind].
  rewrite nint_720.
  assert (RH : round_hour (td a) = td a).
  { rewrite (td_hour a A WA). replace (eh a * 720 - 723180 * 17280) with (720 * (eh a - 17356320)) by lia. apply round_hour_720. }
  rewrite RH.
  replace (if r || (td a <? 0) then (td a, 720 * (eh b - eh a)) else (td a, 720 * (eh b - eh a)))
    with (td a, 720 * (eh b - eh a)) by (destruct (r || (td a <? 0)); reflexivity).
  rewrite <- (td_diff a b A B WA WB). pose proof (td_basic_bound b B WB) as BB.
  destruct (basic_dec b) as [Bb|Bb].
  - apply BB in Bb as Bb'. destruct (Z.leb_spec (td1900 - td a) (td b - td a)); [|lia].
    destruct (Z.leb_spec (td b - td a) (td2235 - td a)); [|lia]. cbn [andb].
    replace (td a + (td b - td a)) with (td b) by lia. apply mode_m1_ok; [exact SB|exact Bb|]. unfold run_of. destruct (new_style a); lia.
  - replace ((td1900 - td a <=? td b - td a) && (td b - td a <=? td2235 - td a)) with false.
    2:{ symmetry. apply andb_false_iff. destruct (Z_le_dec td1900 (td b)) as [L|L].
        - right. apply Z.leb_gt. assert (~ td b <= td2235) by tauto. lia.
        - left. apply Z.leb_gt. lia. }
    rewrite mode_m3_b by assumption. cbn [bind]. rewrite mode_7_ok by exact A. cbn [bind].
    replace (eh a + (eh b - eh a)) with (eh b) by lia. apply mode_m6_ok; assumption.
Qed.
(** Leaving from an extended stamp. *)
Lemma incdat_ext : forall r a b, stampable a -> ~ basic a \/ a = oddity -> stampable b -> whole_hour b ->
  incdat r (stamp_of a) (720 * (eh b - eh a)) = Some (stamp_of b).
Proof.
  intros r a b SA X SB WB. pose proof (proj1 SA) as A. unfold incdat.
  assert (L : stamp_of a < -1) by (rewrite (stamp_of_ext a X); apply ext_stamp_facts; exact A).
  destruct (Z.ltb_spec (stamp_of a) (-1)); [|lia]. rewrite mode_6_ok by exact SA. cbn [bind].
  rewrite nint_720. replace (eh a + (eh b - eh a)) with (eh b) by lia. apply mode_m6_ok; assumption.
Qed.
(** In 5 second steps, leaving from 1980 or later. *)
Lemma incdat_steps : forall a b run, stampable a -> basic a -> 1980 <= yr a -> stampable b -> basic b -> td b <= td2235 -> 0 <= run <= 9 ->
  incdat false (bstamp a run) (td b - td a) = Some (bstamp b (run_of a run)).
Proof.
  intros a b run SA BA YA SB BB LB R. pose proof (proj1 SA) as A. pose proof (proj1 SB) as B.
  pose proof (stamp_basic_neg a run SA BA R) as NB. unfold incdat.
  destruct (Z.ltb_spec (bstamp a run) (-1)); [lia|]. rewrite mode_1_ok by assumption. cbn [bind].
  pose proof (td_nonneg a A YA) as TA. destruct (Z.ltb_spec (td a) 0); [lia|]. cbn [orb].
  pose proof (td_min b B ltac:(unfold basic in BB; lia)) as MB.
  destruct (Z.leb_spec (td1900 - td a) (td b - td a)); [|lia].
  destruct (Z.leb_spec (td b - td a) (td2235 - td a)); [|lia]. cbn [andb].
  replace (td a + (td b - td a)) with (td b) by lia. apply mode_m1_ok; [exact SB|exact BB|]. unfold run_of. destruct (new_style a); lia.
Qed.

Lemma difdat_hours : forall r a b, stampable a -> whole_hour a -> stampable b -> whole_hour b ->
  difdat r (stamp_of a) (stamp_of b) = Some (720 * (eh a - eh b)).
Proof.
  intros r a b SA WA SB WB. pose proof (proj1 SA) as A. pose proof (proj1 SB) as B. unfold difdat.
  destruct ((stamp_of b <? -1) || (stamp_of a <? -1)) eqn:E.
  - rewrite !ext_hours_ok by assumption. reflexivity.
  - apply orb_false_iff in E. destruct E as [E1 E2]. apply Z.ltb_ge in E1, E2.
    assert (F : forall c, stampable c -> -1 <= stamp_of c -> basic c /\ c <> oddity).
    { intros c SC L. destruct (ext_stamp_facts c (proj1 SC)) as (G & _).
      destruct (basic_dec c) as [Bc|Bc]; [|rewrite (stamp_of_ext c (or_introl Bc)) in L; lia].
      destruct (oddity_dec c) as [Oc|Oc]; [|tauto]. rewrite (stamp_of_ext c (or_intror Oc)) in L. lia. }
    destruct (F a SA E2) as [BA NA]. destruct (F b SB E1) as [BB NB].
    rewrite (stamp_of_basic a A BA NA), (stamp_of_basic b B BB NB).
    rewrite !mode_1_ok by (assumption || lia). cbn [bind].
    assert (RH : forall c, is_moment c -> whole_hour c -> round_hour (td c) = td c).
    { intros c C W. rewrite (td_hour c C W). replace (eh c * 720 - 723180 * 17280) with (720 * (eh c - 17356320)) by lia. apply round_hour_720. }
    rewrite (RH a A WA), (RH b B WB), (td_diff b a B A WB WA). rewrite nint_720. destruct r; reflexivity.
Qed.
Lemma difdat_steps : forall a b ra rb, stampable a -> basic a -> stampable b -> basic b -> 0 <= ra <= 9 -> 0 <= rb <= 9 ->
  difdat false (bstamp a ra) (bstamp b rb) = Some (td a - td b).
Proof.
  intros a b ra rb SA BA SB BB RA RB. unfold difdat.
  pose proof (stamp_basic_neg a ra SA BA RA) as NA. pose proof (stamp_basic_neg b rb SB BB RB) as NB.
  destruct (Z.ltb_spec (bstamp b rb) (-1)); [lia|]. destruct (Z.ltb_spec (bstamp a ra) (-1)); [lia|]. cbn [orb].
  rewrite !mode_1_ok by assumption. reflexivity.
Qed.

(** Counts in terms of seconds. *)
Lemma seconds_hours : forall a b, is_moment a -> is_moment b -> whole_hour a -> whole_hour b ->
  (seconds b - seconds a) / 5 = 720 * (eh b - eh a).
Proof.
  intros a b A B [WA WA'] [WB WB']. unfold seconds. fold (dn a) (dn b). rewrite WA, WA', WB, WB'. unfold eh.
  replace (dn b * 86400 + hr b * 3600 + 0 * 60 + 0 - (dn a * 86400 + hr a * 3600 + 0 * 60 + 0))
    with (720 * (dn b * 24 + hr b - (dn a * 24 + hr a)) * 5) by lia. apply Z.div_mul. lia.
Qed.
Lemma seconds_steps : forall a b, stampable a -> stampable b -> (seconds b - seconds a) / 5 = td b - td a.
Proof.
  intros a b SA SB. rewrite (td_seconds a), (td_seconds b) by (apply SA || apply SB).
  pose proof (stampable_sec a SA) as A5. pose proof (stampable_sec b SB) as B5.
  assert (S5 : forall c, sec c mod 5 = 0 -> seconds c mod 5 = 0).
  { intros c C. unfold seconds. replace (day_number (yr c) (mon c) (day c) * 86400 + hr c * 3600 + mnt c * 60 + sec c)
      with (sec c + (day_number (yr c) (mon c) (day c) * 17280 + hr c * 720 + mnt c * 12) * 5) by lia. rewrite Z.mod_add by lia. exact C. }
  apply S5 in A5, B5. set (x := seconds a) in *. set (y := seconds b) in *. clearbody x y. clear - A5 B5.
  Z.div_mod_to_equations; lia.
Qed.

(** * Whatever a stamp prints is a date *)
Lemma validtm_inv : forall y m d z, 0 <= y -> validtm y m d z = true -> feb29_ok y m d = true ->
  1900 <= y <= 2235 /\ 1 <= m <= 12 /\ 1 <= d <= month_len y m /\ 0 <= z < 24.
Proof.
  intros y m d z Y V F. unfold validtm in V. rewrite !andb_true_iff, !Z.leb_le, !Z.ltb_lt in V.
  destruct V as [[[[[[[V1 V2] V3] V4] V5] V6] V7] V8]. pose proof (mdays_ok y m d Y ltac:(lia)) as E.
  rewrite F, (proj2 (Z.leb_le _ _) V4) in E. symmetry in E. cbn [andb] in E. apply Z.leb_le in E. lia.
Qed.
Lemma validtme_inv : forall y m d z, 0 <= y -> validtme y m d z = true -> feb29_ok y m d = true ->
  0 <= y < 10000 /\ 1 <= m <= 12 /\ 1 <= d <= month_len y m /\ 0 <= z < 24.
Proof.
  intros y m d z Y V F. unfold validtme in V. rewrite !andb_true_iff, !Z.leb_le, !Z.ltb_lt in V.
  destruct V as [[[[[[[V1 V2] V3] V4] V5] V6] V7] V8]. pose proof (mdays_ok y m d Y ltac:(lia)) as E.
  rewrite F, (proj2 (Z.leb_le _ _) V6) in E. symmetry in E. cbn [andb] in E. apply Z.leb_le in E. lia.
Qed.

Lemma mode_m5_prints : forall s p t, mode_m5 s = Some (p, t) ->
  exists a, stampable a /\ whole_hour a /\ pdate a = p /\ ptime a = t.
Proof.
  intros s p t E. unfold mode_m5 in E. cbv zeta in E.
  destruct ((s mod 2 ^ 32 <? troisg) || (troisg + max_offset <=? s mod 2 ^ 32)) eqn:G; [discriminate|].
  apply orb_false_iff in G. destruct G as [G1 G2]. apply Z.ltb_ge in G1. apply Z.leb_gt in G2.
  set (c := dec8 (s mod 2 ^ 32 - troisg)) in *.
  assert (C : 0 <= c).
  { unfold c, dec8. rewrite Z.quot_div_nonneg, Z.rem_mod_nonneg by lia. Z.div_mod_to_equations; lia. }
  destruct (datec_cover (jd0 + c /f 24)) as (y & m & d & D & Y & _). { pose proof (Z.quot_pos c 24 C ltac:(lia)). lia. }
  rewrite D in E. destruct (validtme y m d (c %f 24)) eqn:V; [|discriminate].
  destruct (feb29_ok y m d) eqn:F; [|discriminate]. cbn [negb] in E.
  destruct (validtme_inv y m d (c %f 24) Y V F) as (Y2 & M & DD & ZZ).
  exists {| yr := y; mon := m; day := d; hr := c %f 24; mnt := 0; sec := 0 |}.
  assert (W : whole_hour {| yr := y; mon := m; day := d; hr := c %f 24; mnt := 0; sec := 0 |}) by (split; reflexivity).
  assert (p = y * 10000 + m * 100 + d) by congruence. assert (t = c %f 24 * 1000000) by congruence.
  split; [split; [split; [repeat split|repeat split]|left; exact W]|]; cbn [yr mon day hr mnt sec]; try lia.
  split; [exact W|]. unfold pdate, ptime. cbn [yr mon day hr mnt sec]. lia.
Qed.

Lemma mode_m3_prints : forall s p t, - 2 ^ 31 <= s < 2 ^ 31 -> mode_m3 s = Some (p, t) ->
  exists a, stampable a /\ pdate a = p /\ ptime a = t.
Proof.
  intros s p t R E. unfold mode_m3 in E. cbv zeta in E.
  destruct (Z.ltb_spec s (-1)) as [L|L].
  { destruct (mode_m5_prints s p t E) as (a & A & _ & P). exists a. split; assumption. }
  destruct (Z.leb_spec tdstart s) as [N|N].
  - set (c := dec8 (s - tdstart)) in *.
    assert (C : 0 <= c).
    { unfold c, dec8. rewrite Z.quot_div_nonneg, Z.rem_mod_nonneg by lia. Z.div_mod_to_equations; lia. }
    destruct (datec_cover (jd1900 + (c - td1900) /f 17280)) as (y & m & d & D & Y & _ & _ & J).
    { unfold jd0, jd1900, td1900. pose proof (Z.quot_pos (c - -504904320) 17280 ltac:(lia) ltac:(lia)). lia. }
    rewrite D in E.
    set (z := (c - td1900) %f 17280 /f 720) in *.
    destruct (validtm y m d z) eqn:V; [|discriminate]. destruct (feb29_ok y m d) eqn:F; [|discriminate]. cbn [negb] in E.
    destruct (validtm_inv y m d z Y V F) as (Y2 & M & DD & ZZ).
    assert (CB : c <= 1615714559).
    { assert (A : is_moment {| yr := y; mon := m; day := d; hr := 0; mnt := 0; sec := 0 |}).
      { split; repeat split; cbn [yr mon day hr mnt sec]; lia. }
      pose proof (proj1 (dn_basic _ A)) as B. cbn [yr] in B. specialize (B Y2). pose proof (jd_dn _ A) as JD.
      cbn [yr mon day] in JD. rewrite JD in J. unfold jd1900, td1900 in J. rewrite Z.quot_div_nonneg in J by lia.
      set (n := dn {| yr := y; mon := m; day := d; hr := 0; mnt := 0; sec := 0 |}) in *. clearbody n. clear - J B C.
      assert (K : (c - -504904320) / 17280 = n - 693961) by lia. clear J. Z.div_mod_to_equations; lia. }
    destruct (td_surj c) as (a & SA & BA & TA).
    { unfold validtd. replace (0 <=? c) with true by (symmetry; apply Z.leb_le; exact C). reflexivity. }
    { exact CB. }
    exists a. split; [exact SA|]. pose proof (proj1 SA) as A.
    destruct (td_parts a A ltac:(unfold basic in BA; lia)) as (P1 & P2 & P3 & _). rewrite TA in *.
    rewrite P1, datec_dn in D by exact A. fold z in P2.
    assert (X1 : y = yr a) by congruence. assert (X2 : m = mon a) by congruence. assert (X3 : d = day a) by congruence.
    rewrite P2, P3 in E. destruct A as [_ [_ [MI S]]].
    destruct (sec_parts (mnt a) (sec a) MI S (stampable_sec a SA)) as [Q1 Q2]. rewrite Q1, Q2 in E.
    unfold pdate, ptime. subst y m d. split; congruence.
  - set (z := s /f 10 %f 100) in *. set (y := s /f 1000 %f 100 + 1900) in *. set (d := s /f 100000 %f 100) in *.
    set (m := s /f 10000000 %f 100) in *.
    destruct (validtm y m d z) eqn:V; [|discriminate]. destruct (feb29_ok y m d) eqn:F; [|discriminate]. cbn [negb] in E.
    assert (Y : 0 <= y). { unfold validtm in V. rewrite !andb_true_iff, !Z.leb_le in V. lia. }
    destruct (validtm_inv y m d z Y V F) as (Y2 & M & DD & ZZ).
    exists {| yr := y; mon := m; day := d; hr := z; mnt := 0; sec := 0 |}.
    split; [split; [split; repeat split|left; split; reflexivity]|]; cbn [yr mon day hr mnt sec]; try lia.
    unfold pdate, ptime. cbn [yr mon day hr mnt sec]. clearbody y m d z. split; [congruence|].
    assert (t = z * 1000000) by congruence. lia.
Qed.

(** * What is not a date is refused *)
Lemma refuse_digits : forall y m d, 0 <= y -> ~ (1 <= m <= 12 /\ 1 <= d <= month_len y m) ->
  (0 <? m) && (m <=? 12) && (0 <? d) && (d <=? mdays m) && feb29_ok y m d = false.
Proof.
  intros y m d Y N. destruct ((0 <? m) && (m <=? 12) && (0 <? d) && (d <=? mdays m) && feb29_ok y m d) eqn:E; [|reflexivity].
  exfalso. apply N. rewrite !andb_true_iff, !Z.ltb_lt, !Z.leb_le in E. destruct E as [[[[E1 E2] E3] E4] E5].
  pose proof (mdays_ok y m d Y ltac:(lia)) as M. rewrite E5, (proj2 (Z.leb_le _ _) E4) in M. symmetry in M. apply Z.leb_le in M. lia.
Qed.
Lemma mode_3_refuses : forall y m d z rest, 0 <= y < 10000 -> 0 <= m < 100 -> 0 <= d < 100 -> 0 <= z < 100 -> 0 <= rest < 1000000 ->
  ~ (is_date y m d /\ 0 <= z < 24) -> mode_3 (y * 10000 + m * 100 + d) (z * 1000000 + rest) = None.
Proof.
  intros y m d z rest Y M D Z R N.
  set (p := y * 10000 + m * 100 + d). set (t := z * 1000000 + rest).
  assert (D1 : p /f 10000 %f 10000 = y /\ p /f 100 %f 100 = m /\ p %f 100 = d /\ t /f 1000000 %f 100 = z).
  { unfold p, t. rewrite !(Z.quot_div_nonneg (_ + d)), !(Z.quot_div_nonneg (_ + rest)) by lia.
    rewrite !Z.rem_mod_nonneg by (try lia; apply Z.div_pos; lia). repeat split; Z.div_mod_to_equations; lia. }
  destruct D1 as (E1 & E2 & E3 & E4).
  assert (VM : forall q, (q = true -> 0 <= z <= 23 /\ (0 <? m) && (m <=? 12) && (0 <? d) && (d <=? mdays m) = true) ->
            q = false \/ feb29_ok y m d = false).
  { intros q Q. destruct q; [right|left; reflexivity]. destruct (Q eq_refl) as [Q1 Q2].
    destruct (feb29_ok y m d) eqn:F; [|reflexivity]. exfalso. apply N. split; [|lia]. split; [lia|].
    destruct (Z_le_dec 1 m); destruct (Z_le_dec m 12); destruct (Z_le_dec 1 d); destruct (Z_le_dec d (month_len y m)); try lia;
    exfalso; assert (X : ~ (1 <= m <= 12 /\ 1 <= d <= month_len y m)) by lia; pose proof (refuse_digits y m d ltac:(lia) X) as RR;
    rewrite Q2, F in RR; discriminate. }
  assert (V5 : mode_5 p t = None).
  { unfold mode_5. cbv zeta. rewrite E1, E2, E3, E4.
    destruct (VM (validtme y m d z)) as [X|X].
    - unfold validtme. rewrite !andb_true_iff, !Z.leb_le, !Z.ltb_lt. intros. lia.
    - rewrite X. reflexivity.
    - rewrite X. destruct (validtme y m d z); reflexivity. }
  unfold mode_3. cbv zeta. rewrite E1, E2, E3, E4. destruct ((p =? 19010101) && (t =? 1000000)); [exact V5|].
  destruct ((y <? 1900) || (2235 <? y)); [exact V5|].
  destruct (VM (validtm y m d z)) as [X|X].
  - unfold validtm. rewrite !andb_true_iff, !Z.leb_le, !Z.ltb_lt. intros. lia.
  - rewrite X. reflexivity.
  - rewrite X. destruct (validtm y m d z); reflexivity.
Qed.

(** * Date arrays *)
Lemma dmagtp2_ok : forall a, stampable a ->
  dmagtp2 (stamp_of a) = (weekday (dn a), mon a, day a, yr a, hr a, (mnt a * 60 + sec a) * 100).
Proof.
  intros a ST. pose proof (proj1 ST) as A. unfold dmagtp2. rewrite mode_m3_ok by exact ST.
  destruct (moment_digits a A) as (D1 & D2 & D3 & D4 & D5 & D6 & D7). cbv zeta. rewrite D1, D2, D3, D4, D5, D6, D7.
  rewrite (jd_dn a A). pose proof (dn_range a A) as B. rewrite Z.rem_mod_nonneg by lia. unfold weekday.
  replace (1721060 + dn a + 1) with (dn a + 6 + 245865 * 7) by lia. rewrite Z.mod_add by lia. f_equal. lia.
Qed.
Lemma itdmag2_ok : forall a, stampable a -> 100 <= yr a ->
  itdmag2 (mon a) (day a) (yr a) (hr a) ((mnt a * 60 + sec a) * 100) = stamp_of a.
Proof.
  intros a ST Y. pose proof (proj1 ST) as A. destruct A as [_ [_ [MI S]]]. unfold itdmag2.
  replace ((0 <=? yr a) && (yr a <=? 99)) with false by (symmetry; apply andb_false_iff; right; apply Z.leb_gt; lia). cbv zeta.
  assert (E1 : (mnt a * 60 + sec a) * 100 /f 6000 = mnt a) by (nnq; Z.div_mod_to_equations; lia).
  assert (E2 : (mnt a * 60 + sec a) * 100 /f 100 %f 60 = sec a).
  { rewrite Z.quot_div_nonneg by lia. rewrite Z.div_mul by lia. nnq. Z.div_mod_to_equations; lia. }
  rewrite E1, E2. change (match mode_3 (pdate a) (ptime a) with Some s => s | None => 101010101 end = stamp_of a).
  rewrite mode_3_ok by exact ST. reflexivity.
Qed.
