(** Dates of standard file records. *)
From Coq Require Import ZArith List Lia Bool.
From Verif Require Import Bits WaFile Xdf Dates DatesSpec DatesCal DatesFacts DatesConv DatesModes DatesThm Fst FstSpec FstFacts.
Import ListNotations.
Open Scope Z_scope.
Open Scope opt_scope.

Lemma nint_exact n k : 0 < n -> nint (n * k) n = k.
Proof.
  intros N. unfold nint. destruct (Z.leb_spec 0 (n * k)); rewrite Z.quot_div_nonneg by lia.
  - replace (2 * (n * k) + n) with (n + k * (2 * n)) by lia. rewrite Z.div_add by lia. rewrite Z.div_small by lia. lia.
  - replace (-2 * (n * k) + n) with (n + (- k) * (2 * n)) by lia. rewrite Z.div_add by lia. rewrite Z.div_small by lia. lia.
Qed.
Lemma nint_near s k : 2 * Z.abs (s - 5 * k) < 5 -> nint s 5 = k.
Proof.
  intros N. unfold nint. destruct (Z.leb_spec 0 s); rewrite Z.quot_div_nonneg by lia; Z.div_mod_to_equations; lia.
Qed.
Lemma incdat_sec_5 d k : incdat_sec d (5 * k) = incdat false d k.
Proof.
  unfold incdat_sec, incdat. assert (E : nint (5 * k) 3600 = nint k 720).
  { unfold nint. destruct (Z.leb_spec 0 (5 * k)), (Z.leb_spec 0 k); try lia; rewrite !Z.quot_div_nonneg by lia;
      (replace (2 * 3600) with (5 * (2 * 720)) by lia).
    - replace (2 * (5 * k) + 3600) with (5 * (2 * k + 720)) by lia. apply Z.div_mul_cancel_l; lia.
    - f_equal. replace (-2 * (5 * k) + 3600) with (5 * (-2 * k + 720)) by lia. apply Z.div_mul_cancel_l; lia. }
  rewrite E, (nint_exact 5 k) by lia. reflexivity.
Qed.

Lemma sec_steps a : stampable a -> seconds a = 5 * (td a + 723180 * 17280).
Proof.
  intros SA. rewrite (td_seconds a (proj1 SA)). pose proof (stampable_sec a SA) as A5.
  assert (S5 : seconds a mod 5 = 0).
  { unfold seconds. replace (day_number (yr a) (mon a) (day a) * 86400 + hr a * 3600 + mnt a * 60 + sec a)
      with (sec a + (day_number (yr a) (mon a) (day a) * 17280 + hr a * 720 + mnt a * 12) * 5) by lia. rewrite Z.mod_add by lia. exact A5. }
  rewrite (Z.div_mod (seconds a) 5) at 1 by lia. rewrite S5. lia.
Qed.

(** incdatr by [sec] seconds, either way. *)
Definition reaches (o v : moment) (sec : Z) : Prop :=
  (whole_hour o /\ whole_hour v /\ o <> oddity /\ v <> oddity /\ seconds v = seconds o + sec) \/
  (1980 <= yr o <= 2235 /\ 1980 <= yr v <= 2235 /\ seconds v <= (723180 * 17280 + 1615714548) * 5 /\
   2 * Z.abs (seconds v - (seconds o + sec)) < 5).
Lemma incdat_reaches o v sec : stampable o -> stampable v -> reaches o v sec -> incdat_sec (stamp_of o) sec = Some (stamp_of v).
Proof.
  intros SO SV [(WO & WV & NO & NV & E)|(YO & YV & L & N)].
  - pose proof (seconds_hours o v (proj1 SO) (proj1 SV) WO WV) as H.
    assert (sec = 5 * (720 * (eh v - eh o))) as ->. { pose proof (sec_steps o SO) as E1. pose proof (sec_steps v SV) as E2. rewrite <- H. rewrite E1, E2. replace (5 * (td v + 723180 * 17280) - 5 * (td o + 723180 * 17280)) with ((td v - td o) * 5) by lia. rewrite Z.div_mul by lia. lia. }
    rewrite incdat_sec_5.
    assert (X : (~ basic o \/ o = oddity) \/ (basic o /\ o <> oddity)) by (destruct (basic_dec o); tauto).
    destruct X as [X|[B _]]; [apply incdat_ext; assumption|].
    rewrite (stamp_of_basic o (proj1 SO) B NO). rewrite incdat_basic_hours by (assumption || lia).
    destruct (basic_dec v) as [BB|BB]; [|reflexivity]. f_equal. symmetry.
    replace (run_of o 0) with 0 by (unfold run_of; destruct (new_style o); reflexivity). apply stamp_of_basic; [apply SV|exact BB|exact NV].
  - assert (BO : basic o) by (unfold basic; lia). assert (BV : basic v) by (unfold basic; lia).
    assert (NO : o <> oddity) by (intros ->; cbn [oddity yr] in YO; lia). assert (NV : v <> oddity) by (intros ->; cbn [oddity yr] in YV; lia).
    rewrite (stamp_of_basic o (proj1 SO) BO NO), (stamp_of_basic v (proj1 SV) BV NV).
    pose proof (sec_steps o SO) as E1. pose proof (sec_steps v SV) as E2.
    assert (K : nint sec 5 = td v - td o) by (apply nint_near; lia).
    pose proof (stamp_basic_neg o 0 SO BO ltac:(lia)) as NB. unfold incdat_sec.
    destruct (Z.ltb_spec (bstamp o 0) (-1)); [lia|]. rewrite mode_1_ok by (assumption || lia). cbn [bind].
    pose proof (td_nonneg o (proj1 SO) ltac:(lia)) as TA. destruct (Z.ltb_spec (td o) 0); [lia|].
    pose proof (td_min v (proj1 SV) ltac:(unfold basic in BV; lia)) as MB. rewrite K.
    assert (TV : td v <= td2235). { rewrite E2 in L. unfold td2235. lia. }
    destruct (Z.leb_spec (td1900 - td o) (td v - td o)); [|lia].
    destruct (Z.leb_spec (td v - td o) (td2235 - td o)); [|lia]. cbn [andb].
    replace (td o + (td v - td o)) with (td v) by lia. rewrite mode_m1_ok; [|exact SV|exact BV|destruct (new_style o); lia].
    destruct (new_style o); reflexivity.
Qed.
Lemma valid_reaches o v sec : stampable o -> stampable v -> valid_at o v sec -> reaches o v sec /\ reaches v o (- sec).
Proof.
  intros SO SV [(WO & WV & NO & NV & E)|(Y1 & Y2 & Y3 & Y4 & P & L & N)].
  - split; left; repeat split; try (apply WO || apply WV || assumption); lia.
  - pose proof (sec_steps o SO). pose proof (sec_steps v SV). split; right; repeat split; try lia.
Qed.

Lemma stamp_bounds a : stampable a -> - 2 ^ 31 <= stamp_of a < 2 ^ 31 /\ w32 (stamp_of a) mod 10 <= 7.
Proof.
  intros SA. pose proof (proj1 SA) as A. assert (X : (~ basic a \/ a = oddity) \/ (basic a /\ a <> oddity)) by (destruct (basic_dec a); destruct (oddity_dec a); tauto).
  assert (E8 : forall t, 0 <= t -> enc8 t mod 10 <= 7).
  { intros t T. unfold enc8. rewrite Z.quot_div_nonneg, Z.rem_mod_nonneg by lia. Z.div_mod_to_equations; lia. }
  destruct X as [X|[B N]].
  - rewrite (stamp_of_ext a X). destruct (ext_stamp_facts a A) as (F1 & F2 & F3 & F4). split; [lia|]. unfold w32. rewrite F3. destruct (eh_parts a A) as (_ & _ & EB).
    unfold troisg. pose proof (E8 (eh a) ltac:(lia)) as M. replace (enc8 (eh a) + 3000000000) with (enc8 (eh a) + 300000000 * 10) by lia. rewrite Z.mod_add by lia. exact M.
  - rewrite (stamp_of_basic a A B N). pose proof (stamp_basic_neg a 0 SA B ltac:(lia)) as R. split; [lia|]. unfold w32. rewrite (Z.mod_small (bstamp a 0) (2 ^ 32)) by lia.
    unfold bstamp. destruct (new_style a) eqn:E.
    + apply new_style_true in E. unfold new_stamp, tdstart. pose proof (td_nonneg a A ltac:(lia)) as T. pose proof (E8 (td a) T) as M. replace (123200000 + enc8 (td a)) with (enc8 (td a) + 12320000 * 10) by lia. rewrite Z.mod_add by lia. exact M.
    + unfold old_stamp. replace (mon a * 10000000 + day a * 100000 + (yr a - 1900) * 1000 + hr a * 10 + 0) with ((mon a * 1000000 + day a * 10000 + (yr a - 1900) * 100 + hr a) * 10) by lia. rewrite Z.mod_mul by lia. lia.
Qed.
Lemma stamps_of s a : stamps s a <-> stampable a /\ s = stamp_of a.
Proof. unfold stamps. split; intros [SA E]; (split; [exact SA|]); rewrite mode_3_ok in * by exact SA; congruence. Qed.

(** Written, then read. *)
Lemma dates_ok date deet npas : 0 <= deet * npas -> date_ok date deet npas ->
  let datexx := decimal_date (octal_date (valid_date date deet npas)) in
  dates_kept date deet npas (if deet * npas =? 0 then int32 datexx else incdat_out (incdat_sec (int32 datexx) (- (deet * npas)))) (int32 datexx).
Proof.
  intros P OK. unfold valid_date. set (t := deet * npas) in *.
  assert (V : forall o v, stamps date o -> stampable v -> valid_at o v t -> (if 0 <? t then incdat_out (incdat_sec date t) else date) = stamp_of v /\
              incdat_sec (stamp_of v) (- t) = Some date).
  { intros o v SO SV VA. apply stamps_of in SO. destruct SO as [SO ->]. destruct (valid_reaches o v t SO SV VA) as [R1 R2].
    split; [|apply incdat_reaches; assumption]. destruct (Z.ltb_spec 0 t) as [T|T].
    - rewrite (incdat_reaches o v t SO SV R1). reflexivity.
    - assert (t = 0) as E by lia. rewrite E in R1. pose proof (incdat_reaches o v 0 SO SV R1) as E1.
      assert (RO : reaches o o 0). { destruct R1 as [(A1 & A2 & A3 & A4 & A5)|(A1 & A2 & A3 & A4)]; [left|right]; repeat split; try (apply A1 || assumption || lia). pose proof (sec_steps o SO). pose proof (sec_steps v SV). lia. }
      pose proof (incdat_reaches o o 0 SO SO RO) as E2. congruence. }
  cbv zeta. set (dv := if 0 <? t then incdat_out (incdat_sec date t) else date) in *.
  assert (B : - 2 ^ 31 <= dv < 2 ^ 31 /\ w32 dv mod 10 <= 7).
  { destruct OK as [(T & R & M)|(o & v & SO & SV & VA)].
    - unfold dv. fold t in T. rewrite T. cbn [Z.ltb Z.compare]. split; [exact R|exact M].
    - destruct (V o v SO SV VA) as [-> _]. apply stamp_bounds. exact SV. }
  destruct B as [B M]. rewrite (octal_decimal dv M), (int32_w32 dv B). split; [|split].
  - destruct (Z.eqb_spec t 0) as [T|T]; [unfold dv; rewrite T; reflexivity|].
    destruct OK as [(T0 & _)|(o & v & SO & SV & VA)]; [fold t in T0; lia|]. destruct (V o v SO SV VA) as [E1 E2]. rewrite E1, E2. reflexivity.
  - fold t. intros T. unfold dv. rewrite T. reflexivity.
  - intros o v SO SV VA. fold t in VA. destruct (V o v SO SV VA) as [E _]. apply stamps_of. split; [exact SV|exact E].
Qed.
