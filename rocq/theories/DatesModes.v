From Coq Require Import ZArith List Lia Bool.
From Verif Require Import Bits Dates DatesSpec DatesCal DatesFacts DatesConv.
Import ListNotations.
Open Scope Z_scope.
Open Scope opt_scope.

Definition basic (a : moment) : Prop := 1900 <= yr a <= 2235.
Definition new_style (a : moment) : bool := (2000 <=? yr a) || ((1980 <=? yr a) && negb (mnt a * 60 + sec a =? 0)).
Definition old_stamp (a : moment) : Z := mon a * 10000000 + day a * 100000 + (yr a - 1900) * 1000 + hr a * 10.
Definition new_stamp (a : moment) : Z := tdstart + enc8 (td a).
Definition ext_stamp (a : moment) : Z := int32 (enc8 (eh a) + troisg).
(** Stamp of a basic date. *)
Definition bstamp (a : moment) (run : Z) : Z := if new_style a then new_stamp a else old_stamp a + run.

Lemma stampable_basic : forall a, stampable a -> 1980 <= yr a \/ whole_hour a.
Proof. intros a [_ [W|[W _]]]; [right; exact W|left; lia]. Qed.
Lemma stampable_sec : forall a, stampable a -> sec a mod 5 = 0.
Proof. intros a [_ [[_ W]|[_ W]]]; [rewrite W; reflexivity|exact W]. Qed.
Lemma whole_zero : forall a, is_moment a -> (whole_hour a <-> mnt a * 60 + sec a = 0).
Proof. intros a [_ [_ [M S]]]. unfold whole_hour. lia. Qed.
Lemma new_style_false : forall a, stampable a -> basic a -> new_style a = false -> whole_hour a /\ yr a < 2000.
Proof.
  intros a ST B N. unfold new_style in N. apply orb_false_iff in N. destruct N as [N1 N2].
  apply Z.leb_gt in N1. split; [|lia]. apply andb_false_iff in N2. destruct N2 as [N2|N2].
  - apply Z.leb_gt in N2. destruct (stampable_basic a ST) as [W|W]; [lia|exact W].
  - apply negb_false_iff, Z.eqb_eq in N2. apply whole_zero; [apply ST|exact N2].
Qed.
Lemma new_style_true : forall a, new_style a = true -> 1980 <= yr a.
Proof.
  intros a N. unfold new_style in N. apply orb_true_iff in N. destruct N as [N|N].
  - apply Z.leb_le in N. lia.
  - apply andb_true_iff in N. destruct N as [N _]. apply Z.leb_le in N. exact N.
Qed.

Lemma new_stamp_range : forall a, is_moment a -> 1980 <= yr a <= 2235 -> tdstart <= new_stamp a < 2 ^ 31.
Proof.
  intros a A Y. unfold new_stamp. pose proof (td_nonneg a A ltac:(lia)) as B. pose proof (td_max a A ltac:(lia)) as C.
  pose proof (enc8_bounds (td a) B) as E. change (2 ^ 31) with 2147483648. unfold tdstart. lia.
Qed.
Lemma old_stamp_range : forall a, is_moment a -> 1900 <= yr a < 2000 -> 10000000 <= old_stamp a < 123199240.
Proof.
  intros a [[Y [M D]] [H _]] B. pose proof (month_len_pos (yr a) (mon a) M). unfold old_stamp. lia.
Qed.
Lemma ext_stamp_facts : forall a, is_moment a ->
  ext_stamp a < -1 /\ - 2 ^ 31 <= ext_stamp a /\ ext_stamp a mod 2 ^ 32 = enc8 (eh a) + troisg /\ 0 <= enc8 (eh a) < max_offset.
Proof.
  intros a A. destruct (eh_parts a A) as (_ & _ & B). pose proof (enc8_bounds (eh a) ltac:(lia)) as E.
  assert (F : 0 <= enc8 (eh a) < max_offset).
  { unfold max_offset. split; [lia|]. unfold enc8. rewrite Z.quot_div_nonneg, Z.rem_mod_nonneg by lia. Z.div_mod_to_equations; lia. }
  destruct (int32_ext (enc8 (eh a)) ltac:(unfold max_offset in F; lia)) as (_ & G1 & G2 & G3).
  repeat split; try assumption; lia.
Qed.

(** Fields of an old stamp. *)
Lemma old_digits : forall a run, is_moment a -> 1900 <= yr a < 2000 -> 0 <= run <= 9 ->
  let s := old_stamp a + run in
  s %f 10 = run /\ s /f 10 %f 100 = hr a /\ s /f 1000 %f 100 + 1900 = yr a /\ s /f 100000 %f 100 = day a /\
  s /f 10000000 %f 100 = mon a.
Proof.
  intros a run [[Y [M D]] [H _]] B R. pose proof (month_len_pos (yr a) (mon a) M) as L. cbv zeta. unfold old_stamp.
  rewrite !(Z.quot_div_nonneg (_ + run)) by lia.
  rewrite !Z.rem_mod_nonneg by (try lia; apply Z.div_pos; lia).
  repeat split; Z.div_mod_to_equations; lia.
Qed.

Lemma oddity_print : forall a, is_moment a ->
  (pdate a =? 19010101) && (ptime a =? 1000000) = true -> a = oddity.
Proof.
  intros a A E. apply andb_true_iff in E. destruct E as [E1 E2]. apply Z.eqb_eq in E1, E2.
  destruct (moment_digits a A) as (D1 & D2 & D3 & D4 & D5 & D6 & _). rewrite E1 in *. rewrite E2 in *.
  destruct a as [y m d h mi s]. cbn [yr mon day hr mnt sec] in *.
  vm_compute in D1, D2, D3, D4, D5, D6. subst. reflexivity.
Qed.
Lemma oddity_decide : forall a, is_moment a -> a <> oddity ->
  (pdate a =? 19010101) && (ptime a =? 1000000) = false.
Proof.
  intros a A N. destruct ((pdate a =? 19010101) && (ptime a =? 1000000)) eqn:E; [|reflexivity].
  exfalso. apply N. apply oddity_print; assumption.
Qed.

(** * Modes 5, -5, 7, -7: extended dates *)
Lemma mode_5_ok : forall a, is_moment a -> mode_5 (pdate a) (ptime a) = Some (ext_stamp a).
Proof.
  intros a A. destruct (moment_digits a A) as (D1 & D2 & D3 & D4 & D5 & _). pose proof (dn_range a A) as B.
  unfold mode_5. cbv zeta. rewrite D1, D2, D3, D4, D5. rewrite (jd_dn a A). pose proof A as A'. destruct A' as [[Y [M D]] [HH [MI _]]].
  destruct (validtme_ok (yr a) (mon a) (day a) (hr a) Y HH M D) as [-> ->]. cbn [negb].
  unfold jd0, jd10k. destruct (Z.ltb_spec (1721060 + dn a) 1721060); [lia|]. destruct (Z.leb_spec 5373485 (1721060 + dn a)); [lia|].
  cbn [orb]. rewrite (Z.quot_small (mnt a) 60) by lia. unfold ext_stamp, eh. f_equal. f_equal. f_equal. f_equal. lia.
Qed.
Lemma mode_m5_ok : forall a, is_moment a -> mode_m5 (ext_stamp a) = Some (pdate a, hr a * 1000000).
Proof.
  intros a A. destruct (ext_stamp_facts a A) as (_ & _ & E & F). destruct (eh_parts a A) as (P1 & P2 & P3).
  unfold mode_m5. cbv zeta. rewrite E. unfold troisg, max_offset in *.
  destruct (Z.ltb_spec (enc8 (eh a) + 3000000000) 3000000000); [lia|].
  destruct (Z.leb_spec (3000000000 + 109572750) (enc8 (eh a) + 3000000000)); [lia|]. cbn [orb].
  replace (enc8 (eh a) + 3000000000 - 3000000000) with (enc8 (eh a)) by lia. rewrite dec8_enc8 by lia.
  rewrite P1, P2. unfold jd0. rewrite datec_dn by exact A. pose proof A as A'. destruct A' as [[Y [M D]] [HH _]].
  destruct (validtme_ok (yr a) (mon a) (day a) (hr a) Y HH M D) as [-> ->]. cbn [negb]. reflexivity.
Qed.
Lemma mode_7_ok : forall a, is_moment a -> mode_7 (pdate a) (ptime a) = Some (eh a).
Proof.
  intros a A. destruct (moment_digits a A) as (D1 & D2 & D3 & D4 & _).
  unfold mode_7. cbv zeta. rewrite D1, D2, D3, D4. rewrite (jd_dn a A). pose proof A as A'. destruct A' as [[Y [M D]] [HH _]].
  destruct (Z.ltb_spec (yr a) 0); [lia|]. destruct (Z.leb_spec 10000 (yr a)); [lia|]. cbn [orb].
  destruct (validtme_ok (yr a) (mon a) (day a) (hr a) Y HH M D) as [-> ->]. cbn [negb]. unfold eh, jd0. f_equal. lia.
Qed.
Lemma mode_m7_ok : forall a, is_moment a -> mode_m7 (eh a) = Some (pdate a, hr a * 1000000).
Proof.
  intros a A. destruct (eh_parts a A) as (P1 & P2 & P3). unfold mode_m7, validtd.
  replace (0 <=? eh a) with true by (symmetry; apply Z.leb_le; lia). cbn [orb negb].
  rewrite P1, P2. unfold jd0. rewrite datec_dn by exact A. pose proof A as A'. destruct A' as [[Y [M D]] [HH _]].
  destruct (validtme_ok (yr a) (mon a) (day a) (hr a) Y HH M D) as [-> ->]. reflexivity.
Qed.

(** * Modes 3 and -3 *)
Definition stamp_of (a : moment) : Z :=
  if ((1900 <=? yr a) && (yr a <=? 2235)) && negb ((pdate a =? 19010101) && (ptime a =? 1000000)) then bstamp a 0 else ext_stamp a.
Lemma stamp_of_basic : forall a, is_moment a -> basic a -> a <> oddity -> stamp_of a = bstamp a 0.
Proof.
  intros a A B N. unfold stamp_of. rewrite (oddity_decide a A N).
  replace (1900 <=? yr a) with true by (symmetry; apply Z.leb_le; apply B).
  replace (yr a <=? 2235) with true by (symmetry; apply Z.leb_le; apply B). reflexivity.
Qed.
Lemma stamp_of_ext : forall a, ~ basic a \/ a = oddity -> stamp_of a = ext_stamp a.
Proof.
  intros a [B| ->]; [|vm_compute; reflexivity]. unfold stamp_of.
  destruct ((1900 <=? yr a) && (yr a <=? 2235)) eqn:E; [|reflexivity].
  exfalso. apply B. apply andb_true_iff in E. rewrite !Z.leb_le in E. exact E.
Qed.
Lemma basic_dec : forall a, {basic a} + {~ basic a}.
Proof. intros a. unfold basic. destruct (Z_le_dec 1900 (yr a)); destruct (Z_le_dec (yr a) 2235); [left|right|right|right]; lia. Qed.
Lemma oddity_dec : forall a : moment, {a = oddity} + {a <> oddity}.
Proof. intros a. decide equality; apply Z.eq_dec. Qed.

Lemma td_split : forall a, is_moment a ->
  (1721060 + dn a - jd1980) * 17280 + hr a * 720 + (mnt a * 60 + sec a) /f 5 = td a.
Proof.
  intros a [_ [H [M S]]]. unfold td, jd1980. rewrite Z.quot_div_nonneg by lia. lia.
Qed.

Lemma mode_3_ok : forall a, stampable a -> mode_3 (pdate a) (ptime a) = Some (stamp_of a).
Proof.
  intros a ST. pose proof (proj1 ST) as A. destruct (moment_digits a A) as (D1 & D2 & D3 & D4 & D5 & D6 & _).
  destruct (oddity_dec a) as [->|N]; [vm_compute; reflexivity|].
  unfold mode_3. cbv zeta. rewrite (oddity_decide a A N). rewrite D1, D2, D3, D4, D5, D6.
  destruct (basic_dec a) as [B|B].
  2:{ rewrite (stamp_of_ext a (or_introl B)). replace ((yr a <? 1900) || (2235 <? yr a)) with true; [apply mode_5_ok; exact A|].
      symmetry. apply orb_true_iff. rewrite !Z.ltb_lt. unfold basic in B. lia. }
  rewrite (stamp_of_basic a A B N).
  replace ((yr a <? 1900) || (2235 <? yr a)) with false.
  2:{ symmetry. apply orb_false_iff. rewrite !Z.ltb_ge. unfold basic in B. lia. }
  pose proof A as A'. destruct A' as [[Y [M D]] [HH [MI S]]].
  destruct (validtm_ok (yr a) (mon a) (day a) (hr a) ltac:(unfold basic in B; lia) HH M D) as [-> ->]. cbn [negb].
  rewrite (jd_dn a A), (td_split a A).
  unfold bstamp. fold (new_style a). destruct (new_style a) eqn:NS; [reflexivity|].
  destruct (new_style_false a ST B NS) as [W Y2].
  assert (R : (td a - td1900) /f 720 * 720 + td1900 = td a).
  { pose proof (td_min a A ltac:(unfold basic in B; lia)) as B1. rewrite Z.quot_div_nonneg by lia.
    rewrite (td_hour a A W). unfold td1900.
    replace (eh a * 720 - 723180 * 17280 - -504904320) with ((eh a - 16655064) * 720) by lia. rewrite Z.div_mul by lia. lia. }
  rewrite R. destruct (td_parts a A ltac:(unfold basic in B; lia)) as (-> & -> & _).
  rewrite datec_dn by exact A. unfold old_stamp. f_equal. lia.
Qed.

Lemma mode_m3_new : forall a, is_moment a -> sec a mod 5 = 0 -> 1980 <= yr a <= 2235 -> mode_m3 (new_stamp a) = Some (pdate a, ptime a).
Proof.
  intros a A S5 Y. pose proof (new_stamp_range a A Y) as R. unfold mode_m3. cbv zeta. unfold tdstart in R.
  destruct (Z.ltb_spec (new_stamp a) (-1)); [lia|]. unfold tdstart at 1. destruct (Z.leb_spec 123200000 (new_stamp a)); [|lia].
  unfold new_stamp.
  replace (tdstart + enc8 (td a) - tdstart) with (enc8 (td a)) by lia.
  rewrite dec8_enc8 by (apply td_nonneg; [exact A|lia]).
  destruct (td_parts a A ltac:(lia)) as (-> & E2 & E3 & _). rewrite E2, E3. rewrite datec_dn by exact A.
  pose proof A as A'. destruct A' as [[Y' [M D]] [HH [MI S]]].
  destruct (validtm_ok (yr a) (mon a) (day a) (hr a) ltac:(lia) HH M D) as [-> ->]. cbn [negb].
  destruct (sec_parts (mnt a) (sec a) MI S S5) as [-> ->]. reflexivity.
Qed.
Lemma mode_m3_old : forall a run, is_moment a -> 1900 <= yr a < 2000 -> 0 <= run <= 9 ->
  mode_m3 (old_stamp a + run) = Some (pdate a, hr a * 1000000).
Proof.
  intros a run A Y R. pose proof (old_stamp_range a A Y) as B.
  destruct (old_digits a run A Y R) as (_ & E1 & E2 & E3 & E4). unfold mode_m3. cbv zeta.
  destruct (Z.ltb_spec (old_stamp a + run) (-1)); [lia|]. unfold tdstart. destruct (Z.leb_spec 123200000 (old_stamp a + run)); [lia|].
  rewrite E1, E2, E3, E4. pose proof A as A'. destruct A' as [[Y' [M D]] [HH [MI S]]].
  destruct (validtm_ok (yr a) (mon a) (day a) (hr a) ltac:(lia) HH M D) as [-> ->]. reflexivity.
Qed.
Lemma whole_ptime : forall a, whole_hour a -> ptime a = hr a * 1000000.
Proof. intros a [M S]. unfold ptime. rewrite M, S. lia. Qed.
Lemma mode_m3_b : forall a run, stampable a -> basic a -> 0 <= run <= 9 -> mode_m3 (bstamp a run) = Some (pdate a, ptime a).
Proof.
  intros a run ST B R. pose proof (proj1 ST) as A. unfold bstamp. unfold basic in B. destruct (new_style a) eqn:NS.
  - apply mode_m3_new; [exact A|apply stampable_sec; exact ST|]. apply new_style_true in NS. lia.
  - destruct (new_style_false a ST B NS) as [W Y2]. rewrite mode_m3_old by (assumption || lia).
    rewrite whole_ptime by exact W. reflexivity.
Qed.
Lemma stampable_ext : forall a, stampable a -> ~ basic a \/ a = oddity -> whole_hour a.
Proof.
  intros a [A [W|[Y _]]] [B| ->]; try exact W; [|split; reflexivity]. exfalso. apply B. unfold basic. lia.
Qed.
Lemma mode_m3_ok : forall a, stampable a -> mode_m3 (stamp_of a) = Some (pdate a, ptime a).
Proof.
  intros a ST. pose proof (proj1 ST) as A.
  assert (X : ~ basic a \/ a = oddity \/ (basic a /\ a <> oddity)).
  { destruct (basic_dec a); destruct (oddity_dec a); tauto. }
  assert (E : ~ basic a \/ a = oddity -> mode_m3 (stamp_of a) = Some (pdate a, ptime a)).
  { intros H. rewrite (stamp_of_ext a H). rewrite whole_ptime by (apply stampable_ext; assumption).
    destruct (ext_stamp_facts a A) as (L & _). unfold mode_m3. destruct (Z.ltb_spec (ext_stamp a) (-1)); [|lia].
    apply mode_m5_ok; exact A. }
  destruct X as [X|[X|[B N]]]; [apply E; tauto|apply E; tauto|].
  rewrite (stamp_of_basic a A B N). apply mode_m3_b; [exact ST|exact B|lia].
Qed.

(** * Modes 2 and -2 *)
Lemma mode_2_ok : forall a, is_moment a -> basic a -> a <> oddity -> mode_2 (pdate a) (ptime a) = Some (td a).
Proof.
  intros a A B N. destruct (moment_digits a A) as (D1 & D2 & D3 & D4 & D5 & D6 & _).
  unfold mode_2. cbv zeta. rewrite (oddity_decide a A N). rewrite D1, D2, D3, D4, D5, D6.
  pose proof A as A'. destruct A' as [[Y [M D]] [HH [MI S]]].
  destruct (validtm_ok (yr a) (mon a) (day a) (hr a) ltac:(unfold basic in B; lia) HH M D) as [-> ->]. cbn [negb].
  rewrite (jd_dn a A), (td_split a A). reflexivity.
Qed.
Lemma mode_m2_ok : forall a, stampable a -> basic a -> mode_m2 (td a) = Some (pdate a, ptime a).
Proof.
  intros a ST B. pose proof (proj1 ST) as A. unfold basic in B. unfold mode_m2.
  rewrite validtd_td by (try exact A; try lia; apply stampable_basic; exact ST). cbn [negb].
  destruct (td_parts a A ltac:(lia)) as (-> & E2 & E3 & _). cbv zeta. rewrite E2, E3. rewrite datec_dn by exact A.
  pose proof A as A'. destruct A' as [_ [_ [MI S]]].
  destruct (sec_parts (mnt a) (sec a) MI S (stampable_sec a ST)) as [-> ->]. reflexivity.
Qed.

(** * Modes 1 and -1 *)
Lemma td_rem : forall a, stampable a -> basic a -> (td a %f 720 =? 0) = (mnt a * 60 + sec a =? 0).
Proof.
  intros a ST B. pose proof (proj1 ST) as A. destruct (stampable_basic a ST) as [Y|W].
  - pose proof (td_nonneg a A Y) as T. rewrite Z.rem_mod_nonneg by lia.
    pose proof (stampable_sec a ST) as S5. pose proof (sub_hour a A) as SH. unfold td.
    replace ((dn a - 723180) * 17280 + hr a * 720 + (mnt a * 60 + sec a) / 5) with
      ((mnt a * 60 + sec a) / 5 + ((dn a - 723180) * 24 + hr a) * 720) by lia.
    rewrite Z.mod_add by lia. rewrite Z.mod_small by lia.
    destruct A as [_ [_ [MI S]]].
    destruct (Z.eqb_spec ((mnt a * 60 + sec a) / 5) 0); destruct (Z.eqb_spec (mnt a * 60 + sec a) 0); try reflexivity;
      exfalso; revert S5; clear - n e MI S; Z.div_mod_to_equations; lia.
  - rewrite (proj1 (whole_zero a A) W). rewrite (td_hour a A W).
    replace (eh a * 720 - 723180 * 17280) with ((eh a - 17356320) * 720) by lia. rewrite Z.rem_mul by lia. reflexivity.
Qed.
Lemma mode_m1_ok : forall a run, stampable a -> basic a -> run <= 9 -> mode_m1 (td a) run = Some (bstamp a run).
Proof.
  intros a run ST B R. pose proof (proj1 ST) as A. unfold mode_m1.
  rewrite validtd_td by (try exact A; try apply B; apply stampable_basic; exact ST).
  destruct (Z.ltb_spec 9 run); [lia|]. cbn [orb negb]. rewrite (td_rem a ST B).
  assert (NS : (td2000 <=? td a) || negb (mnt a * 60 + sec a =? 0) = new_style a).
  { unfold new_style. pose proof (sub_hour a A) as SH. pose proof (dn_2000 a A) as D2. pose proof (stampable_basic a ST) as SB.
    pose proof A as A'. destruct A' as [_ [HH _]].
    replace (td2000 <=? td a) with (2000 <=? yr a).
    - destruct (Z.leb_spec 1980 (yr a)) as [L|L]; [reflexivity|]. cbn [andb]. rewrite orb_false_r.
      destruct SB as [SB|SB]; [lia|]. rewrite (proj1 (whole_zero a A) SB). cbn [Z.eqb negb]. rewrite orb_false_r. reflexivity.
    - unfold td, td2000. destruct (Z.leb_spec 2000 (yr a)); symmetry; [apply Z.leb_le|apply Z.leb_gt]; lia. }
  rewrite NS. unfold bstamp. destruct (new_style a) eqn:E; [reflexivity|].
  destruct (new_style_false a ST B E) as [W Y2]. unfold basic in B.
  destruct (td_parts a A ltac:(lia)) as (P1 & P2 & _). rewrite P1. rewrite datec_dn by exact A. cbv zeta.
  assert (RR : (td a - td1900) /f 720 * 720 + td1900 = td a).
  { pose proof (td_min a A ltac:(lia)) as B1. rewrite Z.quot_div_nonneg by lia.
    rewrite (td_hour a A W). unfold td1900.
    replace (eh a * 720 - 723180 * 17280 - -504904320) with ((eh a - 16655064) * 720) by lia. rewrite Z.div_mul by lia. lia. }
  rewrite RR, P2. unfold old_stamp. reflexivity.
Qed.
Lemma mode_1_ok : forall a run, stampable a -> basic a -> 0 <= run <= 9 ->
  mode_1 (bstamp a run) = Some (td a, if new_style a then 0 else run).
Proof.
  intros a run ST B R. pose proof (proj1 ST) as A.
  assert (V : validtd (td a) = true) by (apply validtd_td; [exact A|apply B|apply stampable_basic; exact ST]).
  unfold basic in B. unfold bstamp, mode_1. destruct (new_style a) eqn:E.
  - apply new_style_true in E. pose proof (new_stamp_range a A ltac:(lia)) as NR.
    destruct (Z.leb_spec tdstart (new_stamp a)); [|lia]. unfold new_stamp.
    replace (tdstart + enc8 (td a) - tdstart) with (enc8 (td a)) by lia.
    rewrite dec8_enc8 by (apply td_nonneg; assumption). rewrite V. reflexivity.
  - destruct (new_style_false a ST B E) as [W Y2]. pose proof (old_stamp_range a A ltac:(lia)) as NR.
    destruct (Z.leb_spec tdstart (old_stamp a + run)) as [L|L]; [unfold tdstart in L; lia|].
    destruct (Z.ltb_spec (old_stamp a + run) (-1)); [lia|].
    destruct (old_digits a run A ltac:(lia) R) as (E0 & E1 & E2 & E3 & E4). cbv zeta. rewrite E0, E1, E2, E3, E4.
    rewrite (jd_dn a A). unfold jd1980.
    replace ((1721060 + dn a - 2444240) * 17280 + hr a * 720) with (td a).
    + rewrite V. reflexivity.
    + unfold td. destruct W as [-> ->]. change ((0 * 60 + 0) / 5) with 0. lia.
Qed.

(** * Modes 6 and -6 *)
Lemma mode_6_ok : forall a, stampable a -> mode_6 (stamp_of a) = Some (eh a).
Proof.
  intros a ST. pose proof (proj1 ST) as A. destruct (eh_parts a A) as (_ & _ & EB).
  assert (V : validtd (eh a) = true).
  { unfold validtd. replace (0 <=? eh a) with true by (symmetry; apply Z.leb_le; lia). reflexivity. }
  assert (X : (~ basic a \/ a = oddity) \/ (basic a /\ a <> oddity)).
  { destruct (basic_dec a); destruct (oddity_dec a); tauto. }
  destruct X as [X|[B N]].
  - rewrite (stamp_of_ext a X). destruct (ext_stamp_facts a A) as (L & _ & E & F). unfold mode_6.
    destruct (Z.ltb_spec (ext_stamp a) (-1)); [|lia]. cbv zeta. rewrite E. unfold troisg, max_offset in *.
    destruct (Z.ltb_spec (enc8 (eh a) + 3000000000) 3000000000); [lia|].
    destruct (Z.ltb_spec (3000000000 + 109572750) (enc8 (eh a) + 3000000000)); [lia|]. cbn [orb].
    replace (enc8 (eh a) + 3000000000 - 3000000000) with (enc8 (eh a)) by lia. rewrite dec8_enc8 by lia. reflexivity.
  - rewrite (stamp_of_basic a A B N). unfold basic in B. unfold bstamp. destruct (new_style a) eqn:NS.
    + apply new_style_true in NS. pose proof (new_stamp_range a A ltac:(lia)) as NR. unfold mode_6.
      destruct (Z.ltb_spec (new_stamp a) (-1)) as [L|L]; [unfold tdstart in NR; lia|].
      destruct (Z.leb_spec tdstart (new_stamp a)); [|lia]. cbv zeta. unfold new_stamp.
      replace (tdstart + enc8 (td a) - tdstart) with (enc8 (td a)) by lia.
      rewrite dec8_enc8 by (apply td_nonneg; assumption).
      destruct (td_parts a A ltac:(lia)) as (-> & -> & _). rewrite datec_dn by exact A. rewrite (jd_dn a A).
      replace ((1721060 + dn a - jd0) * 24 + hr a) with (eh a) by (unfold eh, jd0; lia). rewrite V. reflexivity.
    + destruct (new_style_false a ST B NS) as [W Y2]. pose proof (old_stamp_range a A ltac:(lia)) as NR. rewrite Z.add_0_r.
      unfold mode_6. destruct (Z.ltb_spec (old_stamp a) (-1)); [lia|].
      destruct (Z.leb_spec tdstart (old_stamp a)) as [L|L]; [unfold tdstart in L; lia|].
      destruct (old_digits a 0 A ltac:(lia) ltac:(lia)) as (_ & E1 & E2 & E3 & E4). rewrite Z.add_0_r in *. cbv zeta.
      rewrite E1, E2, E3, E4. rewrite (jd_dn a A).
      replace ((1721060 + dn a - jd0) * 24 + hr a) with (eh a) by (unfold eh, jd0; lia). rewrite V. reflexivity.
Qed.
Lemma eh_oddity : eh oddity = exception.
Proof. unfold eh, dn, day_number. cbn [oddity yr mon day hr]. rewrite days_before_closed. rewrite Z2Nat.id by lia. vm_compute. reflexivity. Qed.
Lemma moment_oddity : is_moment oddity.
Proof. vm_compute. repeat split; discriminate. Qed.
Lemma whole_oddity : whole_hour oddity.
Proof. split; reflexivity. Qed.
Lemma eh_inj : forall a b, is_moment a -> is_moment b -> whole_hour a -> whole_hour b -> eh a = eh b -> a = b.
Proof.
  intros a b A B [W1 W2] [W3 W4] E. unfold eh in E.
  assert (HA : 0 <= hr a < 24) by apply A. assert (HB : 0 <= hr b < 24) by apply B.
  assert (D : dn a = dn b) by lia. pose proof (datec_dn a A) as C1. pose proof (datec_dn b B) as C2.
  rewrite D, C2 in C1.
  destruct a as [y m d h mi s], b as [y' m' d' h' mi' s']. cbn [yr mon day hr mnt sec] in *. f_equal; try congruence. lia.
Qed.
Lemma ext_oddity : ext_stamp oddity = int32 (enc8 exception + troisg).
Proof. unfold ext_stamp. rewrite eh_oddity. reflexivity. Qed.
Lemma mode_m6_ok : forall a, stampable a -> whole_hour a -> mode_m6 (eh a) = Some (stamp_of a).
Proof.
  intros a ST W. pose proof (proj1 ST) as A. destruct (eh_parts a A) as (E1 & E2 & EB). unfold mode_m6. rewrite E1, E2.
  pose proof (dn_basic a A) as DB. fold (basic a) in DB.
  destruct (oddity_dec a) as [->|N].
  { rewrite eh_oddity. change (exception =? exception) with true. cbn [orb]. rewrite (stamp_of_ext oddity (or_intror eq_refl)).
    rewrite ext_oddity. reflexivity. }
  destruct (Z.eqb_spec (eh a) exception) as [X|X].
  { exfalso. apply N. apply eh_inj; [exact A|exact moment_oddity|exact W|exact whole_oddity|]. rewrite eh_oddity. exact X. }
  cbn [orb]. unfold jd0, jd1900, jd2236, jd1980.
  destruct (basic_dec a) as [B|B].
  - rewrite (stamp_of_basic a A B N).
    destruct (Z.ltb_spec (dn a + 1721060) 2415021); [apply DB in B; lia|].
    destruct (Z.leb_spec 2537742 (dn a + 1721060)); [apply DB in B; lia|]. cbn [orb].
    replace ((dn a + 1721060 - 2444240) * 17280 + hr a * 720) with (td a) by (rewrite (td_hour a A W); unfold eh; lia).
    apply mode_m1_ok; [exact ST|exact B|lia].
  - rewrite (stamp_of_ext a (or_introl B)).
    destruct (Z.ltb_spec (dn a + 1721060) 2415021); [reflexivity|].
    destruct (Z.leb_spec 2537742 (dn a + 1721060)); [reflexivity|]. exfalso. apply B. apply DB. lia.
Qed.
