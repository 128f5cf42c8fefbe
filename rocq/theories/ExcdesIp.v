(** The criteria on ip1, ip2 and ip3. *)
From Coq Require Import ZArith List Bool Lia Reals Lra.
From Flocq Require Import Core BinarySingleNaN Sterbenz.
From Verif Require Import Bits Flo FloatField FloatPack FloatDouble Convip ConvipFacts ConvipMain ConvipBack ConvipOld Excdes ExcdesSpec ExcdesFacts.
Import ListNotations.
Open Scope Z_scope.
Open Scope opt_scope.

(** * The levels decoded are numbers of a moderate size *)
Definition sized (p : f32) : Prop := is_finite p = true /\ (r32 p = 0 \/ bpow radix2 (-60) <= Rabs (r32 p))%R /\ (Rabs (r32 p) <= bpow radix2 40)%R.
Lemma sized_int p n : is_finite p = true -> r32 p = IZR n -> Z.abs n <= 2 ^ 40 -> sized p.
Proof.
  intros F E N. split; [exact F|]. rewrite E. rewrite <- abs_IZR. split; [|apply IZR_le with (m := 2 ^ 40); exact N].
  destruct (Z.eq_dec n 0) as [->|Z]; [left; reflexivity|right]. apply Rle_trans with 1%R; [apply (bpow_le radix2 (-60) 0); lia|apply IZR_le; lia].
Qed.
Lemma sized_of n : Z.abs n <= 2 ^ 33 -> sized (f32_of n).
Proof.
  intros N. pose proof (binary_normalize_correct 24 128 p24 e128 mode_NE n 0 false) as C. fold (f32_of n) in C. cbv zeta in C.
  assert (V : F2R (Float radix2 n 0) = IZR n) by (unfold F2R; cbn [Fnum Fexp bpow]; ring). rewrite V in C.
  change (round radix2 (SpecFloat.fexp 24 128) (round_mode mode_NE) (IZR n)) with (rnd32 (IZR n)) in C.
  assert (B : (Rabs (rnd32 (IZR n)) <= bpow radix2 33)%R) by (apply rnd32_bound; [lia|apply abs_int_bound; lia]).
  rewrite Rlt_bool_true in C by (eapply Rle_lt_trans; [exact B|apply bpow_lt; lia]). destruct C as (A & F & _). split; [exact F|]. unfold r32. rewrite A. split.
  - destruct (Z.eq_dec n 0) as [->|Z]; [left; apply rnd32_id, generic_format_0|right].
    assert (One : rnd32 1 = 1%R) by (apply rnd32_id, (fmt32_int 1); lia).
    assert (G : (1 <= Rabs (rnd32 (IZR n)))%R).
    { destruct (Z.lt_ge_cases n 0).
      - assert (X : (rnd32 (IZR n) <= rnd32 (-1))%R) by (apply rnd32_le; apply IZR_le; lia). assert (O : rnd32 (-1) = (-1)%R) by (apply rnd32_id, (fmt32_int (-1)); lia). rewrite O in X. rewrite Rabs_left1; lra.
      - assert (X : (rnd32 1 <= rnd32 (IZR n))%R) by (apply rnd32_le; apply IZR_le; lia). rewrite One in X. rewrite Rabs_pos_eq; lra. }
    eapply Rle_trans; [|exact G]. apply (bpow_le radix2 (-60) 0). lia.
  - eapply Rle_trans; [exact B|apply bpow_le; lia].
Qed.
Lemma sized_abs p : is_finite p = true -> (r32 p = 0 \/ / 1000000000000000000 <= Rabs (r32 p))%R -> (Rabs (r32 p) <= 1000000000000)%R -> sized p.
Proof.
  intros F L H. split; [exact F|]. split.
  - destruct L as [L|L]; [left; exact L|right]. eapply Rle_trans; [|exact L]. change (bpow radix2 (-60)) with (/ IZR (2 ^ 60))%R. apply Rinv_le; [lra|]. apply IZR_le. vm_compute. discriminate.
  - eapply Rle_trans; [exact H|]. change (bpow radix2 40) with (IZR (2 ^ 40)). apply IZR_le. vm_compute. discriminate.
Qed.
Lemma near_sized p (a : R) : is_finite p = true -> near (/ 4) a (r32 p) -> (a = 0 \/ / 100000000000000000 <= Rabs a)%R -> (Rabs a <= 100000000000)%R -> sized p.
Proof.
  intros F (d & D & E) L H. apply sized_abs; [exact F| |]; rewrite E, Rabs_mult; apply Rabs_le_inv in D; assert (D1 : (/ 2 <= Rabs (1 + d) <= 2)%R) by (rewrite Rabs_pos_eq; lra).
  - destruct L as [->|L]; [left; ring|right]. nra.
  - pose proof (Rabs_pos a). nra.
Qed.
Lemma T_bounds e : 0 <= e <= 15 -> (/ 10000 <= T (e - 4) <= 100000000000)%R.
Proof. intros E. split; [apply (bpow_le ten (-4)); lia|]. apply (bpow_le ten (e - 4) 11). lia. Qed.
Lemma abs_div_low n (t : R) : n <> 0 -> (0 < t <= 100000000000)%R -> (/ 100000000000 <= Rabs (IZR n / t))%R.
Proof.
  intros N T. unfold Rdiv. rewrite Rabs_mult, (Rabs_pos_eq (/ t)) by (apply Rlt_le, Rinv_0_lt_compat; lra). assert (/ 100000000000 <= / t)%R by (apply Rinv_le; lra).
  assert (1 <= Rabs (IZR n))%R by (rewrite <- abs_IZR; apply IZR_le; lia). nra.
Qed.
Lemma value_sized n e k : Z.abs n <= 1048575 -> 0 <= e <= 15 -> sized (value_of n e k).
Proof.
  intros N E. destruct (value_ok n e k N E) as [F V]. destruct (half_value_ok n e N E) as (_ & NR & _). pose proof (T_bounds e E) as TB.
  assert (FB : (1 <= Rabs (IZR (fact_of k)) <= 10000)%R) by (rewrite <- abs_IZR; split; apply IZR_le; unfold fact_of; destruct (k =? 17); try lia; destruct (k =? 21); lia).
  set (a := (IZR n / T (e - 4))%R) in *. set (f := IZR (fact_of k)) in *.
  assert (AB : (Rabs a <= 10485750000)%R).
  { unfold a, Rdiv. rewrite Rabs_mult, (Rabs_pos_eq (/ _)) by (apply Rlt_le, Rinv_0_lt_compat; lra). assert (0 < / T (e - 4) <= 10000)%R by (split; [apply Rinv_0_lt_compat; lra|rewrite <- (Rinv_inv 10000); apply Rinv_le; lra]).
    assert (Rabs (IZR n) <= 1048575)%R by (rewrite <- abs_IZR; apply IZR_le; lia). pose proof (Rabs_pos (IZR n)). nra. }
  assert (AL : (a = 0 \/ / 100000000000 <= Rabs a)%R).
  { destruct (Z.eq_dec n 0) as [->|Z]; [left; unfold a; field; lra|right; apply abs_div_low; [exact Z|lra]]. }
  assert (NF : f <> 0%R) by (intros Q; rewrite Q, Rabs_R0 in FB; lra).
  assert (I : (/ 10000 <= Rabs (/ f) <= 1)%R) by (rewrite Rabs_inv; split; [apply Rinv_le; lra|rewrite <- Rinv_1; apply Rinv_le; lra]).
  assert (N2 : near (/ 16000000) (a / f) (r32 (half_value n e) / f)) by (apply near_scale; exact NR).
  assert (A2 : (a / f = 0 \/ / 1000000000000000 <= Rabs (a / f))%R).
  { destruct AL as [Q|AL]; [left; rewrite Q; field; exact NF|right]. unfold Rdiv. rewrite Rabs_mult. nra. }
  assert (A3 : (Rabs (a / f) <= 10485750000)%R) by (unfold Rdiv; rewrite Rabs_mult; pose proof (Rabs_pos a); nra).
  apply (near_sized _ (a / f)); [exact F| |destruct A2; [left; assumption|right; lra]|lra].
  rewrite V. apply (near_trans (/ 16000000) e24 (/ 4) (a / f) (r32 (half_value n e) / f)); [lra|rewrite e24_val; lra|rewrite e24_val; lra|exact N2|].
  apply rnd32_near. destruct N2 as (d & D & Q). rewrite Q. destruct A2 as [Z|A2]; [left; rewrite Z; ring|right].
  rewrite Rabs_mult. apply Rabs_le_inv in D. assert (/ 2 <= Rabs (1 + d))%R by (rewrite Rabs_pos_eq; lra).
  apply Rle_trans with (/ 1000000000000000 * / 2)%R; [|nra]. apply Rle_trans with (bpow radix2 (-60)); [apply bpow_le; lia|].
  change (bpow radix2 (-60)) with (/ IZR (2 ^ 60))%R. rewrite <- Rinv_mult. apply Rinv_le; [lra|]. rewrite <- mult_IZR. apply IZR_le. vm_compute. discriminate.
Qed.
Lemma hi_sized k : sized (hi_val k).
Proof.
  destruct (hi_ok k) as (A & B & _). apply (sized_int _ (hi_of k)); [exact B|exact A|]. unfold hi_of. destruct (existsb _ _); [lia|]; destruct (existsb _ _); [lia|]; repeat (destruct (_ =? _); [lia|]); lia.
Qed.
Lemma low_sized k : sized (low_val k).
Proof.
  destruct (low_ok k) as (A & B). apply (sized_int _ (low_of k)); [exact B|exact A|]. unfold low_of. destruct (existsb _ _); [lia|]; destruct (existsb _ _); [lia|]; destruct (existsb _ _); lia.
Qed.
Lemma settle_sized p k : sized p -> sized (fst (settle p k)).
Proof.
  intros S. unfold settle. cbn [fst].
  assert (I : forall (c : bool) x y, sized x -> sized y -> sized (if c then x else y)) by (intros [] x y; auto).
  pose proof (low_sized k). pose proof (hi_sized k). assert (Z : sized (zero_val2 k)) by (unfold zero_val2; apply I; apply sized_of; lia).
  apply I; [exact Z|]. apply I; [assumption|]. apply I; assumption.
Qed.
Lemma zero_sized (p : f32) : (match p with B754_zero _ => true | _ => false end) = true -> sized p.
Proof. destruct p; try discriminate. intros _. apply (sized_int _ 0); [reflexivity|reflexivity|lia]. Qed.
Lemma from_ip_sized ip : word ip -> sized (fst (from_ip ip)).
Proof.
  intros W. unfold word in W. destruct (Z.lt_ge_cases 32767 ip) as [H|H].
  - unfold from_ip. rewrite (proj2 (Z.ltb_lt 32767 ip)) by exact H.
    unfold from_ip_new. assert (IV : sized (fst invalid)) by (cbn [invalid fst]; apply sized_of; unfold BAD; lia).
    set (k := Z.land 15 _). destruct (Z.eqb_spec k 15).
    + unfold from_kind_15. destruct (_ =? 15); [|exact IV]. set (v := Z.land ip 16777215).
      destruct (Z.leb_spec 0 v); cbn [andb].
      * destruct (Z.leb_spec v 2000000); [cbn [fst]; apply sized_of; lia|]. destruct (Z.leb_spec 16000000 v); cbn [andb]; [|exact IV]. destruct (Z.leb_spec v 15000001); [lia|exact IV].
      * destruct (Z.leb_spec 16000000 v); cbn [andb]; [|exact IV]. lia.
    + destruct (negb (validkind k)); [exact IV|]. set (e := Z.land 15 _). set (m := Z.land 1048575 ip).
      assert (E : 0 <= e <= 15) by (unfold e; rewrite Z.land_comm; change 15 with (Z.ones 4) at 1 2; rewrite Z.land_ones by lia; pose proof (Z.mod_pos_bound (Z.shiftr ip 20) (2 ^ 4) ltac:(lia)); lia).
      assert (M : 0 <= m <= 1048575) by (unfold m; rewrite Z.land_comm; change 1048575 with (Z.ones 20) at 1 2; rewrite Z.land_ones by lia; pose proof (Z.mod_pos_bound ip (2 ^ 20) ltac:(lia)); lia).
      set (i := if 1000000 <? m then _ else _). assert (N : Z.abs i <= 1048575) by (unfold i; destruct (1000000 <? m); lia).
      destruct (out_of_range _ k); [|apply settle_sized, value_sized; assumption]. destruct (validkind (k + 16)); [|exact IV].
      destruct (out_of_range _ _); [exact IV|apply settle_sized, value_sized; assumption].
  - destruct (Z.le_gt_cases 2000 ip) as [A|A].
    { destruct (Z.le_gt_cases ip 12000) as [B|B].
      - destruct (old_1_back ip ltac:(lia)) as (q & Q & F & V & _). rewrite Q. cbn [fst]. apply (near_sized _ (IZR (ip - 2000) / 10000)); [exact F| | |].
        + rewrite V. apply (near_weak e24); [rewrite e24_val; lra|]. apply rnd32_near. destruct (Z.eq_dec ip 2000) as [->|Z]; [left; cbn; field|right].
          eapply Rle_trans; [|apply abs_div_low; [lia|lra]]. apply Rle_trans with (bpow radix2 (-40)); [apply bpow_le; lia|]. change (bpow radix2 (-40)) with (/ IZR (2 ^ 40))%R. apply Rinv_le; [lra|]. apply IZR_le. vm_compute. discriminate.
        + destruct (Z.eq_dec ip 2000) as [->|Z]; [left; cbn; field|right]. eapply Rle_trans; [|apply abs_div_low; [lia|lra]]. lra.
        + unfold Rdiv. rewrite Rabs_mult, <- abs_IZR, (Rabs_pos_eq (/ _)) by lra. assert (IZR (Z.abs (ip - 2000)) <= 10000)%R by (apply IZR_le; lia). lra.
      - unfold from_ip, from_ip_old. rewrite (proj2 (Z.ltb_ge 32767 ip)) by exact H. rewrite (proj2 (Z.ltb_lt 12000 ip)) by exact B. cbn [andb].
        destruct (ip <=? 32000); [cbn [fst]; apply sized_of; lia|]. rewrite (proj2 (Z.leb_gt ip 12000)) by exact B. rewrite andb_false_r. rewrite (proj2 (Z.ltb_ge ip 1100)) by lia. rewrite andb_false_r.
        rewrite (proj2 (Z.ltb_ge ip 2000)) by lia. rewrite andb_false_r. rewrite (proj2 (Z.leb_gt ip 1200)) by lia. rewrite andb_false_r. cbn [fst]. apply sized_of. lia. }
    destruct (Z.lt_ge_cases 1200 ip) as [B|B].
    { assert (K : exists c b n, decade c b /\ (0 <= n <= 199) /\ ip = b + n).
      { destruct (Z.lt_ge_cases ip 1400); [exists 20000, 1200, (ip - 1200); split; [unfold decade; cbn; tauto|lia]|].
        destruct (Z.lt_ge_cases ip 1600); [exists 2000, 1400, (ip - 1400); split; [unfold decade; cbn; tauto|lia]|].
        destruct (Z.lt_ge_cases ip 1800); [exists 200, 1600, (ip - 1600); split; [unfold decade; cbn; tauto|lia]|].
        exists 20, 1800, (ip - 1800); split; [unfold decade; cbn; tauto|lia]. }
      destruct K as (c & b & n & D & N & ->). destruct (Z.eq_dec n 0) as [->|NZ].
      - unfold decade in D. cbn in D. destruct D as [D|[D|[D|[D|[]]]]]; injection D as <- <-; try (exfalso; lia); apply zero_sized; vm_compute; reflexivity.
      - destruct (old_2_small_back c b n D ltac:(lia)) as (q & Q & F & V). rewrite Q. cbn [fst].
        assert (CB : 20 <= c <= 20000) by (unfold decade in D; cbn in D; destruct D as [D|[D|[D|[D|[]]]]]; injection D as <- <-; lia).
        assert (20 <= IZR c <= 20000)%R by (split; apply IZR_le; lia).
        apply (near_sized _ (IZR n / IZR c)); [exact F|apply (near_weak (/ 16000000)); [lra|exact V]| |].
        + right. eapply Rle_trans; [|apply abs_div_low; [exact NZ|lra]]. lra.
        + unfold Rdiv. rewrite Rabs_mult, <- abs_IZR, (Rabs_pos_eq (/ _)) by (apply Rlt_le, Rinv_0_lt_compat; lra). assert (IZR (Z.abs n) <= 199)%R by (apply IZR_le; lia). assert (0 <= IZR (Z.abs n))%R by (apply IZR_le; lia).
          assert (/ IZR c <= / 20)%R by (apply Rinv_le; lra). assert (0 < / IZR c)%R by (apply Rinv_0_lt_compat; lra). nra. }
    destruct (Z.le_gt_cases 1100 ip) as [C|C].
    { destruct (old_3_back ip ltac:(lia)) as (q & Q & V & F). rewrite Q. cbn [fst]. apply (sized_int _ (1200 - ip)); [exact F|exact V|lia]. }
    unfold from_ip, from_ip_old. rewrite (proj2 (Z.ltb_ge 32767 ip)) by exact H. rewrite (proj2 (Z.ltb_ge 12000 ip)) by lia. cbn [andb]. rewrite (proj2 (Z.leb_gt 2000 ip)) by lia. cbn [andb].
    rewrite (proj2 (Z.ltb_ge 1200 ip)) by lia. rewrite (proj2 (Z.leb_gt 1100 ip)) by lia. cbn [andb]. destruct (_ && _); cbn [fst]; apply sized_of; lia.
Qed.

(** * Two levels compared *)
Lemma fmt32_f32 (p : f32) : generic_format radix2 (FLT_exp (-149) 24) (r32 p).
Proof. apply f32_fmt. Qed.
Lemma f32_eqb_ok x y : is_finite x = true -> is_finite y = true -> f32_eqb x y = Req_bool (r32 x) (r32 y).
Proof. intros A B. apply Beqb_correct; assumption. Qed.
Lemma f64_ltb_ok x y a b : is64 x a -> is64 y b -> f64_ltb x y = Rlt_bool a b.
Proof. intros [A1 A2] [B1 B2]. unfold f64_ltb. rewrite Bltb_correct by assumption. unfold r64 in *. rewrite A1, B1. reflexivity. Qed.
Lemma zero_is_0 : r32 (f32_of 0) = 0%R. Proof. reflexivity. Qed.
Lemma zero_over_zero (x y : f32) : is_finite x = true -> is_finite y = true -> r32 x = 0%R -> r32 y = 0%R -> f32_div x y = B754_nan.
Proof.
  intros FX FY X Y. destruct x as [s|s| |s m e B]; try discriminate FX; [|exfalso; apply eq_0_F2R in X; destruct s; discriminate].
  destruct y as [t|t| |t m e B]; try discriminate FY; [reflexivity|exfalso; apply eq_0_F2R in Y; destruct t; discriminate].
Qed.
Lemma nan_test : (let delta := narrow (f64_sub (f64_of 1) (widen B754_nan)) in let delta := if f32_ltb delta (f32_of 0) then Bopp delta else delta in f64_ltb (widen delta) (lit64 1 1000000)) = false.
Proof. vm_compute. reflexivity. Qed.
Lemma millionth : exists w, is64 (lit64 1 1000000) w /\ (17 / 17000017 < w < 17 / 16999983)%R.
Proof.
  assert (A : (Rabs (1 / 1000000) <= bpow radix2 1000)%R) by (rewrite Rabs_pos_eq by lra; apply Rle_trans with 1%R; [lra|apply (bpow_le radix2 0 1000); lia]).
  eexists. split; [apply (f64_div_ok _ _ 1 1000000); [apply (f64_of_ok 1); lia|apply (f64_of_ok 1000000); lia|lra|exact A]|].
  destruct (rnd64_near (1 / 1000000)) as (d & D & E).
  { right. rewrite Rabs_pos_eq by lra. apply Rle_trans with (bpow radix2 (-40)); [apply bpow_le; lia|]. change (bpow radix2 (-40)) with (/ IZR (2 ^ 40))%R. unfold Rdiv. rewrite Rmult_1_l. apply Rinv_le; [lra|]. apply IZR_le. vm_compute. discriminate. }
  rewrite E. pose proof e53_small. apply Rabs_le_inv in D. lra.
Qed.
(** Below 2, the distance of a short real to 1 is a number of 2^-24. *)
Lemma steps_of_one (q : R) : fmt32 q -> (/ 2 <= q <= 2)%R -> exists j, (q - 1)%R = (IZR j * bpow radix2 (-24))%R.
Proof.
  intros F B. unfold fmt32, generic_format, F2R in F. cbn [Fnum Fexp] in F. set (m := Ztrunc _) in F. set (e := cexp radix2 _ q) in *.
  assert (E : -24 <= e).
  { unfold e, cexp, SpecFloat.fexp, SpecFloat.emin, FLT_exp. assert (0 <= mag radix2 q). { apply mag_ge_bpow. change (bpow radix2 (0 - 1)) with (/ 2)%R. rewrite Rabs_pos_eq; lra. } lia. }
  exists (m * 2 ^ (e + 24) - 2 ^ 24). rewrite minus_IZR, mult_IZR. change 2 with (radix_val radix2) at 1 2. rewrite (IZR_Zpower radix2 (e + 24)) by lia. rewrite (IZR_Zpower radix2 24) by lia.
  rewrite Rmult_minus_distr_r, Rmult_assoc, <- !bpow_plus. replace (e + 24 + -24) with e by lia. rewrite <- F. cbn [Z.add Z.opp Z.pos_sub]. reflexivity.
Qed.
Lemma same_level_ok ip v : word ip -> word v -> same_level (fst (from_ip ip)) (snd (from_ip ip)) v = true <-> same_value ip v.
Proof.
  intros W1 W2. pose proof (from_ip_sized ip W1) as (F1 & _ & H1). pose proof (from_ip_sized v W2) as (F2 & L2 & H2).
  unfold same_level, same_value, value, kind. destruct (from_ip v) as [p2 k2] eqn:EV. set (p1 := fst (from_ip ip)) in *. set (k1 := snd (from_ip ip)). cbn [fst snd] in *.
  destruct (Z.eqb_spec k1 k2) as [K|K]; cbn [negb]; [|split; [discriminate|intros (A & _); congruence]].
  rewrite f32_eqb_ok by (assumption || reflexivity). rewrite f32_eqb_ok by assumption. rewrite zero_is_0.
  destruct (Req_dec (r32 p2) 0) as [Z|Z].
  { split; [|intros (_ & A & _); contradiction]. rewrite (Req_bool_true (r32 p2)) by exact Z. rewrite Z. cbn [andb].
    destruct (Req_dec (r32 p1) 0) as [Z1|Z1]; [rewrite Req_bool_true by exact Z1|rewrite Req_bool_false by exact Z1; discriminate]. cbn [negb].
    rewrite (zero_over_zero p1 p2) by assumption. intros X. exfalso. pose proof nan_test as Y. cbv zeta in X, Y. congruence. }
  rewrite (Req_bool_false (r32 p2)) by exact Z. cbn [andb].
  assert (L : (bpow radix2 (-60) <= Rabs (r32 p2))%R) by (destruct L2; [contradiction|assumption]). clear L2.
  assert (Q0 : (Rabs (r32 p1 / r32 p2) <= bpow radix2 100)%R).
  { unfold Rdiv. rewrite Rabs_mult, Rabs_inv. replace (bpow radix2 100) with (bpow radix2 40 * / bpow radix2 (-60))%R by (rewrite <- bpow_opp, <- bpow_plus; reflexivity).
    apply Rmult_le_compat; [apply Rabs_pos|apply Rlt_le, Rinv_0_lt_compat; eapply Rlt_le_trans; [apply bpow_gt_0|exact L]|exact H1|apply Rinv_le; [apply bpow_gt_0|exact L]]. }
  destruct (f32_div_ok p1 p2 Z) as [QV QF]; [eapply Rle_lt_trans; [apply (rnd32_bound _ 100); [lia|exact Q0]|apply bpow_lt; lia]|exact F1|].
  set (q := f32_div p1 p2) in *. rewrite <- QV.
  assert (QB : (Rabs (r32 q) <= bpow radix2 100)%R) by (rewrite QV; apply rnd32_bound; [lia|exact Q0]). clear QV Q0.
  pose proof (widen_ok q QF) as WQ.
  assert (B1 : (Rabs (1 - r32 q) <= bpow radix2 101)%R).
  { apply Rabs_le_inv in QB. replace (bpow radix2 101) with (2 * bpow radix2 100)%R by (rewrite (bpow_plus radix2 1 100 : bpow radix2 101 = _); reflexivity). assert (1 <= bpow radix2 100)%R by (apply (bpow_le radix2 0 100); lia). apply Rabs_le. lra. }
  assert (S64 : is64 (f64_sub (f64_of 1) (widen q)) (rnd64 (1 - r32 q))) by (apply f64_sub_ok; [apply (f64_of_ok 1); lia|exact WQ|eapply Rle_trans; [exact B1|apply bpow_le; lia]]).
  destruct (narrow_ok _ _ S64) as [NV NF]; [eapply Rle_trans; [apply (rnd64_bound _ 101); [lia|exact B1]|apply bpow_le; lia]|].
  set (d := narrow _) in *. set (a := if f32_ltb d (f32_of 0) then Bopp d else d).
  assert (AV : r32 a = Rabs (r32 d) /\ is_finite a = true).
  { unfold a. rewrite f32_ltb_ok by (assumption || reflexivity). rewrite zero_is_0. destruct (Rlt_bool_spec (r32 d) 0) as [N|N].
    - unfold r32 at 1. rewrite B2R_Bopp, is_finite_Bopp. split; [|exact NF]. rewrite Rabs_left by exact N. reflexivity.
    - split; [|exact NF]. rewrite Rabs_pos_eq by exact N. reflexivity. }
  destruct AV as [AV AF]. destruct millionth as (w & MW & MB). rewrite (f64_ltb_ok _ _ _ _ (widen_ok a AF) MW). rewrite AV, NV.
  set (z := r32 q) in *.
  assert (M : (Rabs (rnd32 (rnd64 (1 - z))) < w <-> Rabs (z - 1) < / 1000000)%R).
  { destruct (Rle_lt_dec (/ 2) z) as [Z1|Z1]; [destruct (Rle_lt_dec z 2) as [Z2|Z2]|].
    - assert (G : fmt32 (1 - z)) by (apply sterbenz; [apply fexp_correct; reflexivity|apply fexp_monotone|apply (fmt32_int 1); lia|apply f32_fmt|lra]).
      rewrite rnd64_id by (apply fmt64_of_32; exact G). rewrite rnd32_id by exact G. rewrite Rabs_minus_sym.
      destruct (steps_of_one z (f32_fmt q) ltac:(lra)) as (j & J). rewrite J. change (bpow radix2 (-24)) with (/ 16777216)%R. rewrite Rabs_mult, <- abs_IZR, (Rabs_pos_eq (/ _)) by lra.
      destruct (Z.le_gt_cases (Z.abs j) 16) as [X|X]; [apply IZR_le in X|apply IZR_lt in X; assert (17 <= IZR (Z.abs j))%R by (apply IZR_le; apply lt_IZR in X; lia)]; split; intros; lra.
    - assert (X : (rnd32 (rnd64 (1 - z)) <= -1)%R).
      { assert (O : rnd64 (-1) = (-1)%R) by (apply rnd64_id, (fmt64_int (-1)); lia). assert (O2 : rnd32 (-1) = (-1)%R) by (apply rnd32_id, (fmt32_int (-1)); lia).
        rewrite <- O2. apply rnd32_le. rewrite <- O. apply rnd64_le. lra. }
      rewrite Rabs_left by lra. rewrite Rabs_pos_eq by lra. split; intros; lra.
    - assert (X : (/ 2 <= rnd32 (rnd64 (1 - z)))%R).
      { assert (G : fmt32 (/ 2)) by (apply (generic_format_bpow radix2 _ (-1)); unfold SpecFloat.fexp, SpecFloat.emin, FLT_exp; lia).
        rewrite <- (rnd32_id (/ 2) G). apply rnd32_le. rewrite <- (rnd64_id (/ 2)) by (apply fmt64_of_32; exact G). apply rnd64_le. lra. }
      rewrite Rabs_pos_eq by lra. rewrite Rabs_left by lra. split; intros; lra. }
  destruct (Rlt_bool_spec (Rabs (rnd32 (rnd64 (1 - z)))) w) as [X|X]; split; intros Y; try discriminate; auto.
  - split; [exact K|]. split; [exact Z|]. apply M. exact X.
  - destruct Y as (_ & _ & Y). apply M in Y. lra.
Qed.

(** * The lists *)
Lemma values_case l ip tr : l <> [] -> Forall (fun v => 0 <= v < 2 ^ 31) l -> ip_ok tr l ip <-> In ip l \/ tr = true /\ Exists (same_value ip) l.
Proof.
  intros N F. destruct l as [|a l]; [contradiction|]. inversion F as [|? ? A F1]; subst. destruct a as [|a|a]; [| |lia].
  - cbn [ip_ok]. destruct l as [|b l]; [reflexivity|]. inversion F1 as [|? ? B F2]; subst. destruct b; [reflexivity|reflexivity|lia].
  - cbn [ip_ok]. destruct l as [|b l]; [reflexivity|]. inversion F1 as [|? ? B F2]; subst. destruct b; [reflexivity|reflexivity|lia].
Qed.
Lemma between_case v w ip tr : 0 <= v -> 0 <= w -> ip_ok tr [v; -2; w] ip <-> tr = true /\ between v w ip.
Proof. intros V W. destruct v as [|v|v]; [| |lia]; reflexivity. Qed.
Lemma nonneg_word v : 0 <= v < 2 ^ 31 -> word v. Proof. unfold word. lia. Qed.

Lemma match_values d l ip tr : i_use d = VALUE -> firstn (Z.to_nat (i_nelm d)) (i_data d) = l -> l <> [] -> Forall (fun v => 0 <= v < 2 ^ 31) l -> word ip ->
  match_ips d ip tr = true <-> ip_ok tr l ip.
Proof.
  intros U D N F W. rewrite values_case by assumption. unfold match_ips, match_ip. rewrite U, D. cbn [VALUE RANGE DELTA Z.eqb Pos.eqb orb].
  assert (H0 : nth 0 (i_data d) 0 =? -1 = false).
  { subst l. destruct (i_data d) as [|a r]; [destruct (Z.to_nat (i_nelm d)); contradiction|]. destruct (Z.to_nat (i_nelm d)); [contradiction|]. cbn [firstn] in F. inversion F; subst. cbn [nth]. apply Z.eqb_neq. lia. }
  rewrite H0. cbn [orb]. destruct (existsb (fun v => (ip =? v) || (v =? -1)) l) eqn:E.
  - split; [intros _; left|reflexivity]. apply existsb_exists in E as (x & I & X). rewrite Forall_forall in F. specialize (F x I). apply orb_prop in X as [X|X]; apply Z.eqb_eq in X; [subst; exact I|lia].
  - assert (NI : ~ In ip l). { intros I. assert (X : existsb (fun v => (ip =? v) || (v =? -1)) l = true) by (apply existsb_exists; exists ip; split; [exact I|rewrite Z.eqb_refl; reflexivity]). congruence. }
    destruct tr; cbn [negb]; [|split; [discriminate|intros [I|(X & _)]; [contradiction|discriminate]]].
    destruct (from_ip ip) as [p1 k1] eqn:EI. rewrite existsb_exists, Exists_exists. split.
    + intros (x & I & S). right. split; [reflexivity|]. exists x. split; [exact I|]. apply same_level_ok; [exact W|rewrite Forall_forall in F; apply nonneg_word; auto|]. rewrite EI. exact S.
    + intros [I|(_ & x & I & S)]; [contradiction|]. exists x. split; [exact I|]. apply same_level_ok in S; [|exact W|rewrite Forall_forall in F; apply nonneg_word; auto]. rewrite EI in S. exact S.
Qed.
Lemma match_between d v w ip tr : i_use d = RANGE -> nth 0 (i_data d) 0 = v -> nth 1 (i_data d) 0 = w -> 0 <= v < 2 ^ 31 -> 0 <= w < 2 ^ 31 -> word ip ->
  match_ips d ip tr = true <-> ip_ok tr [v; -2; w] ip.
Proof.
  intros U D0 D1 V W I. rewrite between_case by lia. unfold match_ips, match_ip. rewrite U, D0, D1. cbn [VALUE RANGE DELTA Z.eqb Pos.eqb orb].
  destruct (Z.eqb_spec v (-1)); [lia|]. cbn [orb]. destruct tr; cbn [negb]; [|split; [discriminate|intros (X & _); discriminate]].
  unfold bound. rewrite (proj2 (Z.leb_le 0 v)) by lia. rewrite (proj2 (Z.leb_le 0 w)) by lia. unfold between, value, kind.
  pose proof (from_ip_sized ip I) as (F1 & _). pose proof (from_ip_sized v (nonneg_word v V)) as (F2 & _). pose proof (from_ip_sized w (nonneg_word w W)) as (F3 & _).
  destruct (from_ip ip) as [p1 k1], (from_ip v) as [p2 k2], (from_ip w) as [p3 k3]. cbn [fst snd] in *.
  assert (S : exists a b, (if f32_ltb p3 p2 then (p3, p2) else (p2, p3)) = (a, b) /\ is_finite a = true /\ is_finite b = true /\ r32 a = Rmin (r32 p2) (r32 p3) /\ r32 b = Rmax (r32 p2) (r32 p3)).
  { rewrite f32_ltb_ok by assumption. destruct (Rlt_bool_spec (r32 p3) (r32 p2)).
    - exists p3, p2. repeat split; try assumption; [rewrite Rmin_right by lra|rewrite Rmax_left by lra]; reflexivity.
    - exists p2, p3. repeat split; try assumption; [rewrite Rmin_left by lra|rewrite Rmax_right by lra]; reflexivity. }
  destruct S as (a & b & -> & FA & FB & <- & <-).
  destruct (Z.eqb_spec k1 k2) as [E2|E2]; cbn [negb orb]; [|split; [discriminate|intros (_ & X & _); contradiction]].
  destruct (Z.eqb_spec k1 k3) as [E3|E3]; cbn [negb orb]; [|split; [discriminate|intros (_ & _ & X & _); contradiction]].
  rewrite !f32_ltb_ok by assumption. destruct (Rlt_bool_spec (r32 p1) (r32 a)); cbn [orb]; [split; [discriminate|intros (_ & _ & _ & X); lra]|].
  destruct (Rlt_bool_spec (r32 b) (r32 p1)); [split; [discriminate|intros (_ & _ & _ & X); lra]|]. split; [intros _|reflexivity]. repeat split; assumption.
Qed.

Lemma firstn_cut {A} (l m : list A) n : firstn n l = m -> (n <= length l)%nat -> length m = n.
Proof. intros <- L. rewrite firstn_length. lia. Qed.
Lemma splice_first n (data arr : list Z) : (1 <= n <= length data)%nat -> (n <= length arr)%nat -> hd 0 data = hd 0 arr ->
  firstn n (firstn 1 data ++ firstn (n - 1) (skipn 1 arr) ++ skipn n data) = firstn n arr.
Proof.
  intros N L H. destruct data as [|x data]; [cbn in N; lia|]. destruct arr as [|y arr]; [cbn in L; lia|]. cbn [hd] in H. subst y. destruct n as [|n]; [lia|]. cbn [length] in N, L.
  cbn [firstn skipn app Nat.sub]. rewrite Nat.sub_0_r. f_equal. rewrite firstn_app, firstn_firstn, Nat.min_id, firstn_length. replace (n - Nat.min n (length arr))%nat with O by lia. rewrite firstn_O, app_nil_r. reflexivity.
Qed.
Lemma splice_length n (data arr : list Z) : (1 <= n <= length data)%nat -> (n <= length arr)%nat -> length (firstn 1 data ++ firstn (n - 1) (skipn 1 arr) ++ skipn n data) = length data.
Proof. intros N L. rewrite !app_length, !firstn_length, !skipn_length. lia. Qed.

Lemma some_inj {A} (x y : A) : Some x = Some y -> x = y. Proof. congruence. Qed.
Lemma ips_ok d arr nelm d' : length (i_data d) = 50%nat -> fill_ip d arr nelm = Some d' -> 1 <= nelm <= 50 -> ip_list (firstn (Z.to_nat nelm) arr) ->
  length (i_data d') = 50%nat /\ i_use d' <> 0 /\ forall ip tr, word ip -> match_ips d' ip tr = true <-> ip_ok tr (firstn (Z.to_nat nelm) arr) ip.
Proof.
  intros L H NE IL. unfold fill_ip in H. destruct arr as [|a0 arr]; [discriminate|]. change (at_ (a0 :: arr) 0) with (Some a0) in H. cbn [bind] in H.
  destruct (i_data d) as [|x data] eqn:ED; [discriminate|]. cbn [length] in L. cbn [put i_data] in H.
  assert (HD : exists r, firstn (Z.to_nat nelm) (a0 :: arr) = a0 :: r) by (destruct (Z.to_nat nelm) eqn:E; [lia|cbn [firstn]; eauto]). destruct HD as (r & HD).
  destruct (Z.eqb_spec a0 (-1)) as [->|NA].
  { cbn [Z.eqb Pos.eqb] in H. injection H as <-. cbn [i_data i_use length]. split; [exact L|]. split; [discriminate|]. intros ip tr W. rewrite HD. split; reflexivity. }
  destruct (Z.eqb_spec nelm 1) as [->|N1].
  { injection H as <-. cbn [i_data i_use length]. split; [exact L|]. split; [discriminate|]. intros ip tr W. change (Z.to_nat 1) with 1%nat in *. cbn [firstn] in *.
    inversion IL as [l E|l E F E1|v w E]; subst; [contradiction|]. apply match_values; try assumption; reflexivity. }
  destruct arr as [|a1 arr]; [discriminate|]. change (at_ (a0 :: a1 :: arr) 1) with (Some a1) in H. cbn [bind] in H.
  destruct (Z.to_nat nelm) as [|[|m]] eqn:EN; [lia|lia|].
  destruct (Z.eqb_spec a1 READLX_RANGE) as [E1|E1].
  - subst a1. destruct (at_ _ 3) as [a3|] eqn:A3; [|discriminate]. cbn [bind] in H. apply at_some in A3 as [A3 _]. cbn [length] in A3.
    assert (SH : exists w, firstn (S (S m)) (a0 :: READLX_RANGE :: arr) = [a0; -2; w] /\ 0 <= a0 < 2 ^ 31 /\ 0 <= w < 2 ^ 31).
    { cbn [firstn] in *. inversion IL as [l E|l E F E'|v w V W E]; subst; [contradiction| |exists w; auto].
      inversion F as [|? ? ? F']; subst. inversion F'; subst. unfold READLX_RANGE in *. lia. }
    destruct SH as (w & SH & V & W). assert (M : m = 1%nat) by (apply (f_equal (@length Z)) in SH; rewrite firstn_length in SH; cbn [length] in SH; lia). subst m.
    assert (N3 : nelm = 3) by lia. subst nelm. destruct arr as [|a2 arr]; [cbn [length] in A3; lia|]. cbn [firstn] in SH. injection SH as ->.
    change (3 =? 5) with false in H. rewrite andb_false_r in H. destruct (Z.ltb_spec (Z.of_nat (length (a0 :: READLX_RANGE :: w :: arr))) 3); [discriminate|].
    destruct data as [|x1 [|x2 data]]; try discriminate. change (Z.to_nat (3 - 1)) with 2%nat in H. change (Z.to_nat 3) with 3%nat in H. change READLX_RANGE with (-2) in H. rewrite orb_true_r in H. cbn [Z.eqb Pos.eqb] in H.
    cbn [put firstn skipn app idata iuse inelm i_data nth] in H. injection H as <-. cbn [i_data i_use length]. split; [exact L|]. split; [discriminate|].
    intros ip tr I. apply match_between; try assumption; reflexivity.
  - cbn [bind] in H. destruct (Z.ltb_spec (Z.of_nat (length (a0 :: a1 :: arr))) nelm); [discriminate|].
    assert (F : Forall (fun v => 0 <= v < 2 ^ 31) (firstn (S (S m)) (a0 :: a1 :: arr))).
    { cbn [firstn] in *. inversion IL as [l E|l E F E'|v w V W E]; subst; [contradiction|assumption|]. unfold READLX_RANGE in *. congruence. }
    assert (A0 : 0 <= a0) by (cbn [firstn] in F; inversion F; subst; lia).
    rewrite (proj2 (Z.eqb_neq a0 READLX_RANGE)) in H by (unfold READLX_RANGE; lia). cbn [orb] in H. apply some_inj in H. subst d'.
    replace (Z.to_nat (nelm - 1)) with (Z.to_nat nelm - 1)%nat by lia. rewrite EN.
    set (l := a0 :: put data 1 READLX_RANGE). assert (LL : length l = 50%nat) by (unfold l; cbn [length]; rewrite put_length; exact L). cbn [idata i_data i_use i_nelm].
    split; [rewrite splice_length; [exact LL|rewrite LL; lia|cbn [length] in *; lia]|]. split; [discriminate|].
    intros ip tr I. apply match_values; cbn [idata i_data i_use i_nelm]; [reflexivity| |discriminate|exact F|exact I].
    rewrite EN. apply splice_first; [rewrite LL; lia|cbn [length] in *; lia|]. reflexivity.
Qed.
