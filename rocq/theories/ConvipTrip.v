(** From a level to its code and back (Convip.v). *)
From Coq Require Import ZArith List Bool Lia Reals Lra Psatz.
From Flocq Require Import Core BinarySingleNaN Relative.
From Verif Require Import Bits BitIOFacts Flo FloatField FloatDouble FloatFieldFacts Convip ConvipFacts ConvipMain ConvipBack.
Import ListNotations.
Open Scope Z_scope.
Open Scope opt_scope.

(** Values from 1 up stay at 1 or more. *)
Lemma half_one l2 m e x t : 4800 <= l2 <= 100000 -> (1 <= x)%R -> good_end l2 x t e -> (Rabs (t - IZR m) <= /2)%R -> (1 <= r32 (half_value m e))%R.
Proof.
  intros L X G M. pose proof (coded_low l2 m e x t L ltac:(lra) G M X) as C. pose proof (coded_m l2 m e x t G M) as [MB TM]. destruct G as (E & _ & _ & TE & _). pose proof (T_pos (e - 4)) as P.
  assert (Y : (1 <= IZR m / T (e - 4))%R) by (apply (Rmult_le_reg_r (T (e - 4))); [exact P|]; unfold Rdiv; rewrite Rmult_assoc, Rinv_l by lra; lra).
  assert (4 <= e \/ e < 4) as [E4|E4] by lia.
  - apply (proj2 (proj2 (half_bounds m e ltac:(lia) E))); [apply (fmt32_int 1); lia|exact E4|exact Y].
  - destruct (half_value_ok m e ltac:(lia) E) as (_ & NR & _). apply near_pos in NR; [|lra|lra]. assert (LR : (4800 <= IZR l2)%R) by (apply IZR_le; lia). destruct TE as [TE|TE]; [|lia].
    assert (T1 : (T (e - 4) <= 1)%R) by (change 1%R with (T 0); apply bpow_le; lia). assert (4000 <= IZR m / T (e - 4))%R; [|nra]. apply (Rmult_le_reg_r (T (e - 4))); [exact P|]. unfold Rdiv. rewrite Rmult_assoc, Rinv_l by lra. nra.
Qed.
Lemma half_high l2 m e x t H : 4800 <= l2 <= 100000 -> (0 <= x <= IZR H)%R -> 0 < H <= 10000000000 -> H < 9 * l2 \/ H mod 10000 = 0 -> fmt32 (IZR H) -> good_end l2 x t e -> (Rabs (t - IZR m) <= /2)%R -> (r32 (half_value m e) <= IZR H)%R.
Proof.
  intros L X HB HD F G M. pose proof (coded_high l2 m e x t L (proj1 X) G M H HB HD (proj2 X)) as CH. pose proof (coded_m l2 m e x t G M) as [MB _]. destruct G as (E & _). pose proof (T_pos (e - 4)) as P.
  apply (proj1 (proj2 (half_bounds m e ltac:(lia) E))); [apply IZR_le; lia|exact F|]. apply (Rmult_le_reg_r (T (e - 4))); [exact P|]. unfold Rdiv. rewrite Rmult_assoc, Rinv_l, Rmult_1_r by lra. exact CH.
Qed.

Lemma small_6 k : In k [6; 17] -> (1 < small k <= 100101 / 100000)%R.
Proof.
  intros K. unfold small. assert (zero_at k = 1%R) as -> by (destruct K as [<-|[<-|[]]]; reflexivity). rewrite Rmult_1_r, rnd32_id by apply f32_fmt.
  destruct (lit32_ok 1001 1000 ltac:(lia) ltac:(lia) ltac:(lia)) as [A B]. apply near_pos in A; [|lra|apply bpow_ge_0]. rewrite e24_val in A. lra.
Qed.

Definition settled (k : Z) (h q : R) : Prop := q = if Rlt_bool (Rabs h) (small k) then r32 (zero_val2 k) else h.
Lemma settled_ok q k : is_finite q = true -> (IZR (low_of k) <= r32 q <= IZR (hi_of k))%R -> exists q', settle q k = (q', k) /\ is_finite q' = true /\ settled k (r32 q) (r32 q').
Proof.
  intros F V. unfold settled. rewrite (settle_ok q k F V). destruct (Rlt_bool_spec (Rabs (r32 q)) (small k)) as [S|S].
  - exists (zero_val2 k). split; [reflexivity|]. split; [|reflexivity]. unfold zero_val2. destruct (existsb _ _); apply f32_of_ok; lia.
  - exists q. split; [reflexivity|]. split; [exact F|reflexivity].
Qed.

(** What the whole trip of a level gives. *)
Definition trip (p : f32) (k ip : Z) (q : f32) (h : R) : Prop :=
  to_ip_new p k = Some ip /\ 0 <= ip < 2 ^ 28 /\ from_ip ip = (q, k) /\ is_finite q = true /\ settled k h (r32 q) /\ (IZR (low_of k) <= h <= IZR (hi_of k))%R.

Lemma trip_A p k : kind_A k -> is_finite p = true -> (IZR (low_of k) <= r32 p <= IZR (hi_of k))%R -> (0 <= r32 p \/ r32 p <= - / 100000000000)%R ->
  exists ip q m e t, coded p k m e t /\ trip p k ip q (r32 (half_value (signed_m (r32 p) m) e)) /\ (Rabs (r32 q - r32 p) <= rt_error (limit2 (r32 p)) (Rabs (r32 p)))%R /\ r32 q = r32 (half_value (signed_m (r32 p) m) e).
Proof.
  intros H F V S. destruct (A_coded p k H F V) as (m & e & t & C). pose proof (kind_A_facts k H) as (K & F1 & Z & VK & LO & HI & HD & NL). pose proof (limit2_ok (r32 p)) as L.
  pose proof C as (TO & G & M & _). rewrite (A_scaled k _ H) in TO, G. rewrite (Z.mod_small k) in TO by lia.
  assert (S' : (0 <= r32 p)%R \/ 1 <= m) by (destruct S as [S|S]; [left; exact S|right; apply (at_least_one (limit2 (r32 p)) m e (Rabs (r32 p)) t); [exact L|rewrite Rabs_left by lra; lra|exact G|exact M]]).
  destruct (A_decoded p k m e t H F V C S') as (D & IP & FQ & RQ & RG). cbv zeta in *. exists (ip_of (code (r32 p) m) e k), (value_of (signed_m (r32 p) m) e k), m, e, t. split; [exact C|]. split; [|split; [|exact RQ]].
  - rewrite <- RQ. unfold trip. split; [exact TO|]. split; [exact IP|]. split; [exact D|]. split; [exact FQ|]. split; [unfold settled; rewrite (small_0 k Z), Rlt_bool_false by apply Rabs_pos; reflexivity|exact RG].
  - rewrite RQ. assert (X : (0 <= Rabs (r32 p) <= 10000000000)%R).
    { split; [apply Rabs_pos|]. apply Rabs_le. assert (IZR (hi_of k) <= 10000000000)%R by (apply IZR_le; lia). assert (-480000000 <= IZR (low_of k))%R by (apply IZR_le; lia). lra. }
    pose proof (half_error _ m e _ t L X G M) as HE. pose proof (coded_m _ m e _ t G M) as [MB _]. destruct G as (E & _). unfold signed_m. destruct (Rle_bool_spec 0 (r32 p)) as [P|P].
    + rewrite (Rabs_pos_eq (r32 p)) in * by exact P. exact HE.
    + rewrite half_opp by lia. rewrite (Rabs_left (r32 p)) in * by exact P. replace (- r32 (half_value m e) - r32 p)%R with (- (r32 (half_value m e) - - r32 p))%R by ring. rewrite Rabs_Ropp. exact HE.
Qed.

Lemma trip_B p : is_finite p = true -> (1 <= r32 p <= 200000)%R ->
  exists ip q m e t, coded p 6 m e t /\ trip p 6 ip q (r32 (half_value m e)) /\ (Rabs (r32 (half_value m e) - r32 p) <= rt_error 100000 (r32 p))%R.
Proof.
  intros F V. assert (SC : scaled 6 (r32 p) = r32 p) by (unfold scaled; change (zero_at 6) with 1%R; rewrite Rlt_bool_false by (rewrite Rabs_pos_eq; lra); change (fact_of 6) with 1; ring).
  assert (LI : limit2 (r32 p) = 100000) by (unfold limit2; rewrite Rle_bool_true by lra; reflexivity).
  destruct (enc_ok p 6 F ltac:(lia) ltac:(lia) V) as (m & e & t & TO & G & M & LE); [rewrite SC, LI, Rabs_pos_eq by lra; change (IZR (100000 * 100000)) with 10000000000%R; lra|].
  assert (C : coded p 6 m e t) by exact (conj TO (conj G (conj M LE))). rewrite SC, LI in *. rewrite (Rabs_pos_eq (r32 p)) in G by lra. change (6 mod 16) with 6 in TO.
  assert (G' := G). destruct (decode_fields (r32 p) t m e 6) as (D & IP & MB & E); [rewrite LI, Rabs_pos_eq by lra; exact G|exact M|left; lra|lia|reflexivity|]. rewrite LI in MB.
  assert (SM : signed_m (r32 p) m = m) by (unfold signed_m; rewrite Rle_bool_true by lra; reflexivity). rewrite SM in D.
  destruct (value_1 m e 6 ltac:(lia) E eq_refl) as [FQ RQ].
  assert (RG : (IZR (low_of 6) <= r32 (value_of m e 6) <= IZR (hi_of 6))%R).
  { rewrite RQ. split; [apply (half_one 100000 m e (r32 p) t); [lia|lra|exact G|exact M]|]. apply (half_high 100000 m e (r32 p) t (hi_of 6)); [lia|split; [lra|apply V]|vm_compute; split; [reflexivity|discriminate]|left; reflexivity|apply hi_ok|exact G|exact M]. }
  destruct (settled_ok (value_of m e 6) 6 FQ RG) as (q & SQ & FQ' & ST). rewrite RQ in *.
  exists (ip_of (code (r32 p) m) e 6), q, m, e, t. split; [exact C|]. split.
  - unfold trip. split; [exact TO|]. split; [exact IP|]. split; [|split; [exact FQ'|split; [exact ST|exact RG]]]. rewrite D. unfold decoded. rewrite in_range_ok; [exact SQ|exact FQ|rewrite RQ; exact RG].
  - apply (half_error 100000 m e (r32 p) t); [lia|lra|exact G|exact M].
Qed.

Lemma trip_C p : is_finite p = true -> (1 <= r32 p <= 480000000)%R ->
  exists ip q m e t, coded p 17 m e t /\ trip p 17 ip q (r32 (half_value m e)) /\ (Rabs (r32 (half_value m e) - r32 p) <= rt_error 4800 (r32 p))%R.
Proof.
  intros F V. assert (SC : scaled 17 (r32 p) = (- r32 p)%R) by (unfold scaled; change (zero_at 17) with 1%R; rewrite Rlt_bool_false by (rewrite Rabs_pos_eq; lra); change (fact_of 17) with (-1); ring).
  assert (LI : limit2 (- r32 p) = 4800) by (unfold limit2; rewrite Rle_bool_false by lra; reflexivity). assert (AB : Rabs (- r32 p) = r32 p) by (rewrite Rabs_Ropp, Rabs_pos_eq by lra; reflexivity).
  destruct (enc_ok p 17 F ltac:(lia) ltac:(lia)) as (m & e & t & TO & G & M & LE); [change (IZR (low_of 17)) with 1%R; change (IZR (hi_of 17)) with 10000000000%R; lra|rewrite SC, LI, AB; change (IZR (4800 * 100000)) with 480000000%R; lra|].
  assert (C : coded p 17 m e t) by exact (conj TO (conj G (conj M LE))). rewrite SC, LI, AB in *. change (17 mod 16) with 1 in TO.
  assert (M1 : 1 <= m) by (apply (at_least_one 4800 m e (r32 p) t); [lia|lra|exact G|exact M]).
  destruct (decode_fields (- r32 p) t m e 1) as (D & IP & MB & E); [rewrite LI, AB; exact G|exact M|right; exact M1|lia|reflexivity|]. rewrite LI in MB.
  assert (SM : signed_m (- r32 p) m = - m) by (unfold signed_m; rewrite Rle_bool_false by lra; reflexivity). rewrite SM in D.
  destruct (value_1 (- m) e 1 ltac:(lia) E eq_refl) as [FQ1 RQ1]. rewrite half_opp in RQ1 by lia. destruct (value_ok (- m) e 17 ltac:(lia) E) as [FQ RQ]. rewrite half_opp in RQ by lia. change (IZR (fact_of 17)) with (-1)%R in RQ.
  replace (- r32 (half_value m e) / -1)%R with (r32 (half_value m e)) in RQ by field. rewrite rnd32_id in RQ by apply f32_fmt.
  pose proof (half_one 4800 m e (r32 p) t ltac:(lia) ltac:(lra) G M) as H1.
  assert (RG : (IZR (low_of 17) <= r32 (value_of (- m) e 17) <= IZR (hi_of 17))%R).
  { rewrite RQ. split; [exact H1|]. apply (half_high 4800 m e (r32 p) t (hi_of 17)); [lia|change (IZR (hi_of 17)) with 10000000000%R; lra|vm_compute; split; [reflexivity|discriminate]|right; reflexivity|apply hi_ok|exact G|exact M]. }
  destruct (settled_ok (value_of (- m) e 17) 17 FQ RG) as (q & SQ & FQ' & ST). rewrite RQ in *.
  exists (ip_of (code (- r32 p) m) e 1), q, m, e, t. split; [exact C|]. split.
  - unfold trip. split; [exact TO|]. split; [exact IP|]. split; [|split; [exact FQ'|split; [exact ST|exact RG]]]. rewrite D. unfold decoded. rewrite (out_range_ok (value_of (- m) e 1) 1 FQ1) by (left; rewrite RQ1; change (IZR (low_of 1)) with 0%R; lra). change (1 + 16) with 17. change (validkind 17) with true. cbv iota. rewrite in_range_ok; [exact SQ|exact FQ|rewrite RQ; exact RG].
  - apply (half_error 4800 m e (r32 p) t); [lia|lra|exact G|exact M].
Qed.

Definition clear21 (v : R) : R := if Rlt_bool v small21 then small21 else v.
Lemma trip_D p : is_finite p = true -> (0 <= r32 p <= 1000000)%R ->
  exists ip q m e t, coded p 21 m e t /\ trip p 21 ip q (rnd32 (r32 (half_value m e) / 10000)) /\ (Rabs (r32 (half_value m e) - clear21 (r32 p) * 10000) <= rt_error 100000 (clear21 (r32 p) * 10000))%R.
Proof.
  intros F V. set (x := (clear21 (r32 p) * 10000)%R). assert (SC : scaled 21 (r32 p) = x) by (unfold scaled, x, clear21; change (zero_at 21) with small21; rewrite Rabs_pos_eq by lra; reflexivity).
  pose proof (proj1 small21_ok) as S21. assert (X : (1000999 / 1000000 <= x <= 10000000000)%R) by (unfold x, clear21; destruct (Rlt_bool_spec (r32 p) small21); lra).
  assert (LI : limit2 x = 100000) by (unfold limit2; rewrite Rle_bool_true by lra; reflexivity). assert (AB : Rabs x = x) by (apply Rabs_pos_eq; lra).
  destruct (enc_ok p 21 F ltac:(lia) ltac:(lia)) as (m & e & t & TO & G & M & LE); [exact V|rewrite SC, LI, AB; change (IZR (100000 * 100000)) with 10000000000%R; lra|].
  assert (C : coded p 21 m e t) by exact (conj TO (conj G (conj M LE))). rewrite SC, LI, AB in *. change (21 mod 16) with 5 in TO.
  destruct (decode_fields x t m e 5) as (D & IP & MB & E); [rewrite LI, AB; exact G|exact M|left; lra|lia|reflexivity|]. rewrite LI in MB.
  assert (SM : signed_m x m = m) by (unfold signed_m; rewrite Rle_bool_true by lra; reflexivity). rewrite SM in D.
  pose proof (half_error 100000 m e x t ltac:(lia) ltac:(lra) G M) as HE.
  destruct (value_1 m e 5 ltac:(lia) E eq_refl) as [FQ1 RQ1]. destruct (value_ok m e 21 ltac:(lia) E) as [FQ RQ]. change (IZR (fact_of 21)) with 10000%R in RQ.
  assert (H1 : (1 < r32 (half_value m e))%R) by (unfold rt_error in HE; apply Rabs_le_inv in HE; lra).
  assert (H2 : (r32 (half_value m e) <= 10000000000)%R) by (apply (half_high 100000 m e x t 10000000000); [lia|lra|lia|right; reflexivity|apply (hi_ok 3)|exact G|exact M]).
  assert (RG : (IZR (low_of 21) <= r32 (value_of m e 21) <= IZR (hi_of 21))%R).
  { rewrite RQ. change (IZR (low_of 21)) with 0%R. split; [rewrite <- (rnd32_id 0 (generic_format_0 _ _)); apply rnd32_le; lra|]. rewrite <- (rnd32_id (IZR (hi_of 21))) by apply hi_ok. apply rnd32_le. change (IZR (hi_of 21)) with 1000000%R. lra. }
  destruct (settled_ok (value_of m e 21) 21 FQ RG) as (q & SQ & FQ' & ST). rewrite RQ in *.
  exists (ip_of (code x m) e 5), q, m, e, t. split; [exact C|]. split; [|exact HE].
  unfold trip. split; [exact TO|]. split; [exact IP|]. split; [|split; [exact FQ'|split; [exact ST|exact RG]]]. rewrite D. unfold decoded. rewrite (out_range_ok (value_of m e 5) 5 FQ1) by (right; rewrite RQ1; exact H1). change (5 + 16) with 21. change (validkind 21) with true. cbv iota. rewrite in_range_ok; [exact SQ|exact FQ|rewrite RQ; exact RG].
Qed.
