(** The old codes of levels (Convip.v). *)
From Coq Require Import ZArith List Bool Lia Reals Lra Psatz.
From Flocq Require Import Core BinarySingleNaN Relative.
From Verif Require Import Bits BitIOFacts Flo FloatField FloatDouble FloatFieldFacts Convip ConvipFacts ConvipMain.
Import ListNotations.
Open Scope Z_scope.
Open Scope opt_scope.

Lemma nint_some x : is_finite x = true -> (Rabs (r32 x) <= 1000000000)%R -> exists n, nint x = Some n /\ (Rabs (r32 x - IZR n) <= /2)%R.
Proof.
  intros F B. set (n := Btrunc (@Bnearbyint 24 128 e128 mode_NA x)).
  assert (X : IZR n = IZR (ZnearestA (r32 x))).
  { unfold n. rewrite (@Btrunc_correct 24 128 e128). destruct (@Bnearbyint_correct 24 128 e128 mode_NA x) as (A & _ & _). rewrite A. cbn [round_mode]. fold (r32 x).
    assert (Q : round radix2 (FIX_exp 0) ZnearestA (r32 x) = IZR (ZnearestA (r32 x))) by (unfold round, F2R, scaled_mantissa, cexp, FIX_exp; cbn [Fnum Fexp bpow Z.opp]; rewrite Rmult_1_r, Rmult_1_r; reflexivity).
    rewrite Q. apply round_generic; [apply valid_rnd_ZR|]. apply generic_format_FIX. exists (Float radix2 (ZnearestA (r32 x)) 0); [unfold F2R; cbn; lra|reflexivity]. }
  apply eq_IZR in X. pose proof (Znearest_half (Z.leb 0) (r32 x)) as H. fold n in X. exists n. rewrite X. split; [|exact H].
  unfold nint. rewrite F. cbv zeta. fold n. rewrite X. apply Rabs_le_inv in H. apply Rabs_le_inv in B.
  assert (L : - 1000000001 < ZnearestA (r32 x) < 1000000001) by (split; apply lt_IZR; lra).
  rewrite (proj2 (Z.leb_le _ _)), (proj2 (Z.ltb_lt _ _)) by lia. reflexivity.
Qed.

(** Rounding a value that is not negative. *)
Definition mid (v : R) : Prop := (0 <= v <= 1000000000)%R.
Lemma mid_gap v : mid v -> (v - (v / 16777216 + / 1000000) <= rnd32 v <= v + (v / 16777216 + / 1000000))%R /\ (0 <= rnd32 v)%R /\ (Rabs (rnd32 v) < bpow radix2 128)%R.
Proof.
  intros [A B]. assert (P : (0 <= rnd32 v)%R) by (rewrite <- (rnd32_id 0 (generic_format_0 _ _)); apply rnd32_le; exact A). split; [|split; [exact P|]].
  - destruct (Rle_or_lt (bpow radix2 (-20)) v) as [C|C].
    + assert (N : near e24 v (rnd32 v)) by (apply rnd32_near; right; rewrite Rabs_pos_eq by lra; eapply Rle_trans; [|exact C]; apply bpow_le; lia). apply near_pos in N; [|lra|apply bpow_ge_0]. rewrite e24_val in N. lra.
    + assert (rnd32 v <= bpow radix2 (-20))%R by (rewrite <- (rnd32_id (bpow radix2 (-20))) by (apply generic_format_bpow; vm_compute; discriminate); apply rnd32_le; lra). change (bpow radix2 (-20)) with (/ 1048576)%R in *. lra.
  - eapply Rle_lt_trans; [apply (rnd32_bound _ 40); [lia|]|apply bpow_lt; lia]. rewrite Rabs_pos_eq by exact A. apply Rle_trans with (bpow radix2 30); [change (bpow radix2 30) with 1073741824%R; lra|apply bpow_le; lia].
Qed.
Lemma mul32 x y : is_finite x = true -> is_finite y = true -> mid (r32 x * r32 y) -> r32 (f32_mul x y) = rnd32 (r32 x * r32 y) /\ is_finite (f32_mul x y) = true.
Proof. intros FX FY M. apply f32_mul_ok; [apply mid_gap; exact M|exact FX|exact FY]. Qed.
Lemma div32 x y : is_finite x = true -> r32 y <> 0%R -> mid (r32 x / r32 y) -> r32 (f32_div x y) = rnd32 (r32 x / r32 y) /\ is_finite (f32_div x y) = true.
Proof. intros FX FY M. apply f32_div_ok; [exact FY|apply mid_gap; exact M|exact FX]. Qed.
Lemma add32 x y : is_finite x = true -> is_finite y = true -> mid (r32 x + r32 y) -> r32 (f32_add x y) = rnd32 (r32 x + r32 y) /\ is_finite (f32_add x y) = true.
Proof.
  intros FX FY M. destruct (mid_gap _ M) as (_ & _ & B). pose proof (@Bplus_correct 24 128 p24 e128 mode_NE x y FX FY) as C. unfold r32 in *. cbn [round_mode] in C. rewrite Rlt_bool_true in C by exact B. destruct C as (A & D & _).
  unfold f32_add. rewrite A. auto.
Qed.
Lemma sub32 x y : is_finite x = true -> is_finite y = true -> mid (r32 x - r32 y) -> r32 (f32_sub x y) = rnd32 (r32 x - r32 y) /\ is_finite (f32_sub x y) = true.
Proof.
  intros FX FY M. destruct (mid_gap _ M) as (_ & _ & B). pose proof (@Bminus_correct 24 128 p24 e128 mode_NE x y FX FY) as C. unfold r32 in *. cbn [round_mode] in C. rewrite Rlt_bool_true in C by exact B. destruct C as (A & D & _). auto.
Qed.
Lemma near_gap u a b c : (0 <= a <= c)%R -> (0 <= u)%R -> near u a b -> (Rabs (b - a) <= u * c)%R.
Proof. intros A U N. apply near_bound in N. rewrite (Rabs_pos_eq a) in N by lra. nra. Qed.

Lemma lit_near n d : 0 < n <= 2 ^ 24 -> 0 < d <= 2 ^ 24 -> (IZR n / IZR d * (1 - / 16000000) <= r32 (lit32 n d) <= IZR n / IZR d * (1 + / 16000000))%R /\ is_finite (lit32 n d) = true.
Proof.
  intros N D. destruct (lit32_ok n d ltac:(lia) ltac:(lia) ltac:(lia)) as [A B]. split; [|exact B]. assert (0 < IZR n / IZR d)%R by (apply Rdiv_lt_0_compat; apply IZR_lt; lia). apply near_pos in A; [|lra|apply bpow_ge_0]. rewrite e24_val in A. nra.
Qed.

(** ** Heights: kind 0 *)
Lemma old_0 p : is_finite p = true -> (0 <= r32 p <= 99995)%R -> exists ip, to_ip false p 0 = Some ip /\ 12001 <= ip <= 32000 /\ (Rabs (5 * IZR (ip - 12001) - r32 p) <= 252 / 100)%R /\
  (forall n, 0 <= n <= 19999 -> r32 p = IZR (5 * n) -> ip = n + 12001).
Proof.
  intros F P. destruct (f32_of_ok 5 ltac:(lia)) as [A1 A2]. destruct (f32_of_ok 12001 ltac:(lia)) as [B1 B2].
  assert (MA : mid (r32 p / 5)) by (unfold mid; lra). destruct (div32 p (f32_of 5) F) as [E1 F1]; [rewrite A1; lra|rewrite A1; exact MA|]. rewrite A1 in E1. destruct (mid_gap _ MA) as (GA & PA & _).
  set (a := f32_div p (f32_of 5)) in *. assert (MB : mid (r32 a + 12001)) by (unfold mid; lra). destruct (add32 a (f32_of 12001) F1 B2) as (E2 & F2); [rewrite B1; exact MB|]. rewrite B1 in E2. destruct (mid_gap _ MB) as (GB & PB & _).
  set (b := f32_add a (f32_of 12001)) in *. rewrite <- E2 in GB, PB. rewrite <- E1 in GA, PA. destruct (nint_some b F2) as (n & NI & ND); [rewrite Rabs_pos_eq by lra; lra|]. apply Rabs_le_inv in ND.
  assert (NB : 12001 <= n <= 32000) by (split; [assert (12000 < n) by (apply lt_IZR; lra)|assert (n < 32001) by (apply lt_IZR; lra)]; lia).
  exists n. split; [|split; [exact NB|split]].
  - unfold to_ip. change (is_invalid_kind 0) with false. cbn [Z.eqb andb]. unfold to_ip_old. cbn [Z.eqb]. fold a. fold b. rewrite NI. cbn [bind]. f_equal. lia.
  - apply Rabs_le. rewrite minus_IZR. lra.
  - intros k K E. assert (AK : r32 a = IZR k) by (rewrite E1, E, mult_IZR; replace (5 * IZR k / 5)%R with (IZR k) by field; apply rnd32_id, fmt32_int; lia).
    assert (BK : r32 b = IZR (k + 12001)) by (rewrite E2, AK, <- plus_IZR; apply rnd32_id, fmt32_int; lia). rewrite BK in ND. assert (k + 12001 - 1 < n < k + 12001 + 1) by (split; apply lt_IZR; [rewrite minus_IZR|rewrite plus_IZR]; lra). lia.
Qed.
Lemma old_0_back ip : 12001 <= ip <= 32000 -> from_ip ip = (f32_of (5 * (ip - 12001)), 0) /\ r32 (f32_of (5 * (ip - 12001))) = (5 * IZR (ip - 12001))%R /\ is_finite (f32_of (5 * (ip - 12001))) = true.
Proof.
  intros H. destruct (f32_of_ok (5 * (ip - 12001)) ltac:(lia)) as [A B]. split; [|split; [rewrite A, mult_IZR; reflexivity|exact B]]. unfold from_ip. rewrite (proj2 (Z.ltb_ge 32767 ip)) by lia. unfold from_ip_old. rewrite (proj2 (Z.ltb_lt 12000 ip)), (proj2 (Z.leb_le ip 32000)) by lia. reflexivity.
Qed.

(** A value times a scale, rounded. *)
Lemma times_nint c x : 1 <= c <= 20000 -> is_finite x = true -> (0 <= r32 x)%R -> (IZR c * r32 x <= 10000)%R ->
  exists n, nint (f32_mul x (f32_of c)) = Some n /\ nint (f32_mul (f32_of c) x) = Some n /\ (Rabs (IZR n - IZR c * r32 x) <= 501 / 1000)%R.
Proof.
  intros C F X X1. destruct (f32_of_ok c ltac:(lia)) as [A1 A2]. assert (CR : (1 <= IZR c <= 20000)%R) by (split; apply IZR_le; lia).
  assert (MD : mid (IZR c * r32 x)) by (unfold mid; split; [nra|lra]). destruct (mid_gap _ MD) as (G & P & _).
  destruct (mul32 x (f32_of c) F A2) as [N1 F1]; [rewrite A1, Rmult_comm; exact MD|]. destruct (mul32 (f32_of c) x A2 F) as [N2 F2]; [rewrite A1; exact MD|].
  rewrite A1 in N1, N2. rewrite (Rmult_comm (r32 x)) in N1. rewrite <- N2 in G, P.
  destruct (nint_some (f32_mul (f32_of c) x) F2) as (n & NI & ND); [rewrite Rabs_pos_eq by exact P; lra|]. exists n. split; [|split; [exact NI|apply Rabs_le_inv in ND; apply Rabs_le; lra]].
  rewrite <- NI. unfold nint. rewrite F1, F2. cbv zeta. assert (BT : Btrunc (@Bnearbyint 24 128 e128 mode_NA (f32_mul x (f32_of c))) = Btrunc (@Bnearbyint 24 128 e128 mode_NA (f32_mul (f32_of c) x))); [|rewrite BT; reflexivity].
  apply eq_IZR. rewrite !(@Btrunc_correct 24 128 e128). destruct (@Bnearbyint_correct 24 128 e128 mode_NA (f32_mul x (f32_of c))) as (Q1 & _ & _). destruct (@Bnearbyint_correct 24 128 e128 mode_NA (f32_mul (f32_of c) x)) as (Q2 & _ & _). rewrite Q1, Q2. cbn [round_mode]. fold (r32 (f32_mul x (f32_of c))) (r32 (f32_mul (f32_of c) x)). rewrite N1, N2. reflexivity.
Qed.

(** ** Sigma: kind 1 *)
Lemma old_1 p : is_finite p = true -> (0 <= r32 p <= 1)%R -> exists ip, to_ip false p 1 = Some ip /\ 2000 <= ip <= 12000 /\ (Rabs (IZR (ip - 2000) - 10000 * r32 p) <= 501 / 1000)%R.
Proof.
  intros F P. destruct (f32_of_ok 0 ltac:(lia)) as [Z1 Z2]. destruct (f32_of_ok 1 ltac:(lia)) as [O1 O2]. destruct (times_nint 10000 p ltac:(lia) F (proj1 P) ltac:(lra)) as (n & NI & _ & ND). exists (n + 2000). split; [|split].
  - unfold to_ip. change (is_invalid_kind 1) with false. cbn [Z.eqb Pos.eqb andb]. unfold to_ip_old. cbn [Z.eqb Pos.eqb]. rewrite !f32_leb_ok by assumption. rewrite Z1, O1, !Rle_bool_true by lra. cbn [andb]. rewrite NI. reflexivity.
  - apply Rabs_le_inv in ND. assert (-1 < n < 10001) by (split; apply lt_IZR; lra). lia.
  - replace (n + 2000 - 2000) with n by lia. exact ND.
Qed.
Lemma old_1_back ip : 2000 <= ip <= 12000 -> exists q, from_ip ip = (q, 1) /\ is_finite q = true /\ r32 q = rnd32 (IZR (ip - 2000) / 10000) /\ (Rabs (r32 q - IZR (ip - 2000) / 10000) <= 2 / 1000000)%R.
Proof.
  intros H. destruct (f32_of_ok (ip - 2000) ltac:(lia)) as [A1 A2]. destruct (f32_of_ok 10000 ltac:(lia)) as [B1 _]. assert (R : (0 <= IZR (ip - 2000) <= 10000)%R) by (split; apply IZR_le; lia). assert (M : mid (IZR (ip - 2000) / 10000)) by (unfold mid; lra).
  exists (f32_div (f32_of (ip - 2000)) (f32_of 10000)). destruct (div32 (f32_of (ip - 2000)) (f32_of 10000) A2) as [E F]; [rewrite B1; lra|rewrite A1, B1; exact M|]. rewrite A1, B1 in E. destruct (mid_gap _ M) as (G & _). rewrite <- E in G. split; [|split; [exact F|split; [exact E|apply Rabs_le; lra]]].
  unfold from_ip. rewrite (proj2 (Z.ltb_ge 32767 ip)) by lia. unfold from_ip_old. rewrite (proj2 (Z.ltb_ge 12000 ip)) by lia. cbn [andb]. rewrite (proj2 (Z.leb_le 2000 ip)), (proj2 (Z.leb_le ip 12000)) by lia. reflexivity.
Qed.

(** ** Pressures: kind 2 *)
Lemma old_2 p : is_finite p = true -> (0 <= r32 p < 1100)%R -> to_ip false p 2 =
  if Req_bool (r32 p) 0 then Some 0
  else if Rle_bool (r32 (lit32 999999 100000)) (r32 p) then nint p
  else if Rle_bool (r32 (lit32 999999 1000000)) (r32 p) then n <- nint (f32_mul (f32_of 20) p) ;; Some (1800 + n)
  else if Rle_bool (r32 (lit32 999999 10000000)) (r32 p) then n <- nint (f32_mul (f32_of 200) p) ;; Some (1600 + n)
  else if f32_leb (lit32 999999 100000000) p then n <- nint (f32_mul (f32_of 2000) p) ;; Some (1400 + n)
  else if f32_leb (lit32 999999 1000000000) p then n <- nint (f32_mul (f32_of 20000) p) ;; Some (1200 + n)
  else Some 0.
Proof.
  intros F P. destruct (f32_of_ok 0 ltac:(lia)) as [Z1 Z2]. destruct (f32_of_ok 1100 ltac:(lia)) as [O1 O2]. destruct (lit_near 999999 100000 ltac:(lia) ltac:(lia)) as [L1 L2]. destruct (lit_near 999999 1000000 ltac:(lia) ltac:(lia)) as [_ L3]. destruct (lit_near 999999 10000000 ltac:(lia) ltac:(lia)) as [_ L4].
  unfold to_ip. change (is_invalid_kind 2) with false. cbn [Z.eqb Pos.eqb andb]. unfold f32_eqb. rewrite Beqb_correct by assumption. fold (r32 p) (r32 (f32_of 0)). rewrite Z1. destruct (Req_bool _ _); [reflexivity|].
  unfold to_ip_old. cbn [Z.eqb Pos.eqb]. rewrite !(f32_leb_ok (f32_of 0) p), !(f32_ltb_ok p (f32_of 1100)) by assumption. rewrite Z1, O1. rewrite Rle_bool_true, Rlt_bool_true by lra. cbn [andb].
  rewrite (f32_leb_ok (lit32 999999 100000) p), (f32_ltb_ok p (lit32 999999 100000)) by assumption. rewrite andb_true_r. destruct (Rle_bool_spec (r32 (lit32 999999 100000)) (r32 p)) as [B|B]; [reflexivity|]. rewrite Rlt_bool_true by exact B.
  rewrite !(f32_leb_ok _ p) by assumption. reflexivity.
Qed.
Lemma lit_wide n d k : 0 < n <= 2 ^ 24 -> 0 <= k <= 60 -> 0 < d < 2 ^ 24 -> d * 2 ^ k <= 1000000000 -> (IZR n / IZR (d * 2 ^ k) * (1 - / 16000000) <= r32 (lit32 n (d * 2 ^ k)) <= IZR n / IZR (d * 2 ^ k) * (1 + / 16000000))%R /\ is_finite (lit32 n (d * 2 ^ k)) = true.
Proof.
  intros N K D B. destruct (f32_of_ok n ltac:(lia)) as [N1 N2]. destruct (f32_of_wide d k K ltac:(lia)) as [D1 D2]. assert (D0 : 0 < d * 2 ^ k) by (assert (0 < 2 ^ k) by (apply Z.pow_pos_nonneg; lia); nia).
  assert (DR : (1 <= IZR (d * 2 ^ k) <= 1000000000)%R) by (split; apply IZR_le; lia). assert (NR : (1 <= IZR n <= 16777216)%R) by (split; apply IZR_le; lia). set (w := IZR (d * 2 ^ k)) in *.
  assert (I : (/ 1000000000 <= / w <= 1)%R) by (split; [apply Rinv_le; lra|rewrite <- Rinv_1; apply Rinv_le; lra]). assert (Q : (/ 1000000000 <= IZR n / w <= 16777216)%R) by (unfold Rdiv; split; nra).
  destruct (div32 (f32_of n) (f32_of (d * 2 ^ k)) N2) as [E F]; [rewrite D1; fold w; lra|rewrite N1, D1; fold w; unfold mid; lra|]. fold (lit32 n (d * 2 ^ k)) in E, F. rewrite N1, D1 in E. fold w in E. split; [|exact F]. rewrite E.
  assert (NE : near e24 (IZR n / w) (rnd32 (IZR n / w))) by (apply rnd32_near; right; rewrite Rabs_pos_eq by lra; apply Rle_trans with (bpow radix2 (-30)); [apply bpow_le; lia|change (bpow radix2 (-30)) with (/ 1073741824)%R; lra]).
  apply near_pos in NE; [|lra|apply bpow_ge_0]. rewrite e24_val in NE. nra.
Qed.

Definition decade (c b : Z) : Prop := In (c, b) [(20, 1800); (200, 1600); (2000, 1400); (20000, 1200)].
Lemma old_2_small c b p : decade c b -> is_finite p = true -> (1999999 / 100000 <= IZR c * r32 p <= 1994 / 10)%R ->
  exists n, to_ip false p 2 = Some (b + n) /\ 20 <= n <= 199 /\ (Rabs (IZR n - IZR c * r32 p) <= 501 / 1000)%R.
Proof.
  intros D F P.
  destruct (lit_near 999999 100000 ltac:(lia) ltac:(lia)) as [L1 _]. destruct (lit_near 999999 1000000 ltac:(lia) ltac:(lia)) as [L2 _]. destruct (lit_near 999999 10000000 ltac:(lia) ltac:(lia)) as [L3 _].
  destruct (lit_wide 999999 390625 8 ltac:(lia) ltac:(lia) ltac:(lia) ltac:(lia)) as [L4 F4]. change (390625 * 2 ^ 8) with 100000000 in *. destruct (lit_wide 999999 1953125 9 ltac:(lia) ltac:(lia) ltac:(lia) ltac:(lia)) as [L5 F5]. change (1953125 * 2 ^ 9) with 1000000000 in *.
  destruct D as [D|[D|[D|[D|[]]]]]; injection D as <- <-.
  all: assert (PR : (0 <= r32 p < 1100)%R) by lra; rewrite (old_2 p F PR), Req_bool_false by lra.
  all: rewrite !(f32_leb_ok _ p) by assumption.
  - rewrite Rle_bool_false by lra. rewrite Rle_bool_true by lra. destruct (times_nint 20 p ltac:(lia) F ltac:(lra) ltac:(lra)) as (n & _ & NI & ND). rewrite NI. exists n. split; [reflexivity|]. split; [|exact ND]. apply Rabs_le_inv in ND. assert (19 < n < 200) by (split; apply lt_IZR; lra). lia.
  - rewrite Rle_bool_false by lra. rewrite Rle_bool_false by lra. rewrite Rle_bool_true by lra. destruct (times_nint 200 p ltac:(lia) F ltac:(lra) ltac:(lra)) as (n & _ & NI & ND). rewrite NI. exists n. split; [reflexivity|]. split; [|exact ND]. apply Rabs_le_inv in ND. assert (19 < n < 200) by (split; apply lt_IZR; lra). lia.
  - rewrite Rle_bool_false by lra. rewrite Rle_bool_false by lra. rewrite Rle_bool_false by lra. rewrite Rle_bool_true by lra. destruct (times_nint 2000 p ltac:(lia) F ltac:(lra) ltac:(lra)) as (n & _ & NI & ND). rewrite NI. exists n. split; [reflexivity|]. split; [|exact ND]. apply Rabs_le_inv in ND. assert (19 < n < 200) by (split; apply lt_IZR; lra). lia.
  - rewrite Rle_bool_false by lra. rewrite Rle_bool_false by lra. rewrite Rle_bool_false by lra. rewrite Rle_bool_false by lra. rewrite Rle_bool_true by lra. destruct (times_nint 20000 p ltac:(lia) F ltac:(lra) ltac:(lra)) as (n & _ & NI & ND). rewrite NI. exists n. split; [reflexivity|]. split; [|exact ND]. apply Rabs_le_inv in ND. assert (19 < n < 200) by (split; apply lt_IZR; lra). lia.
Qed.
Lemma old_2_small_back c b n : decade c b -> 1 <= n <= 199 -> exists q, from_ip (b + n) = (q, 2) /\ is_finite q = true /\ near (/ 16000000) (IZR n / IZR c) (r32 q).
Proof.
  intros D N. destruct (f32_of_ok n ltac:(lia)) as [A1 A2]. pose proof (widen_ok _ A2) as W. rewrite A1 in W. exists (narrow (f64_div (widen (f32_of n)) (f64_of c))).
  assert (CB : 20 <= c <= 20000) by (destruct D as [D|[D|[D|[D|[]]]]]; injection D as <- _; lia). assert (CR : (20 <= IZR c <= 20000)%R) by (split; apply IZR_le; lia). assert (NR : (1 <= IZR n <= 199)%R) by (split; apply IZR_le; lia).
  assert (I : (/ 20000 <= / IZR c <= / 20)%R) by (split; apply Rinv_le; lra). assert (Q : (/ 20000 <= IZR n / IZR c <= 10)%R) by (unfold Rdiv; split; nra).
  assert (D64 : is64 (f64_div (widen (f32_of n)) (f64_of c)) (rnd64 (IZR n / IZR c))).
  { apply f64_div_ok; [exact W|apply f64_of_ok; lia|lra|]. rewrite Rabs_pos_eq by lra. apply Rle_trans with (bpow radix2 4); [change (bpow radix2 4) with 16%R; lra|apply bpow_le; lia]. }
  assert (N1 : near e53 (IZR n / IZR c) (rnd64 (IZR n / IZR c))) by (apply rnd64_near; right; rewrite Rabs_pos_eq by lra; apply Rle_trans with (bpow radix2 (-20)); [apply bpow_le; lia|change (bpow radix2 (-20)) with (/ 1048576)%R; lra]).
  pose proof e53_pos as EP. pose proof e53_small as ES. pose proof N1 as B1. apply near_pos in B1; [|lra|lra]. assert (RB : (/ 30000 <= rnd64 (IZR n / IZR c) <= 20)%R) by nra.
  destruct (narrow_ok _ _ D64) as [E F]; [rewrite Rabs_pos_eq by lra; apply Rle_trans with (bpow radix2 5); [change (bpow radix2 5) with 32%R; lra|apply bpow_le; lia]|].
  assert (N2 : near e24 (rnd64 (IZR n / IZR c)) (rnd32 (rnd64 (IZR n / IZR c)))) by (apply rnd32_near; right; rewrite Rabs_pos_eq by lra; apply Rle_trans with (bpow radix2 (-20)); [apply bpow_le; lia|change (bpow radix2 (-20)) with (/ 1048576)%R; lra]).
  split; [|split; [exact F|rewrite E; apply (near_trans e53 e24 _ _ (rnd64 (IZR n / IZR c))); [lra|apply bpow_ge_0|rewrite e24_val; nra|exact N1|exact N2]]].
  unfold from_ip, from_ip_old. destruct D as [D|[D|[D|[D|[]]]]]; injection D as <- <-.
  all: rewrite (proj2 (Z.ltb_ge 32767 _)), (proj2 (Z.ltb_ge 12000 _)) by lia; cbn [andb]; rewrite (proj2 (Z.leb_gt 2000 _)) by lia; cbn [andb]; rewrite (proj2 (Z.ltb_ge _ 1100)) by lia; rewrite andb_false_r; rewrite (proj2 (Z.ltb_lt 1200 _)), (proj2 (Z.ltb_lt _ 2000)) by lia; cbn [andb].
  - rewrite (proj2 (Z.ltb_ge _ 1400)), (proj2 (Z.ltb_ge _ 1600)), (proj2 (Z.ltb_ge _ 1800)) by lia. replace (1800 + n - 1800) with n by lia. reflexivity.
  - rewrite (proj2 (Z.ltb_ge _ 1400)), (proj2 (Z.ltb_ge _ 1600)), (proj2 (Z.ltb_lt _ 1800)) by lia. replace (1600 + n - 1600) with n by lia. reflexivity.
  - rewrite (proj2 (Z.ltb_ge _ 1400)), (proj2 (Z.ltb_lt _ 1600)) by lia. replace (1400 + n - 1400) with n by lia. reflexivity.
  - rewrite (proj2 (Z.ltb_lt _ 1400)) by lia. replace (1200 + n - 1200) with n by lia. reflexivity.
Qed.
Lemma old_2_big p : is_finite p = true -> (10 <= r32 p <= 10994 / 10)%R -> exists ip, to_ip false p 2 = Some ip /\ 10 <= ip <= 1099 /\ (Rabs (IZR ip - r32 p) <= /2)%R.
Proof.
  intros F P. destruct (lit_near 999999 100000 ltac:(lia) ltac:(lia)) as [L1 _]. assert (PR : (0 <= r32 p < 1100)%R) by lra. rewrite (old_2 p F PR), Req_bool_false by lra. rewrite Rle_bool_true by lra. destruct (nint_some p F) as (n & NI & ND); [rewrite Rabs_pos_eq by lra; lra|]. exists n. split; [exact NI|]. rewrite Rabs_minus_sym in ND. split; [|exact ND].
  apply Rabs_le_inv in ND. assert (9 < n < 1100) by (split; apply lt_IZR; lra). lia.
Qed.
Lemma old_2_big_back ip : 0 <= ip < 1100 -> from_ip ip = (f32_of ip, 2) /\ r32 (f32_of ip) = IZR ip /\ is_finite (f32_of ip) = true.
Proof.
  intros H. split; [|apply f32_of_ok; lia]. unfold from_ip, from_ip_old. rewrite (proj2 (Z.ltb_ge 32767 _)), (proj2 (Z.ltb_ge 12000 _)) by lia. cbn [andb]. rewrite (proj2 (Z.leb_gt 2000 _)) by lia. cbn [andb]. rewrite (proj2 (Z.leb_le 0 _)), (proj2 (Z.ltb_lt _ 1100)) by lia. reflexivity.
Qed.

(** ** Arbitrary codes: kind 3 *)
Lemma old_3 p : is_finite p = true -> (0 <= r32 p <= 100)%R -> exists ip, to_ip false p 3 = Some ip /\ 1100 <= ip <= 1200 /\ (Rabs (IZR (1200 - ip) - r32 p) <= /2)%R.
Proof.
  intros F P. destruct (nint_some p F) as (n & NI & ND); [rewrite Rabs_pos_eq by lra; lra|]. exists (1200 - n). assert (N : 0 <= n <= 100) by (apply Rabs_le_inv in ND; assert (-1 < n < 101) by (split; apply lt_IZR; lra); lia). split; [|split; [lia|replace (1200 - (1200 - n)) with n by lia; rewrite Rabs_minus_sym; exact ND]].
  unfold to_ip. change (is_invalid_kind 3) with false. cbn [Z.eqb Pos.eqb andb]. unfold to_ip_old. cbn [Z.eqb Pos.eqb]. rewrite NI. cbn [bind]. rewrite (proj2 (Z.leb_le 0 n)), (proj2 (Z.leb_le n 100)) by lia. reflexivity.
Qed.
Lemma old_3_back ip : 1100 <= ip <= 1200 -> exists q, from_ip ip = (q, 3) /\ r32 q = IZR (1200 - ip) /\ is_finite q = true.
Proof.
  intros H. destruct (f32_of_ok 1200 ltac:(lia)) as [A1 A2]. destruct (f32_of_ok ip ltac:(lia)) as [B1 B2]. assert (M : mid (1200 - IZR ip)) by (assert (1100 <= IZR ip <= 1200)%R by (split; apply IZR_le; lia); unfold mid; lra). destruct (sub32 (f32_of 1200) (f32_of ip) A2 B2) as [E F]; [rewrite A1, B1; exact M|].
  exists (f32_sub (f32_of 1200) (f32_of ip)). split; [|split; [rewrite E, A1, B1, <- minus_IZR; apply rnd32_id, fmt32_int; lia|exact F]].
  unfold from_ip, from_ip_old. rewrite (proj2 (Z.ltb_ge 32767 _)), (proj2 (Z.ltb_ge 12000 _)) by lia. cbn [andb]. rewrite (proj2 (Z.leb_gt 2000 _)) by lia. cbn [andb]. rewrite (proj2 (Z.ltb_ge _ 1100)) by lia. rewrite andb_false_r. rewrite (proj2 (Z.ltb_ge 1200 _)) by lia. cbn [andb]. rewrite (proj2 (Z.leb_le 1100 _)), (proj2 (Z.leb_le _ 1200)) by lia. reflexivity.
Qed.

(** ** Every code kept *)
Definition kept (ip : Z) : Prop := ip = 0 \/ 10 <= ip <= 1200 \/ (exists c b, decade c b /\ b + 20 <= ip <= b + 199) \/ 2000 <= ip <= 32000.
Lemma old_kept ip : kept ip -> exists q k, from_ip ip = (q, k) /\ to_ip false q k = Some ip.
Proof.
  intros H. assert (C : ip = 0 \/ 10 <= ip <= 1099 \/ 1100 <= ip <= 1200 \/ (exists c b, decade c b /\ b + 20 <= ip <= b + 199) \/ 2000 <= ip <= 12000 \/ 12001 <= ip <= 32000).
  { destruct H as [H|[H|[H|H]]]; [auto|assert (ip <= 1099 \/ 1100 <= ip) by lia; intuition lia|auto|assert (ip <= 12000 \/ 12001 <= ip) by lia; intuition lia]. }
  clear H. destruct C as [->|[H|[H|[(c & b & D & H)|[H|H]]]]].
  - exists (f32_of 0), 2. split; reflexivity.
  - destruct (old_2_big_back ip ltac:(lia)) as (A & B & F). exists (f32_of ip), 2. split; [exact A|]. assert (R : (10 <= IZR ip <= 1099)%R) by (split; apply IZR_le; lia). destruct (old_2_big (f32_of ip) F ltac:(rewrite B; lra)) as (n & E & _ & N). rewrite E. f_equal. rewrite B in N. apply Rabs_le_inv in N. assert (ip - 1 < n < ip + 1) by (split; apply lt_IZR; [rewrite minus_IZR|rewrite plus_IZR]; lra). lia.
  - destruct (old_3_back ip H) as (q & A & B & F). exists q, 3. split; [exact A|]. assert (R : (0 <= IZR (1200 - ip) <= 100)%R) by (split; apply IZR_le; lia). destruct (old_3 q F ltac:(rewrite B; lra)) as (n & E & _ & N). rewrite E. f_equal. rewrite B in N. rewrite !minus_IZR in N. apply Rabs_le_inv in N. assert (ip - 1 < n < ip + 1) by (split; apply lt_IZR; [rewrite minus_IZR|rewrite plus_IZR]; lra). lia.
  - set (n := ip - b). assert (N : 20 <= n <= 199) by (unfold n; lia). destruct (old_2_small_back c b n D ltac:(lia)) as (q & A & F & B). replace (b + n) with ip in A by (unfold n; lia). exists q, 2. split; [exact A|].
    assert (CR : (20 <= IZR c <= 20000)%R) by (destruct D as [D|[D|[D|[D|[]]]]]; injection D as <- _; lra). assert (NR : (20 <= IZR n <= 199)%R) by (split; apply IZR_le; lia). assert (Y : (0 <= IZR n / IZR c)%R) by (apply Rlt_le, Rdiv_lt_0_compat; lra). apply near_pos in B; [|exact Y|lra].
    assert (CQ : (IZR n * (1 - / 16000000) <= IZR c * r32 q <= IZR n * (1 + / 16000000))%R) by (assert (IZR c * (IZR n / IZR c) = IZR n)%R by (field; lra); split; nra).
    destruct (old_2_small c b q D F ltac:(lra)) as (m & E & _ & M). rewrite E. f_equal. apply Rabs_le_inv in M. assert (n - 1 < m < n + 1) by (split; apply lt_IZR; [rewrite minus_IZR|rewrite plus_IZR]; lra). unfold n in *. lia.
  - destruct (old_1_back ip H) as (q & A & F & E & G). exists q, 1. split; [exact A|]. assert (R : (0 <= IZR (ip - 2000) <= 10000)%R) by (split; apply IZR_le; lia). assert (Q : (0 <= r32 q <= 1)%R).
    { rewrite E. split; [rewrite <- (rnd32_id 0 (generic_format_0 _ _)); apply rnd32_le; lra|]. rewrite <- (rnd32_id 1) by (apply (fmt32_int 1); lia). apply rnd32_le. lra. }
    destruct (old_1 q F Q) as (n & E1 & _ & N). rewrite E1. f_equal. apply Rabs_le_inv in N. apply Rabs_le_inv in G. rewrite !minus_IZR in *. assert (ip - 1 < n < ip + 1) by (split; apply lt_IZR; [rewrite minus_IZR|rewrite plus_IZR]; lra). lia.
  - destruct (old_0_back ip H) as (A & B & F). exists (f32_of (5 * (ip - 12001))), 0. split; [exact A|]. assert (R : (0 <= IZR (ip - 12001) <= 19999)%R) by (split; apply IZR_le; lia). destruct (old_0 _ F ltac:(rewrite B; lra)) as (n & E & _ & _ & N). rewrite E. f_equal. rewrite (N (ip - 12001) ltac:(lia)); [lia|]. rewrite B, mult_IZR. reflexivity.
Qed.
