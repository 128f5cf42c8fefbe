(** The values decoded by Convip.v. *)
From Coq Require Import ZArith List Bool Lia Reals Lra Psatz.
From Flocq Require Import Core BinarySingleNaN Relative.
From Verif Require Import Bits BitIOFacts Flo FloatField FloatDouble FloatFieldFacts Convip ConvipFacts ConvipMain.
Import ListNotations.
Open Scope Z_scope.
Open Scope opt_scope.

Lemma half_opp n e : Z.abs n <= 1048575 -> 0 <= e <= 15 -> r32 (half_value (- n) e) = (- r32 (half_value n e))%R.
Proof.
  intros N E. destruct (half_value_ok n e N E) as (_ & _ & v & A & _ & B & _). destruct (half_value_ok (- n) e ltac:(lia) E) as (_ & _ & v' & A' & _ & B' & _).
  rewrite A, A', B, B', opp_IZR. replace (- IZR n / r64 (exptab e))%R with (- (IZR n / r64 (exptab e)))%R by (unfold Rdiv; ring). rewrite !round_NE_opp. reflexivity.
Qed.
Lemma half_bounds m e : 0 <= m <= 1048575 -> 0 <= e <= 15 -> (0 <= r32 (half_value m e))%R /\ (forall H, (0 <= H)%R -> fmt32 H -> (IZR m / T (e - 4) <= H)%R -> (r32 (half_value m e) <= H)%R) /\
  (forall L, fmt32 L -> 4 <= e -> (L <= IZR m / T (e - 4))%R -> (L <= r32 (half_value m e))%R).
Proof.
  intros M E. destruct (half_value_ok m e ltac:(lia) E) as (_ & NR & v & A & B & _ & C). pose proof (T_pos (e - 4)) as P. assert (M0 : (0 <= IZR m)%R) by (apply IZR_le; lia).
  assert (Y : (0 <= IZR m / T (e - 4))%R) by (unfold Rdiv; apply Rmult_le_pos; [exact M0|apply Rlt_le, Rinv_0_lt_compat, P]).
  split; [|split].
  - apply near_pos in NR; [|exact Y|lra]. nra.
  - intros H H0 FH L. rewrite A. apply rnd32_below; [exact H0|exact FH|]. pose proof small_e. apply near_pos in B; [|exact Y|lra]. nra.
  - intros L FL E4 LE. rewrite A, (C E4). rewrite <- (rnd32_id L FL). apply rnd32_le. rewrite <- (rnd64_id L) by (apply fmt64_of_32; exact FL). apply rnd64_le. exact LE.
Qed.

(** The factor. *)
Lemma value_ok n e k : Z.abs n <= 1048575 -> 0 <= e <= 15 -> is_finite (value_of n e k) = true /\ r32 (value_of n e k) = rnd32 (r32 (half_value n e) / IZR (fact_of k)).
Proof.
  intros N E. destruct (half_value_ok n e N E) as (F & NR & _). destruct (fact_ok k) as [F1 F2].
  assert (FB : (1 <= Rabs (IZR (fact_of k)))%R) by (rewrite <- abs_IZR; apply IZR_le; unfold fact_of; destruct (k =? 17); [lia|]; destruct (k =? 21); lia).
  assert (HB : (Rabs (r32 (half_value n e)) <= 20000000000)%R).
  { destruct NR as (dd & D & ->). rewrite Rabs_mult. assert (D1 : (Rabs (1 + dd) <= 1 + / 16000000)%R) by (apply Rabs_le_inv in D; apply Rabs_le; lra).
    pose proof (T_pos (e - 4)) as P. assert (TB : (/ 10000 <= T (e - 4))%R) by (apply (bpow_le ten (-4)); lia). unfold Rdiv. rewrite Rabs_mult, (Rabs_pos_eq (/ _)) by (apply Rlt_le, Rinv_0_lt_compat, P).
    assert (/ T (e - 4) <= 10000)%R by (rewrite <- (Rinv_inv 10000); apply Rinv_le; lra). assert (0 < / T (e - 4))%R by (apply Rinv_0_lt_compat, P). assert (NB : (Rabs (IZR n) <= 1048575)%R) by (rewrite <- abs_IZR; apply IZR_le; lia). pose proof (Rabs_pos (IZR n)). pose proof (Rabs_pos (1 + dd)).
    apply Rle_trans with (1048575 * 10000 * (1 + / 16000000))%R; [|lra]. apply Rmult_le_compat; [apply Rmult_le_pos; lra|lra| |exact D1]. apply Rmult_le_compat; lra. }
  unfold value_of. fold (half_value n e). destruct (f32_div_ok (half_value n e) (fact_val k)) as [A B].
  - rewrite F1. intros Q. rewrite Q, Rabs_R0 in FB. lra.
  - rewrite F1. eapply Rle_lt_trans; [apply (rnd32_bound _ 40); [lia|]|apply bpow_lt; lia]. unfold Rdiv. rewrite Rabs_mult, Rabs_inv. assert (/ Rabs (IZR (fact_of k)) <= 1)%R by (rewrite <- Rinv_1; apply Rinv_le; lra). assert (0 < / Rabs (IZR (fact_of k)))%R by (apply Rinv_0_lt_compat; lra).
    apply Rle_trans with 20000000000%R; [pose proof (Rabs_pos (r32 (half_value n e))); nra|]. change (bpow radix2 40) with (IZR (2 ^ 40)). apply IZR_le. vm_compute. discriminate.
  - exact F.
  - split; [exact B|]. rewrite A, F1. reflexivity.
Qed.
Lemma value_1 n e k : Z.abs n <= 1048575 -> 0 <= e <= 15 -> fact_of k = 1 -> is_finite (value_of n e k) = true /\ r32 (value_of n e k) = r32 (half_value n e).
Proof. intros N E K. destruct (value_ok n e k N E) as [A B]. split; [exact A|]. rewrite B, K. replace (r32 (half_value n e) / 1)%R with (r32 (half_value n e)) by field. apply rnd32_id, f32_fmt. Qed.

Lemma in_range_ok q k : is_finite q = true -> (IZR (low_of k) <= r32 q <= IZR (hi_of k))%R -> out_of_range q k = false.
Proof. intros F V. unfold out_of_range. destruct (low_ok k) as [A B]. destruct (hi_ok k) as (C & D & _). rewrite !f32_ltb_ok by assumption. rewrite A, C, !Rlt_bool_false by lra. reflexivity. Qed.
Lemma out_range_ok q k : is_finite q = true -> (r32 q < IZR (low_of k) \/ IZR (hi_of k) < r32 q)%R -> out_of_range q k = true.
Proof. intros F V. unfold out_of_range. destruct (low_ok k) as [A B]. destruct (hi_ok k) as (C & D & _). rewrite !f32_ltb_ok by assumption. rewrite A, C. apply orb_true_iff. destruct V as [V|V]; [left|right]; apply Rlt_bool_true; exact V. Qed.

(** The last touch. *)
Definition small (k : Z) : R := rnd32 (r32 (lit32 1001 1000) * zero_at k).
Lemma small_ok k : r32 (f32_mul (lit32 1001 1000) (zero_val k)) = small k /\ is_finite (f32_mul (lit32 1001 1000) (zero_val k)) = true.
Proof.
  destruct (lit32_ok 1001 1000 ltac:(lia) ltac:(lia) ltac:(lia)) as [A B]. destruct (zero_ok k) as [C D]. apply near_pos in A; [|lra|apply bpow_ge_0]. rewrite e24_val in A. pose proof (proj1 small21_ok) as S.
  assert (Z1 : (0 <= zero_at k <= 1)%R) by (unfold zero_at; destruct (existsb _ _); [lra|]; destruct (k =? 21); lra).
  destruct (f32_mul_ok (lit32 1001 1000) (zero_val k)) as [X Y]; [|exact B|exact D|].
  - rewrite C. eapply Rle_lt_trans; [apply (rnd32_bound _ 1); [lia|]|apply bpow_lt; lia]. rewrite Rabs_pos_eq by nra. change (bpow radix2 1) with 2%R. nra.
  - rewrite C in X. split; [exact X|exact Y].
Qed.
Lemma settle_ok q k : is_finite q = true -> (IZR (low_of k) <= r32 q <= IZR (hi_of k))%R -> settle q k = (if Rlt_bool (Rabs (r32 q)) (small k) then zero_val2 k else q, k).
Proof.
  intros F V. unfold settle. destruct (low_ok k) as [A B]. destruct (hi_ok k) as (C & D & _). destruct (small_ok k) as [S1 S2]. rewrite (f32_ltb_ok q (low_val k)) by assumption. rewrite A, Rlt_bool_false by lra. rewrite (f32_ltb_ok (hi_val k) q) by assumption. rewrite C, Rlt_bool_false by lra.
  destruct (f32_opp_abs q) as [Q1 Q2]. rewrite f32_ltb_ok by (try rewrite Q2; assumption). rewrite Q1, S1. reflexivity.
Qed.
Lemma small_0 k : zero_at k = 0%R -> small k = 0%R.
Proof. intros Z. unfold small. rewrite Z, Rmult_0_r. apply rnd32_id, generic_format_0. Qed.

(** ** From value to value *)
Definition rt_error (l2 : Z) (x : R) : R := (x * (52 / 100 / IZR l2) + / 100000000000)%R.
Lemma half_error l2 m e x t : 4800 <= l2 <= 100000 -> (0 <= x <= 10000000000)%R -> good_end l2 x t e -> (Rabs (t - IZR m) <= /2)%R -> (Rabs (r32 (half_value m e) - x) <= rt_error l2 x)%R.
Proof.
  intros L X G M. pose proof (coded_error l2 m e x t L (proj1 X) G M) as C. pose proof (coded_m l2 m e x t G M) as [MB _]. destruct G as (E & _).
  destruct (half_value_ok m e ltac:(lia) E) as (_ & NR & _). apply near_bound in NR. set (y := (IZR m / T (e - 4))%R) in *. set (a := r32 (half_value m e)) in *.
  assert (LR : (4800 <= IZR l2 <= 100000)%R) by (split; apply IZR_le; lia). assert (Q : (/ 100000 <= / IZR l2 <= / 4800)%R) by (split; apply Rinv_le; lra).
  unfold rt_error. unfold Rdiv in *. replace (x * (51 * / 100 * / IZR l2))%R with (51 / 100 * (x * / IZR l2))%R in C by (unfold Rdiv; ring). replace (x * (52 * / 100 * / IZR l2))%R with (52 / 100 * (x * / IZR l2))%R by (unfold Rdiv; ring).
  assert (Z1 : (x * / 100000 <= x * / IZR l2 <= x * / 4800)%R) by (split; apply Rmult_le_compat_l; lra). set (z := (x * / IZR l2)%R) in *. clearbody z.
  assert (YA : (Rabs y <= x + (51 / 100 * z + 51 / 100 * / 100000000000))%R) by (replace y with (x + (y - x))%R by ring; eapply Rle_trans; [apply Rabs_triang|]; rewrite (Rabs_pos_eq x) by lra; lra).
  replace (a - x)%R with ((a - y) + (y - x))%R by ring. eapply Rle_trans; [apply Rabs_triang|]. lra.
Qed.

(** What to_ip_new makes of [p]: mantissa [m], exponent [e]. *)
Definition coded (p : f32) (k m e : Z) (t : R) : Prop :=
  let s := scaled k (r32 p) in
  to_ip_new p k = Some (ip_of (code s m) e (k mod 16)) /\ good_end (limit2 s) (Rabs s) t e /\ (Rabs (t - IZR m) <= /2)%R /\ loop_end (limit2 s) (Rabs s) t e m.
Definition signed_m (s : R) (m : Z) : Z := if Rle_bool 0 s then m else - m.
Lemma limit2_ok s : 4800 <= limit2 s <= 100000. Proof. unfold limit2. destruct (Rle_bool 0 s); lia. Qed.

Lemma decode_fields s t m e k : good_end (limit2 s) (Rabs s) t e -> (Rabs (t - IZR m) <= /2)%R -> (0 <= s)%R \/ 1 <= m -> 0 <= k < 15 -> validkind k = true ->
  from_ip (ip_of (code s m) e k) = decoded (signed_m s m) e k /\ 0 <= ip_of (code s m) e k < 2 ^ 28 /\ 0 <= m <= 10 * limit2 s /\ 0 <= e <= 15.
Proof.
  intros G M S K V. pose proof (coded_m (limit2 s) m e (Rabs s) t G M) as [MB TM]. pose proof (limit2_ok s) as L. destruct G as (E & _ & _ & TE & _). assert (LR : (4800 <= IZR (limit2 s))%R) by (apply IZR_le; lia).
  assert (EM : e = 0 -> limit2 s <= m). { intros ->. destruct TE as [TE|TE]; [|discriminate]. assert (limit2 s - 1 < m); [|lia]. apply lt_IZR. rewrite minus_IZR. lra. }
  assert (C : 0 <= code s m < 2 ^ 20 /\ (0 < e \/ 32767 < code s m) /\ itemp_of (code s m) = signed_m s m).
  { unfold code, itemp_of, signed_m, limit2 in *. destruct (Rle_bool_spec 0 s) as [P|P].
    - rewrite (proj2 (Z.ltb_ge 1000000 m)) by lia. split; [lia|]. split; [|reflexivity]. assert (e = 0 \/ 0 < e) as [->|?] by lia; [right; specialize (EM eq_refl); lia|left; assumption].
    - assert (1 <= m) by (destruct S; [lra|assumption]). rewrite (proj2 (Z.ltb_lt 1000000 _)) by lia. split; [lia|]. split; lia. }
  destruct C as (C1 & C2 & C3). split; [|split; [unfold ip_of; lia|split; [exact MB|exact E]]]. rewrite dec_ok by (try assumption; lia). rewrite C3. reflexivity.
Qed.

Lemma at_least_one l2 m e x t : 4800 <= l2 <= 100000 -> (/ 100000000000 <= x)%R -> good_end l2 x t e -> (Rabs (t - IZR m) <= /2)%R -> 1 <= m.
Proof.
  intros L X G M. pose proof (coded_t l2 e x t ltac:(lra) G) as C. pose proof (coded_m l2 m e x t G M) as [MB TM]. destruct G as (E & _ & _ & TE & _). assert (4800 <= IZR l2)%R by (apply IZR_le; lia).
  assert (0 < m); [|lia]. apply lt_IZR. destruct TE as [TE|TE]; [lra|]. rewrite TE in C. change (T (15 - 4)) with 100000000000%R in C. pose proof small_e.
  assert (1 <= x * 100000000000)%R by lra. nra.
Qed.

(** *** Kinds without a factor *)
Definition kind_A (k : Z) : Prop := In k [0; 1; 2; 3; 4; 5; 7; 10].
Lemma kind_A_facts k : kind_A k -> 0 <= k <= 10 /\ fact_of k = 1 /\ zero_at k = 0%R /\ validkind k = true /\ low_of k <= 0 /\ 0 < hi_of k <= 10000000000 /\ (hi_of k < 9 * 100000 \/ hi_of k mod 10000 = 0) /\
  (low_of k = 0 \/ 0 < - low_of k <= 480000000 /\ (- low_of k < 9 * 4800 \/ (- low_of k) mod 10000 = 0)).
Proof.
  intros H. repeat (destruct H as [<-|H]; [split; [lia|]; split; [reflexivity|]; split; [reflexivity|]; split; [reflexivity|]; split; [discriminate|]; split; [split; [reflexivity|discriminate]|]; split; [first [left; reflexivity|right; reflexivity]|]; first [left; reflexivity|right; split; [split; [reflexivity|discriminate]|first [left; reflexivity|right; reflexivity]]]|]). destruct H.
Qed.

Lemma A_scaled k v : kind_A k -> scaled k v = v.
Proof. intros H. destruct (kind_A_facts k H) as (_ & F & Z & _). unfold scaled. rewrite F, Z, Rlt_bool_false by apply Rabs_pos. ring. Qed.

Lemma A_coded p k : kind_A k -> is_finite p = true -> (IZR (low_of k) <= r32 p <= IZR (hi_of k))%R -> exists m e t, coded p k m e t.
Proof.
  intros H F V. pose proof (kind_A_facts k H) as (K & F1 & Z & _ & LO & HI & _ & NL). unfold coded. cbv zeta. apply enc_ok; [exact F|lia|lia|exact V|]. rewrite (A_scaled k _ H).
  unfold limit2. destruct (Rle_bool_spec 0 (r32 p)) as [P|P].
  - rewrite Rabs_pos_eq by exact P. eapply Rle_trans; [apply V|]. apply IZR_le. lia.
  - rewrite Rabs_left by exact P. assert (N : low_of k <> 0) by (intros Q; rewrite Q in V; lra). apply Rle_trans with (IZR (- low_of k)); [rewrite opp_IZR; lra|]. apply IZR_le. lia.
Qed.

(** What is decoded: a value within the range of the kind. *)
Lemma A_decoded p k m e t : kind_A k -> is_finite p = true -> (IZR (low_of k) <= r32 p <= IZR (hi_of k))%R -> coded p k m e t -> (0 <= r32 p)%R \/ 1 <= m ->
  let q := value_of (signed_m (r32 p) m) e k in
  from_ip (ip_of (code (r32 p) m) e k) = (q, k) /\ 0 <= ip_of (code (r32 p) m) e k < 2 ^ 28 /\ is_finite q = true /\ r32 q = r32 (half_value (signed_m (r32 p) m) e) /\ (IZR (low_of k) <= r32 q <= IZR (hi_of k))%R.
Proof.
  intros H F V (_ & G & M & _) S. rewrite (A_scaled k _ H) in *. pose proof (kind_A_facts k H) as (K & F1 & Z & VK & LO & HI & HD & NL). cbv zeta. set (v := r32 p) in *.
  destruct (decode_fields v t m e k G M S ltac:(lia) VK) as (D & IP & MB & E). pose proof (limit2_ok v) as L. rewrite D.
  assert (SB : Z.abs (signed_m v m) <= 1048575) by (unfold signed_m; destruct (Rle_bool 0 v); lia).
  destruct (value_1 (signed_m v m) e k SB E F1) as [FQ RQ].
  assert (RG : (IZR (low_of k) <= r32 (value_of (signed_m v m) e k) <= IZR (hi_of k))%R).
  { rewrite RQ. pose proof (half_bounds m e ltac:(lia) E) as (B0 & BH & _). destruct (hi_ok k) as (_ & _ & FH). pose proof (T_pos (e - 4)) as P. unfold signed_m, limit2 in *. destruct (Rle_bool_spec 0 v) as [PV|PV].
    - split; [apply Rle_trans with 0%R; [apply IZR_le; exact LO|exact B0]|]. apply BH; [apply IZR_le; lia|exact FH|]. rewrite (Rabs_pos_eq v) in G by exact PV.
      pose proof (coded_high 100000 m e v t ltac:(lia) PV G M (hi_of k) HI HD (proj2 V)) as CH. apply (Rmult_le_reg_r (T (e - 4))); [exact P|]. unfold Rdiv. rewrite Rmult_assoc, Rinv_l, Rmult_1_r by lra. exact CH.
    - destruct NL as [NL|[NL1 NL2]]; [rewrite NL in V; lra|]. rewrite half_opp by lia. rewrite (Rabs_left v) in G by exact PV.
      pose proof (coded_high 4800 m e (- v)%R t ltac:(lia) ltac:(lra) G M (- low_of k) ltac:(lia) NL2 ltac:(rewrite opp_IZR; lra)) as CH. split; [|apply Rle_trans with 0%R; [lra|apply IZR_le; lia]].
      enough (r32 (half_value m e) <= IZR (- low_of k))%R by (rewrite opp_IZR in *; lra). apply BH; [apply IZR_le; lia| |].
      + rewrite opp_IZR. apply generic_format_opp. rewrite <- (proj1 (low_ok k)). apply f32_fmt.
      + apply (Rmult_le_reg_r (T (e - 4))); [exact P|]. unfold Rdiv. rewrite Rmult_assoc, Rinv_l, Rmult_1_r by lra. exact CH. }
  split; [|split; [exact IP|]].
  - unfold decoded. rewrite (in_range_ok _ k FQ RG). rewrite (settle_ok _ k FQ RG). rewrite (small_0 k Z), Rlt_bool_false by apply Rabs_pos. reflexivity.
  - split; [exact FQ|]. split; [exact RQ|exact RG].
Qed.
