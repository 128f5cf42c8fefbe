(** Packing and unpacking of single precision numbers: facts on FloatPack.v. *)
From Coq Require Import ZArith List Bool Lia.
From Verif Require Import Bits BitIO Xdf HandlesFacts Flo FloatPack FloatWords.
Import ListNotations.
Open Scope Z_scope.
Open Scope opt_scope.

Lemma i32_ok n : - 2 ^ 31 <= n < 2 ^ 31 -> i32 n = Some n.
Proof.
  intros H. unfold i32. assert (((- 2 ^ 31 <=? n) && (n <? 2 ^ 31)) = true) as ->; [|reflexivity].
  apply andb_true_intro. split; [apply Z.leb_le|apply Z.ltb_lt]; lia.
Qed.

Lemma sval_abs w : Z.abs (sval w) = mval w.
Proof. pose proof (mval_low w). unfold sval. destruct (w_sign w); lia. Qed.

(** The mantissa at exponent [E] is the value divided by 2^(E-1), truncated. *)
Lemma scaled_ok E w : w_exp w <= E -> (1 <= w_exp w \/ 24 <= E) ->
  scaled E w = Some (Z.quot (sval w) (2 ^ (E - 1))).
Proof.
  intros L H. unfold scaled. cbv zeta. pose proof (man_range w). pose proof (exp_range w).
  assert ((E - w_exp w <? 0) = false) as -> by (apply Z.ltb_ge; lia).
  assert (EQ : Z.shiftr (2 ^ 23 + w_man w) (if 31 <? E - w_exp w then 31 else E - w_exp w) = mval w / 2 ^ (E - 1)).
  { assert (SH : Z.shiftr (2 ^ 23 + w_man w) (if 31 <? E - w_exp w then 31 else E - w_exp w) = (2 ^ 23 + w_man w) / 2 ^ (E - w_exp w)).
    { destruct (Z.ltb_spec 31 (E - w_exp w)).
      - rewrite Z.shiftr_div_pow2, !Z.div_small; try lia.
        assert (2 ^ 31 <= 2 ^ (E - w_exp w)) by (apply Z.pow_le_mono_r; lia). lia.
      - apply Z.shiftr_div_pow2. lia. }
    rewrite SH. unfold mval. destruct (Z.eqb_spec (w_exp w) 0) as [Q|Q].
    - rewrite !Z.div_small; [reflexivity| |].
      + assert (2 ^ 23 <= 2 ^ (E - 1)) by (apply Z.pow_le_mono_r; lia). lia.
      + assert (2 ^ 24 <= 2 ^ (E - w_exp w)) by (apply Z.pow_le_mono_r; lia). lia.
    - replace (E - 1) with ((w_exp w - 1) + (E - w_exp w)) by lia. rewrite Z.pow_add_r by lia.
      rewrite (Z.mul_comm (2 ^ 23 + w_man w)), Z.div_mul_cancel_l; [reflexivity| |]; apply Z.pow_nonzero; lia. }
  rewrite EQ. f_equal. pose proof (mval_low w).
  assert (P : 0 < 2 ^ (E - 1)) by (apply Z.pow_pos_nonneg; lia).
  rewrite <- Z.quot_div_nonneg by lia. unfold sval. destruct (w_sign w); [|reflexivity].
  rewrite Z.quot_opp_l by lia. reflexivity.
Qed.

(** Truncated quotients. *)
Lemma quot_near v q : 0 < q -> Z.abs (v - Z.quot v q * q) < q /\ Z.abs (Z.quot v q * q) <= Z.abs v /\ 0 <= Z.quot v q * v.
Proof.
  intros P. pose proof (Z.quot_rem' v q) as E. pose proof (Z.rem_bound_abs v q ltac:(lia)) as B.
  pose proof (Z.rem_sign_mul v q ltac:(lia)) as S.
  split; [replace (v - Z.quot v q * q) with (Z.rem v q) by lia; lia|].
  destruct (Z.le_gt_cases 0 v) as [V|V].
  - pose proof (Z.quot_pos v q V P) as Q. assert (R : 0 <= Z.rem v q) by (apply Z.rem_nonneg; lia). clear B S.
    set (d := Z.quot v q) in *. clearbody d. assert (0 <= d * q) by nia. split; [lia|nia].
  - assert (Q : 0 <= Z.quot (- v) q) by (apply Z.quot_pos; lia). rewrite Z.quot_opp_l in Q by lia.
    assert (R : Z.rem v q <= 0) by (apply Z.rem_nonpos; lia). clear B S.
    set (d := Z.quot v q) in *. clearbody d. assert (d * q <= 0) by nia. split; [lia|nia].
Qed.

(** Smallest and largest number. *)
Lemma min_max_ok ws : ws <> [] -> Forall finite_word ws -> exists a b, min_max ws = Some (a, b) /\ In a ws /\ In b ws /\
  Forall (fun w => sval a <= sval w <= sval b) ws.
Proof.
  intros N F. destruct ws as [|z ws]; [contradiction|]. clear N. cbn [min_max].
  assert (GMIN : forall l m, Forall finite_word l -> finite_word m ->
     let r := fold_left (fun m z => if f32_ltb (word_f32 z) (word_f32 m) then z else m) l m in
     In r (m :: l) /\ sval r <= sval m /\ Forall (fun w => sval r <= sval w) l).
  { induction l as [|x l IH]; intros m FL FM; cbn [fold_left].
    - split; [left; reflexivity|]. split; [lia|constructor].
    - apply Forall_cons_iff in FL as [FX FL]. rewrite word_lt by assumption.
      destruct (Z.ltb_spec (sval x) (sval m)) as [L|L].
      + destruct (IH x FL FX) as (I & A & B). split; [right; exact I|]. split; [lia|]. constructor; [exact A|exact B].
      + destruct (IH m FL FM) as (I & A & B). split; [destruct I as [<-|I]; [left; reflexivity|right; right; exact I]|].
        split; [exact A|]. constructor; [lia|exact B]. }
  assert (GMAX : forall l m, Forall finite_word l -> finite_word m ->
     let r := fold_left (fun m z => if f32_ltb (word_f32 m) (word_f32 z) then z else m) l m in
     In r (m :: l) /\ sval m <= sval r /\ Forall (fun w => sval w <= sval r) l).
  { induction l as [|x l IH]; intros m FL FM; cbn [fold_left].
    - split; [left; reflexivity|]. split; [lia|constructor].
    - apply Forall_cons_iff in FL as [FX FL]. rewrite word_lt by assumption.
      destruct (Z.ltb_spec (sval m) (sval x)) as [L|L].
      + destruct (IH x FL FX) as (I & A & B). split; [right; exact I|]. split; [lia|]. constructor; [exact A|exact B].
      + destruct (IH m FL FM) as (I & A & B). split; [destruct I as [<-|I]; [left; reflexivity|right; right; exact I]|].
        split; [exact A|]. constructor; [lia|exact B]. }
  assert (FZ : finite_word z) by (apply Forall_cons_iff in F; apply F).
  destruct (GMIN (z :: ws) z F FZ) as (I1 & _ & A1). destruct (GMAX (z :: ws) z F FZ) as (I2 & _ & A2). cbv zeta in *.
  do 2 eexists. split; [reflexivity|]. split; [|split].
  - destruct I1 as [<-|I1]; [left; reflexivity|exact I1].
  - destruct I2 as [<-|I2]; [left; reflexivity|exact I2].
  - rewrite Forall_forall in *. intros w I. split; [apply A1; exact I|apply A2; exact I].
Qed.

(** The loop of the shift. *)
Lemma fit_ok mask mx : 0 <= mask -> 0 <= mx -> forall fuel k, 0 <= k ->
  (k = 0 \/ mask < mx / 2 ^ (k - 1)) -> mx / 2 ^ k < 2 ^ Z.of_nat fuel ->
  exists s, fit fuel (mx / 2 ^ k) mask (2 ^ k) k = Some (s, 2 ^ s / 2) /\ k <= s <= k + Z.of_nat fuel /\ mx / 2 ^ s <= mask /\ (s = 0 \/ mask < mx / 2 ^ (s - 1)).
Proof.
  intros HM HX. induction fuel as [|f IH]; intros k HK HP HF.
  - cbn [fit]. change (2 ^ Z.of_nat 0) with 1 in HF.
    assert (0 <= mx / 2 ^ k) by (apply Z.div_pos; [lia|apply Z.pow_pos_nonneg; lia]).
    assert ((mx / 2 ^ k <=? mask) = true) as -> by (apply Z.leb_le; lia).
    exists k. rewrite Z.shiftr_div_pow2 by lia. split; [reflexivity|]. lia.
  - cbn [fit]. destruct (Z.leb_spec (mx / 2 ^ k) mask) as [L|L].
    + exists k. rewrite Z.shiftr_div_pow2 by lia. split; [reflexivity|]. lia.
    + assert (P : 0 < 2 ^ k) by (apply Z.pow_pos_nonneg; lia).
      replace (Z.shiftr (mx / 2 ^ k) 1) with (mx / 2 ^ (k + 1)).
      2: { rewrite Z.shiftr_div_pow2, Z.div_div, <- Z.pow_add_r by lia. reflexivity. }
      replace (Z.shiftl (2 ^ k) 1) with (2 ^ (k + 1)) by (rewrite Z.shiftl_mul_pow2, <- Z.pow_add_r by lia; reflexivity).
      destruct (IH (k + 1)) as (s & E & R1 & R2 & R3).
      * lia.
      * right. replace (k + 1 - 1) with k by lia. exact L.
      * rewrite Z.pow_add_r, <- Z.div_div by lia. change (2 ^ 1) with 2.
        apply Z.div_lt_upper_bound; [lia|]. rewrite Nat2Z.inj_succ, Z.pow_succ_r in HF by lia. exact HF.
      * exists s. split; [exact E|]. lia.
Qed.

(** The token of a number and the mantissa a token stands for. *)
Definition tok (E mn s mask w : Z) : Z := Z.min mask ((Z.quot (sval w) (2 ^ (E - 1)) - mn + 2 ^ s / 2) / 2 ^ s).
Definition back (mn s t : Z) : Z := Z.min (t * 2 ^ s + mn) (2 ^ 24 - 1).

Lemma quot_24 E w : 1 <= E -> w_exp w <= E -> Z.abs (Z.quot (sval w) (2 ^ (E - 1))) < 2 ^ 24.
Proof.
  intros HE L. apply (mval_exp w E ltac:(lia)) in L. rewrite <- sval_abs in L.
  assert (P : 0 < 2 ^ (E - 1)) by (apply Z.pow_pos_nonneg; lia).
  destruct (quot_near (sval w) (2 ^ (E - 1)) P) as (_ & B & _).
  replace (23 + E) with (24 + (E - 1)) in L by lia. rewrite Z.pow_add_r in L by lia.
  set (q := 2 ^ (E - 1)) in *. clearbody q. set (d := Z.quot (sval w) q) in *. clearbody d. rewrite Z.abs_mul, (Z.abs_eq q) in B by lia. nia.
Qed.

Lemma pow_half s : 0 <= s -> 0 <= 2 ^ s / 2 <= 2 ^ s - 1 /\ (1 <= s -> 2 * (2 ^ s / 2) = 2 ^ s).
Proof.
  intros H. destruct (Z.eq_dec s 0) as [->|N]; [split; [cbn; lia|lia]|].
  replace s with (1 + (s - 1)) by lia. rewrite Z.pow_add_r by lia. change (2 ^ 1) with 2.
  rewrite (Z.mul_comm 2), Z.div_mul by lia. assert (0 < 2 ^ (s - 1)) by (apply Z.pow_pos_nonneg; lia). lia.
Qed.

Lemma token_ok E mn s mask w : 1 <= E -> w_exp w <= E -> (1 <= w_exp w \/ 24 <= E) -> 0 <= s <= 25 -> Z.abs mn < 2 ^ 24 ->
  token E mn s (2 ^ s / 2) mask w = Some (tok E mn s mask w).
Proof.
  intros HE L H HS HM. unfold token. rewrite scaled_ok by assumption. cbn [bind].
  pose proof (quot_24 E w HE L) as Q. destruct (pow_half s) as [P1 P2]; [lia|].
  assert (2 ^ s <= 2 ^ 25) by (apply Z.pow_le_mono_r; lia).
  rewrite i32_ok by lia. cbn [bind]. rewrite i32_ok by lia. cbn [bind]. cbv zeta.
  rewrite Z.shiftr_div_pow2 by lia. unfold tok. f_equal.
  destruct (Z.ltb_spec mask ((Z.quot (sval w) (2 ^ (E - 1)) - mn + 2 ^ s / 2) / 2 ^ s)); lia.
Qed.

(** A mantissa comes back within one unit of the token. *)
Lemma back_near E mn s mask mx w : 0 <= s -> 0 <= mask -> mx / 2 ^ s <= mask -> Z.quot (sval w) (2 ^ (E - 1)) < 2 ^ 24 ->
  mn <= Z.quot (sval w) (2 ^ (E - 1)) <= mn + mx ->
  0 <= tok E mn s mask w <= mask /\
  Z.abs (back mn s (tok E mn s mask w) - Z.quot (sval w) (2 ^ (E - 1))) <= 2 ^ s - 1 /\
  mn <= tok E mn s mask w * 2 ^ s + mn <= Z.quot (sval w) (2 ^ (E - 1)) + 2 ^ s / 2.
Proof.
  intros HS HM HX HB HR. unfold tok, back. set (T := Z.quot (sval w) (2 ^ (E - 1))) in *. clearbody T.
  assert (P : 0 < 2 ^ s) by (apply Z.pow_pos_nonneg; lia). destruct (pow_half s HS) as [R1 R2].
  set (r := 2 ^ s / 2) in *. clearbody r. set (p := 2 ^ s) in *. clearbody p.
  pose proof (Z.div_mod (T - mn + r) p ltac:(lia)) as D. pose proof (Z.mod_pos_bound (T - mn + r) p P) as MB.
  set (d := (T - mn + r) / p) in *. clearbody d. set (m := (T - mn + r) mod p) in *. clearbody m.
  pose proof (Z.div_mod mx p ltac:(lia)) as DX. pose proof (Z.mod_pos_bound mx p P) as MX.
  assert (D0 : 0 <= d) by nia.
  destruct (Z.le_gt_cases d mask) as [L|L].
  - rewrite Z.min_r by exact L. split; [lia|]. split; [|nia].
    assert (- (p - 1 - r) <= d * p + mn - T <= r) by nia.
    assert (p - 1 - r <= p - 1) by lia.
    destruct (Z.le_gt_cases (d * p + mn) (2 ^ 24 - 1)); [rewrite Z.min_l by lia|rewrite Z.min_r by lia]; lia.
  - rewrite Z.min_l by lia. split; [lia|].
    assert (UP : T - mn <= (mask + 1) * p - 1) by nia.
    assert (LO : (mask + 1) * p <= T - mn + r) by nia.
    split; [|nia].
    destruct (Z.le_gt_cases (mask * p + mn) (2 ^ 24 - 1)); [rewrite Z.min_l by lia|rewrite Z.min_r by lia]; lia.
Qed.

Lemma lor_fields E m (b : bool) : 0 <= E < 256 -> 0 <= m < 2 ^ 23 ->
  Z.lor (Z.lor m (Z.shiftl E 23)) (if b then 2 ^ 31 else 0) = (if b then 2 ^ 31 else 0) + (E * 2 ^ 23 + m).
Proof.
  intros HE HM. rewrite Z.shiftl_mul_pow2 by lia. rewrite lor_add_disjoint by lia.
  destruct b; [|rewrite Z.lor_0_r; lia].
  change (2 ^ 31) with (1 * 2 ^ 31) at 1. rewrite lor_add_disjoint by lia. lia.
Qed.

(** The number a token becomes: the mantissa times 2^(E-1), exactly. *)
Lemma untoken_ok E mn s t : 1 <= E <= 254 -> 0 <= s <= 25 -> Z.abs mn < 2 ^ 24 -> 0 <= t -> t * 2 ^ s < 2 ^ 26 ->
  exists w, untoken E mn s t = Some w /\ finite_word w /\ sval w = back mn s t * 2 ^ (E - 1) /\ w_sign w = (t * 2 ^ s + mn <? 0).
Proof.
  intros HE HS HM HT HB. unfold untoken. assert ((31 <? s) = false) as -> by (apply Z.ltb_ge; lia).
  assert (P : 0 < 2 ^ s) by (apply Z.pow_pos_nonneg; lia).
  rewrite Z.shiftl_mul_pow2 by lia. rewrite i32_ok by nia. cbn [bind].
  assert (V0 : 0 <= t * 2 ^ s) by nia. unfold back. set (v := t * 2 ^ s) in *. clearbody v.
  rewrite i32_ok by lia. cbn [bind]. cbv zeta.
  set (b := v + mn <? 0).
  assert (HBB : b = true /\ v + mn < 0 \/ b = false /\ 0 <= v + mn) by (subst b; destruct (Z.ltb_spec (v + mn) 0); auto).
  rewrite i32_ok by (destruct b; lia). cbn [bind]. cbv zeta.
  set (m := if 16777215 <? (if b then - (v + mn) else v + mn) then 16777215 else if b then - (v + mn) else v + mn).
  assert (HMV : 0 <= m < 2 ^ 24 /\ (if b then - m else m) = Z.min (v + mn) (2 ^ 24 - 1)).
  { subst m. destruct HBB as [[-> L]|[-> L]].
    - assert ((16777215 <? - (v + mn)) = false) as -> by (apply Z.ltb_ge; lia). lia.
    - destruct (Z.ltb_spec 16777215 (v + mn)); lia. }
  destruct HMV as [HM1 HM2]. rewrite <- HM2. clear HM2.
  change (2 ^ 23 - 1) with (Z.ones 23). rewrite Z.land_ones by lia.
  pose proof (Z.mod_pos_bound m (2 ^ 23) ltac:(lia)) as MB.
  rewrite lor_fields by lia.
  replace (Z.lor (Z.shiftl E 23) (if b then 2 ^ 31 else 0)) with ((if b then 2 ^ 31 else 0) + (E * 2 ^ 23 + 0)).
  2: { rewrite <- lor_fields by lia. reflexivity. }
  destruct (fields b E (m mod 2 ^ 23) ltac:(lia) MB) as (F1 & F2 & F3 & F4).
  set (wt := (if b then 2 ^ 31 else 0) + (E * 2 ^ 23 + m mod 2 ^ 23)) in *. clearbody wt.
  assert (SV : sval wt = (if b then - (2 ^ 23 + m mod 2 ^ 23) else 2 ^ 23 + m mod 2 ^ 23) * 2 ^ (E - 1)).
  { unfold sval, mval. rewrite F1, F2, F3. assert ((E =? 0) = false) as -> by (apply Z.eqb_neq; lia). destruct b; lia. }
  assert (TB : Z.testbit m 23 = (2 ^ 23 <=? m)).
  { destruct (Z.leb_spec (2 ^ 23) m).
    - rewrite Z.testbit_true by lia. replace (m / 2 ^ 23) with 1; [reflexivity|].
      apply Z.div_unique with (m - 2 ^ 23); lia.
    - rewrite Z.testbit_false by lia. rewrite Z.div_small by lia. reflexivity. }
  rewrite TB. destruct (Z.leb_spec (2 ^ 23) m) as [G|G].
  - exists wt. split; [reflexivity|]. split; [split; [exact F4|lia]|]. split; [|exact F1].
    rewrite SV. replace (m mod 2 ^ 23) with (m - 2 ^ 23) by (apply Z.mod_unique with 1; lia).
    destruct b; f_equal; lia.
  - destruct (fields b E 0 ltac:(lia) ltac:(lia)) as (G1 & G2 & G3 & G4).
    set (w0 := (if b then 2 ^ 31 else 0) + (E * 2 ^ 23 + 0)) in *. clearbody w0.
    assert (SV0 : sval w0 = (if b then - 2 ^ 23 else 2 ^ 23) * 2 ^ (E - 1)).
    { unfold sval, mval. rewrite G1, G2, G3. assert ((E =? 0) = false) as -> by (apply Z.eqb_neq; lia). destruct b; lia. }
    rewrite (Z.mod_small m) in SV by lia.
    destruct (sub_exact wt w0 (if b then - m else m) (E - 1)) as (S1 & S2 & S3 & S4).
    + split; [exact F4|lia].
    + split; [exact G4|lia].
    + rewrite SV, SV0. destruct b; lia.
    + destruct b; lia.
    + lia.
    + eexists. split; [reflexivity|]. split; [exact S1|]. split; [exact S2|].
      destruct (Z.eq_dec m 0) as [M0|M0].
      * rewrite S4; [|destruct b; lia|congruence]. 
        subst b. destruct HBB as [[_ L]|[B _]]; [|rewrite B; reflexivity].
        exfalso. subst m. revert M0. destruct (Z.ltb_spec (v + mn) 0); [|lia].
        assert ((16777215 <? - (v + mn)) = false) as -> by (apply Z.ltb_ge; lia). lia.
      * rewrite S3 by (destruct b; lia). destruct HBB as [[-> L]|[-> L]]; [apply Z.ltb_lt; lia|apply Z.ltb_ge; lia].
Qed.

(** The tokens, two in a word, are read back. *)
Lemma w32_shift a : 0 <= w32 a < 2 ^ 32.
Proof. apply Z.mod_pos_bound. lia. Qed.
Lemma low_token a t : 0 <= t < 2 ^ 16 -> w32 (Z.lor (Z.shiftl a 16) t) mod 2 ^ 16 = t.
Proof.
  intros H. unfold w32. rewrite <- Znumtheory.Zmod_div_mod; [|lia|lia|exists (2 ^ 16); reflexivity].
  rewrite Z.lor_comm, Z.shiftl_mul_pow2, lor_add_disjoint by lia. rewrite Z.mod_add by lia. apply Z.mod_small. exact H.
Qed.
Lemma high_token a t : 0 <= t < 2 ^ 16 -> w32 (Z.lor (Z.shiftl a 16) t) / 2 ^ 16 = a mod 2 ^ 16.
Proof.
  intros H. unfold w32. rewrite Z.lor_comm, Z.shiftl_mul_pow2, lor_add_disjoint by lia.
  pose proof (Z.div_mod a (2 ^ 16) ltac:(lia)) as D. pose proof (Z.mod_pos_bound a (2 ^ 16) ltac:(lia)).
  replace (t + a * 2 ^ 16) with ((a mod 2 ^ 16 * 2 ^ 16 + t) + (a / 2 ^ 16) * 2 ^ 32) by lia.
  rewrite Z.mod_add, Z.mod_small by lia. rewrite Z.div_add_l, (Z.div_small t) by lia. lia.
Qed.

Definition upper (a : Z) : Z := Z.land (Z.shiftr a 16) 0xFFFF.
Lemma upper_eq a : 0 <= a < 2 ^ 32 -> upper a = a / 2 ^ 16.
Proof.
  intros H. unfold upper. change 0xFFFF with (Z.ones 16). rewrite Z.land_ones, Z.shiftr_div_pow2 by lia.
  apply Z.mod_small. split; [apply Z.div_pos; lia|apply Z.div_lt_upper_bound; lia].
Qed.
Lemma upper_low a : upper (w32 (Z.shiftl a 16)) = a mod 2 ^ 16.
Proof.
  rewrite upper_eq by apply w32_shift. pose proof (high_token a 0 ltac:(lia)) as H. rewrite Z.lor_0_r in H. exact H.
Qed.

Fixpoint untokens (E mn s : Z) (ts : list Z) : option (list Z) :=
  match ts with
  | [] => Some []
  | t :: ts => x <- untoken E mn s t ;; xs <- untokens E mn s ts ;; Some (x :: xs)
  end.

(** [next] is the word after the stream, which is read but not used. *)
Lemma unpack_store E mn s next : forall n ts, (length ts <= n)%nat -> Forall (fun t => 0 <= t < 2 ^ 16) ts -> ts <> [] -> forall junk,
  exists a rest, store junk false ts ++ [next] = a :: rest /\ unpack_loop E mn s (length ts) a false rest = untokens E mn s ts.
Proof.
  induction n as [|n IH]; intros ts L F N junk; [destruct ts; [contradiction|cbn [length] in L; lia]|].
  destruct ts as [|t ts]; [contradiction|]. apply Forall_cons_iff in F as [FT F].
  cbn [store]. cbv zeta. set (a1 := w32 (Z.lor (Z.shiftl junk 16) t)).
  assert (A1 : a1 mod 2 ^ 16 = t) by (apply low_token; exact FT).
  destruct ts as [|t2 ts].
  - cbn [store app length unpack_loop]. do 2 eexists. split; [reflexivity|].
    fold (upper (w32 (Z.shiftl a1 16))). rewrite upper_low, A1. reflexivity.
  - apply Forall_cons_iff in F as [FT2 F]. cbn [store]. cbv zeta. set (a2 := w32 (Z.lor (Z.shiftl a1 16) t2)).
    assert (A2 : a2 mod 2 ^ 16 = t2) by (apply low_token; exact FT2).
    assert (A3 : upper a2 = t).
    { rewrite upper_eq by apply w32_shift. unfold a2. rewrite high_token by exact FT2. exact A1. }
    destruct (list_eq_dec Z.eq_dec ts []) as [->|NE].
    + cbn [store app length unpack_loop untokens]. do 2 eexists. split; [reflexivity|].
      fold (upper a2). rewrite A3. fold (upper (w32 (Z.shiftl a2 16))). rewrite upper_low, A2.
      destruct (untoken E mn s t); [|reflexivity]. cbn [bind]. destruct (untoken E mn s t2); reflexivity.
    + destruct (IH ts ltac:(cbn [length] in L; lia) F NE a2) as (a & rest & E1 & E2).
      cbn [app]. rewrite E1. do 2 eexists. split; [reflexivity|]. cbn [length unpack_loop untokens].
      fold (upper a2). rewrite A3. fold (upper (w32 (Z.shiftl a2 16))). rewrite upper_low, A2, E2.
      destruct (untoken E mn s t); [|reflexivity]. cbn [bind]. destruct (untoken E mn s t2); [|reflexivity]. cbn [bind].
      destruct (untokens E mn s ts); reflexivity.
Qed.
