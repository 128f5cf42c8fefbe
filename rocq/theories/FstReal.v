(** Packed reals and compressed fields, as standard files use them. *)
From Coq Require Import ZArith List Bool Lia Reals.
From Flocq Require Import Core BinarySingleNaN.
From Verif Require Import P_FloatPack P_FloatField Bits BitIO BitIOFacts SpecPack CompactInt CompactIntFacts CompactIntMain Flo FloatPack FloatWords FloatField FloatDouble FloatPackFacts FloatFieldFacts FloatFieldValue FloatFieldHeader FloatFieldMain FloatPackMain ZfstLib SpecZfst ZfstFacts.
Import ListNotations.
Open Scope Z_scope.
Open Scope opt_scope.

(** Unpacking looks at no more than the header and the tokens. *)
Lemma float_same orc field mem hp ap off n b : packable_field None field 1 n -> (1 <= b <= 32)%nat -> layout hp ap off b n (length mem) -> words_ok mem ->
  exists m, compact_float_pack orc field mem hp ap off n b 1 None = Some (FDone m) /\ length m = length mem /\ words_ok m /\
  forall dst, fits dst 1 n -> exists d, updated dst d 1 n (elt d 1) /\
    (forall lo hi, (forall j, (j < n)%nat -> (lo <= ieee32 (elt field 1 j) <= hi)%R) -> forall j, (j < n)%nat -> number32 (elt d 1 j) /\
       (Rabs (ieee32 (elt d 1 j) - ieee32 (elt field 1 j)) <= 2 * (hi - lo) / bpow radix2 (Z.of_nat b) + Rmax (Rabs lo) (Rabs hi) / bpow radix2 23 + bpow radix2 (-126))%R) /\
    forall src, words_ok src -> (32 * ap + off + b * n < 32 * length src)%nat -> (forall i, (i < 4)%nat -> rd src (hp + i) = rd m (hp + i)) ->
      slice (32 * ap + off) (b * n) (mbits 32 src) = slice (32 * ap + off) (b * n) (mbits 32 m) ->
      compact_float_unpack orc dst src hp ap off n b 1 None = Some (Some d).
Proof.
  intros PF HB LA WM. assert (WO : width_ok None b) by (split; [exact HB|intros C; contradiction]).
  destruct (start None field mem hp ap off n b 1 PF WO LA) as (ws & GA & LW & NT & PL & NE & FK & BK & KI).
  destruct (pack_unpack orc field mem hp ap off n b 1 None ws HB (proj2 WO) PL WM GA LW NE FK BK) as (m & lo & hi & mn & te & EP & LM & WM' & FR & IL & IH & BD & RO & KE & UN).
  exists m. split; [exact EP|]. split; [exact LM|]. split; [exact WM'|]. intros dst FD. destruct (UN dst (le_n 1) FD) as (d & ts & EU0 & LT & UP & TK). exists d.
  pose proof (EU0 m WM' ltac:(rewrite LM; apply LA) (fun _ _ => eq_refl) eq_refl) as EU. split; [|split; [|exact EU0]].
  - destruct UP as (U1 & U2 & U3). split; [exact U1|]. split; [|exact U3]. intros j J. unfold elt. rewrite (nth_error_nth _ _ 0 (U2 j J)). apply U2. exact J.
  - intros l h B j J. destruct (c48_error orc field mem dst hp ap off n b 1 None l h PF WO LA WM (le_n 1) FD (fun j J _ => B j J)) as (m' & d' & EP' & EU' & _ & ER).
    assert (m' = m) as -> by congruence. assert (d' = d) as -> by congruence. destruct (ER j J) as [_ E]. specialize (E (fun X => X)). unfold codes in E. rewrite Rminus_0_r in E. exact E.
Qed.

(** Packing in tokens of 16 bits when fewer are asked for. *)
Lemma float_wide orc field mem n b : packable_field None field 1 n -> (1 <= b <= 16)%nat -> (160 + 16 * n < 32 * length mem)%nat -> words_ok mem -> Z.of_nat n < 2 ^ 28 ->
  exists m ts, compact_float_pack orc field mem 1 5 0 n (b + 64 * 16) 1 None = Some (FDone m) /\ length m = length mem /\ words_ok m /\
    length ts = n /\ (forall t, In t ts -> 0 <= t < 2 ^ Z.of_nat b) /\ slice 160 (16 * n) (mbits 32 m) = tbits 16 ts.
Proof.
  intros PF HB LN WM N28. assert (WO : width_ok None b) by (split; [lia|intros C; contradiction]).
  assert (LA : layout 1 5 0 b n (length mem)) by (split; [lia|split; [nia|right; right; split; [exact N28|left; lia]]]).
  destruct (start None field mem 1 5 0 n b 1 PF WO LA) as (ws & GA & LW & NT & PL & NE & FK & BK & KI).
  destruct (extremes_ok None ws NE FK) as (lo & hi & EX & IL & IH & BD).
  assert (FL : finite_word lo) by (rewrite Forall_forall in FK; apply FK; exact IL).
  assert (FH : finite_word hi) by (rewrite Forall_forall in FK; apply FK; exact IH).
  pose proof (BK lo IL) as BL. pose proof (BK hi IH) as BH. pose proof (proj2 (BD lo IL)) as LH.
  destruct (range_expo_ok None b lo hi FL FH LH BL BH (proj1 WO) (proj2 WO)) as (te & RE & RO & _).
  assert (TE : -200 <= te <= 200) by apply RO.
  assert (G : forall w, In w ws -> exists t, field_token None b (widen (word_f32 lo)) (f64_div (f64_pow2 (Z.of_nat b)) (f64_pow2 te)) w = Some t /\ 0 <= t < 2 ^ Z.of_nat b).
  { intros w I. assert (IK : In w (FloatFieldFacts.kept None ws)) by (apply filter_In; split; [exact I|reflexivity]).
    assert (FW : finite_word w) by (rewrite Forall_forall in FK; apply FK; exact IK).
    destruct (field_token_ok None b lo hi te w _ FL FW (BD w IK) BL (BK w IK) (proj1 WO) RO eq_refl (mul_ok b te (proj1 WO) TE)) as (t & E & B1 & B2).
    exists t. split; [exact E|]. pose proof (proj1 B2). cbn [has] in B1. lia. }
  destruct (field_tokens_ok (fun _ t => 0 <= t < 2 ^ Z.of_nat b) _ _ _ _ ws G) as (ts & ET & LT & AT).
  assert (X0 : 0 <= te - Z.of_nat b + 4096 < 2 ^ 16) by lia.
  destruct (header_min_ok lo (te - Z.of_nat b + 4096) FL BL X0) as (H1R & H2R & _). cbv zeta in H1R, H2R.
  destruct (word0_ok false None n) as (H0R & _). destruct (word3_ok b n ltac:(lia)) as (H3R & _).
  set (hd := field_header false None b n te (widen (word_f32 lo))).
  destruct (put_words_spec mem 1 hd) as (m1 & P1 & L1 & V1 & F1); [cbn [hd field_header length]; lia|].
  assert (WM1 : Forall inr32 m1). { apply F1; [exact WM|]. unfold hd, field_header. cbv zeta. do 4 (apply Forall_cons; [assumption|]). apply Forall_nil. }
  assert (IT : forall t, In t ts -> 0 <= t < 2 ^ Z.of_nat b) by (intros t I; apply (In_nth _ _ 0) in I as (j & J & <-); apply AT; lia).
  assert (P16 : 2 ^ Z.of_nat b <= 2 ^ 16) by (apply Z.pow_le_mono_r; lia).
  assert (WT : Forall inr32 ts) by (apply Forall_forall; intros t I; specialize (IT t I); unfold inr32; lia).
  destruct (pack_tokens_spec orc m1 160 16 (-1) ts) as (m & P2 & L2 & V2 & F2); [lia|exact WM1|exact WT|rewrite LT, LW; lia| |].
  { right. intros t I. specialize (IT t I). rewrite Z.land_m1_r. symmetry. apply Z.mod_small. change (Z.of_nat 16) with 16. lia. }
  exists m, ts. split; [|split; [congruence|split; [exact F2|split; [congruence|split; [exact IT|]]]]].
  - unfold compact_float_pack. assert (D1 : ((b + 64 * 16) / 64 = 16)%nat) by (rewrite (Nat.mul_comm 64 16), Nat.div_add by lia; rewrite Nat.div_small by lia; reflexivity).
    assert (D2 : ((b + 64 * 16) mod 64 = b)%nat) by (rewrite (Nat.mul_comm 64 16), Nat.mod_add by lia; apply Nat.mod_small; lia).
    rewrite (proj2 (Nat.eqb_neq (b + 64 * 16) 0)) by lia. rewrite (proj2 (Nat.eqb_neq (b + 64 * 16) 1)) by lia. rewrite (proj2 (Nat.ltb_lt 64 (b + 64 * 16))) by lia. rewrite D1, D2. cbn [andb].
    rewrite (proj2 (Nat.ltb_ge 32 b)) by lia. change (32 <? 16)%nat with false. cbn [orb]. change (style_one 1 5 0) with false. cbn [negb andb].
    rewrite (proj2 (Z.ltb_ge _ _)) by lia. rewrite GA. cbn [bind]. rewrite EX. cbn [bind].
    rewrite not_too_large; [|exact FL|exact FH|apply Rabs_le_inv in BH; apply BH|apply Rabs_le_inv in BL; apply BL].
    rewrite RE. cbn [bind]. rewrite ET. cbn [bind]. fold hd. rewrite P1. cbn [bind]. change (32 * 5 + 0)%nat with 160%nat. rewrite P2. reflexivity.
  - assert (LTB : length (tbits 16 ts) = (16 * n)%nat) by (rewrite tbits_length; congruence). rewrite V2, <- LTB. apply overwrite_slice. rewrite LTB, mbits_length. lia.
Qed.
Lemma float_wide16 orc field mem n : compact_float_pack orc field mem 1 5 0 n (16 + 64 * 16) 1 None = compact_float_pack orc field mem 1 5 0 n 16 1 None.
Proof. reflexivity. Qed.
Lemma float_unpack_size orc dst mem hp ap off n s1 s2 : (2 <= s1)%nat -> (2 <= s2)%nat -> compact_float_unpack orc dst mem hp ap off n s1 1 None = compact_float_unpack orc dst mem hp ap off n s2 1 None.
Proof. intros H1 H2. unfold compact_float_unpack. rewrite !(proj2 (Nat.eqb_neq _ 0)) by lia. rewrite !(proj2 (Nat.eqb_neq _ 1)) by lia. reflexivity. Qed.

Lemma firstn_nth_lt (l : list Z) n j : (j < n)%nat -> nth j (firstn n l) 0 = nth j l 0.
Proof. revert n j. induction l as [|x l IH]; intros [|n] [|j] H; cbn [firstn nth]; try reflexivity; try lia. apply IH. lia. Qed.
(** 16-bit tokens of an array of words, the upper half first. *)
Definition pairs (ws : list Z) : list Z := flat_map (fun w => [w / 2 ^ 16; w mod 2 ^ 16]) ws.
Lemma pairs_nth ws k : nth k (pairs ws) 0 = tok16 true ws k.
Proof.
  revert k. induction ws as [|w r IH]; intros k.
  - unfold tok16. cbn [pairs flat_map]. destruct k as [|k]; [reflexivity|]. destruct (S k / 2)%nat; cbn [nth]; destruct (Bool.eqb _ _); reflexivity.
  - change (pairs (w :: r)) with (w / 2 ^ 16 :: w mod 2 ^ 16 :: pairs r).
    destruct k as [|[|k]]; [reflexivity|reflexivity|]. cbn [nth]. rewrite IH. unfold tok16. cbn [Nat.even].
    replace (S (S k) / 2)%nat with (S (k / 2)); [reflexivity|].
    change (S (S k)) with (2 + k)%nat. rewrite <- (Nat.add_comm k). change 2%nat with (1 * 2)%nat at 2. rewrite Nat.div_add by lia. lia.
Qed.
Lemma pairs_length ws : length (pairs ws) = (2 * length ws)%nat.
Proof. induction ws as [|w r IH]; [reflexivity|]. change (pairs (w :: r)) with (w / 2 ^ 16 :: w mod 2 ^ 16 :: pairs r). cbn [length]. lia. Qed.
Lemma pairs_bits ws : mbits 32 ws = tbits 16 (pairs ws).
Proof.
  induction ws as [|w r IH]; [reflexivity|]. change (pairs (w :: r)) with (w / 2 ^ 16 :: w mod 2 ^ 16 :: pairs r). unfold mbits, tbits in *. cbn [flat_map]. rewrite IH, app_assoc. f_equal.
  change 32%nat with (16 + 16)%nat. rewrite bits_of_app. change (Z.of_nat 16) with 16. rewrite Z.shiftr_div_pow2 by lia. f_equal. symmetry. change (2 ^ 16) with (2 ^ Z.of_nat 16). apply bits_of_mod. lia.
Qed.
Lemma tbits_firstn b l n : firstn (b * n) (tbits b l) = tbits b (firstn n l).
Proof. symmetry. apply (mbits_firstn b l n). Qed.
Lemma first_tokens ws n : (16 * n <= 32 * length ws)%nat -> slice 0 (16 * n) (mbits 32 ws) = tbits 16 (map (tok16 true ws) (seq 0 n)).
Proof.
  intros L. unfold slice. rewrite skipn_O, pairs_bits, tbits_firstn. f_equal. apply (nth_ext _ _ 0 0).
  - rewrite firstn_length, pairs_length, map_length, seq_length. lia.
  - intros i I. rewrite firstn_length, pairs_length in I. rewrite (firstn_nth_lt _ n i) by lia. rewrite pairs_nth. rewrite (nth_indep _ 0 (tok16 true ws 0)) by (rewrite map_length, seq_length; lia). rewrite map_nth, seq_nth by lia. reflexivity.
Qed.
Lemma tbits_inj b l l' : (1 <= b)%nat -> Forall (fun v => 0 <= v < 2 ^ Z.of_nat b) l -> Forall (fun v => 0 <= v < 2 ^ Z.of_nat b) l' -> tbits b l = tbits b l' -> l = l'.
Proof. intros B F F' E. apply (mbits_inj b); [lia|exact F|exact F'|exact E]. Qed.
Lemma tok16_range msf ws k : words32 ws -> 0 <= tok16 msf ws k < 2 ^ 16.
Proof.
  intros W. unfold tok16. assert (R : 0 <= nth (k / 2) ws 0 < 2 ^ 32).
  { destruct (Nat.lt_ge_cases (k / 2) (length ws)) as [C|C]; [|rewrite nth_overflow by exact C; lia]. unfold words32 in W. rewrite Forall_forall in W. apply W, nth_In, C. }
  destruct (Bool.eqb _ _); [split; [apply Z.div_pos; lia|apply Z.div_lt_upper_bound; lia]|apply Z.mod_pos_bound; lia].
Qed.
(** The tokens of a packed field, from its bits. *)
Lemma tokens_read ws ts n : words32 ws -> length ts = n -> (forall t, In t ts -> 0 <= t < 2 ^ 16) -> (16 * n <= 32 * length ws)%nat -> slice 0 (16 * n) (mbits 32 ws) = tbits 16 ts ->
  forall k, (k < n)%nat -> tok16 true ws k = nth k ts 0.
Proof.
  intros W LT R L E k K. rewrite first_tokens in E by exact L. apply tbits_inj in E; [|lia| |].
  - rewrite <- E. rewrite (nth_indep _ 0 (tok16 true ws 0)) by (rewrite map_length, seq_length; lia). rewrite map_nth, seq_nth by lia. reflexivity.
  - apply Forall_forall. intros v V. apply in_map_iff in V as (j & <- & _). apply (tok16_range true ws j W).
  - apply Forall_forall. exact R.
Qed.

(** ** c_float_packer *)
Lemma tokens_length e mn s r mask ws ts : tokens e mn s r mask ws = Some ts -> length ts = length ws.
Proof.
  revert ts. induction ws as [|w ws IH]; intros ts H; cbn [tokens] in H; [congruence|]. destruct (token _ _ _ _ _ w); [|discriminate]. cbn [bind] in H. destruct (tokens _ _ _ _ _ ws) as [ts'|]; [|discriminate]. cbn [bind] in H.
  assert (ts = z :: ts') as -> by congruence. cbn [length]. f_equal. apply IH. reflexivity.
Qed.
Lemma store_words ts : forall a s, Forall inr32 (store a s ts).
Proof.
  assert (W : forall x, inr32 (Xdf.w32 x)) by (intros x; apply Z.mod_pos_bound; lia).
  induction ts as [|t ts IH]; intros a s; cbn [store].
  - destruct s; [apply Forall_cons; [apply W|]|]; apply Forall_nil.
  - cbv zeta. destruct s; [apply Forall_cons; [apply W|]|]; apply IH.
Qed.
Lemma packer_words junk ws nbits rc h str : 1 <= nbits <= 16 -> c_float_packer junk ws nbits = Some (rc, h, str) ->
  length h = 3%nat /\ length str = ((length ws + 1) / 2)%nat /\ Forall inr32 (h ++ str).
Proof.
  intros B P. unfold c_float_packer in P. assert (((16 <? nbits) || (nbits <? 1)) = false) as X by (apply orb_false_intro; apply Z.ltb_ge; lia). rewrite X in P. clear X.
  destruct (min_max ws) as [[lo hi]|]; [|discriminate]. cbn [bind] in P. cbv zeta in P.
  set (E := Z.max _ _) in P. destruct (scaled E hi); [|discriminate]. cbn [bind] in P. destruct (scaled E lo); [|discriminate]. cbn [bind] in P.
  destruct (i32 _); [|discriminate]. cbn [bind] in P. destruct (fit _ _ _ _ _) as [[s2 rd]|]; [|discriminate]. cbn [bind] in P. destruct (tokens _ _ _ _ _ ws) as [ts|] eqn:T; [|discriminate]. cbn [bind] in P.
  apply tokens_length in T.
  match type of P with Some (_, ?hh, ?ss) = _ => assert (h = hh /\ str = ss) as [-> ->] by (split; congruence) end. clear P.
  split; [reflexivity|]. split; [rewrite store_length, T; reflexivity|]. apply Forall_app. split; [|apply store_words].
  assert (W : forall x, inr32 (Xdf.w32 x)) by (intros x; apply Z.mod_pos_bound; lia).
  apply Forall_cons; [|apply Forall_cons; [apply W|apply Forall_cons; [apply W|apply Forall_nil]]].
  assert (LR : forall x y, inr32 x -> inr32 y -> inr32 (Z.lor x y)).
  { intros x y [X1 X2] [Y1 Y2]. unfold inr32. split; [apply Z.lor_nonneg; lia|]. destruct (Z.eq_dec (Z.lor x y) 0) as [->|N0]; [lia|].
    apply Z.log2_lt_pow2; [pose proof (proj2 (Z.lor_nonneg x y) (conj X1 Y1)); lia|]. rewrite Z.log2_lor by lia. apply Z.max_lub_lt; [destruct (Z.eq_dec x 0) as [->|]; [cbn; lia|]; apply Z.log2_lt_pow2; lia|destruct (Z.eq_dec y 0) as [->|]; [cbn; lia|]; apply Z.log2_lt_pow2; lia]. }
  assert (LF : forall x, 0 <= Z.land x 255 < 256) by (intros x; change 255 with (Z.ones 8); rewrite Z.land_ones by lia; apply Z.mod_pos_bound; lia).
  apply LR; [apply LR; [apply LR|]|].
  - apply W.
  - rewrite Z.shiftl_mul_pow2 by lia. unfold inr32. lia.
  - rewrite Z.shiftl_mul_pow2 by lia. specialize (LF E). unfold inr32. lia.
  - specialize (LF s2). unfold inr32. lia.
Qed.
Lemma unpack_loop_more E mn s n : forall a fetch str more xs, unpack_loop E mn s n a fetch str = Some xs -> unpack_loop E mn s n a fetch (str ++ more) = Some xs.
Proof.
  induction n as [|n IH]; intros a fetch str more xs H; cbn [unpack_loop] in *; [exact H|]. destruct (untoken _ _ _ _) as [x|]; [|discriminate]. cbn [bind] in *. destruct fetch.
  - destruct str as [|b str]; [discriminate|]. cbn [app]. destruct (unpack_loop _ _ _ n b false str) as [ys|] eqn:U; [|discriminate]. rewrite (IH _ _ _ more _ U). exact H.
  - destruct (unpack_loop _ _ _ n _ true str) as [ys|] eqn:U; [|discriminate]. rewrite (IH _ _ _ more _ U). exact H.
Qed.
Lemma unpacker_more h str n r more more' : length h = 3%nat -> c_float_unpacker h str n = Some r -> c_float_unpacker (h ++ more) (str ++ more') n = Some r.
Proof.
  intros L H. destruct h as [|h0 [|h1 [|h2 [|]]]]; try discriminate L. cbn [app]. unfold c_float_unpacker in *. cbn [nth_error bind] in *. cbv zeta in *.
  destruct (negb (Z.land (Z.shiftr h0 20) 0xFFF =? 0xEFF)); [exact H|]. destruct (negb (n =? sgn32 h2)); [exact H|]. destruct (Z.land (Z.shiftr h0 8) 0xFF =? 0); [exact H|].
  destruct str as [|a str]; [discriminate|]. cbn [app]. destruct (unpack_loop _ _ _ _ a false str) as [xs|] eqn:U; [|discriminate]. rewrite (unpack_loop_more _ _ _ _ _ _ _ more' _ U). exact H.
Qed.
