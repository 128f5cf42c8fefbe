(** Adding, deleting and replacing blocks keeps the layout. *)
From Coq Require Import ZArith List Lia Bool.
From Verif Require Import Bits BitIO CompactInt SpecPack Handles WaFile Xdf XdfLib XdfEnum XdfKeys XdfKeysThm XdfBuf XdfBufSpec XdfBufFacts Fst Burp BurpKeys BurpBuf BurpSpec BurpPack BurpInv.
Import ListNotations.
Open Scope Z_scope.
Open Scope opt_scope.

(** ** Family *)
Lemma lor6 a b : 0 <= b < 64 -> Z.lor (Z.shiftl a 6) b = a * 64 + b.
Proof.
  intros B. rewrite <- add_lor; [rewrite Z.shiftl_mul_pow2 by lia; reflexivity|]. apply Z.bits_inj'. intros i I. rewrite Z.land_spec, Z.bits_0. destruct (Z.lt_ge_cases i 6) as [C|C].
  - rewrite Z.shiftl_spec by lia. rewrite Z.testbit_neg_r by lia. reflexivity.
  - rewrite <- (Z.mod_small b (2 ^ 6)) by lia. rewrite Z.mod_pow2_bits_high by lia. apply andb_false_r.
Qed.
Lemma land63 x : Z.land x 63 = x mod 64.
Proof. change 63 with (Z.ones 6). rewrite Z.land_ones by lia. reflexivity. Qed.
Lemma swap6_eq x : swap6 x = x mod 64 * 64 + (x / 64) mod 64.
Proof. unfold swap6. rewrite !land63. rewrite Z.shiftr_div_pow2 by lia. change (2 ^ 6) with 64. apply lor6. apply Z.mod_pos_bound. lia. Qed.
Lemma swap6_pair a b : 0 <= a < 64 -> 0 <= b < 64 -> swap6 (a * 64 + b) = b * 64 + a.
Proof.
  intros A B. rewrite swap6_eq. rewrite (Z.add_comm (a * 64) b). rewrite Z.mod_add by lia. rewrite Z.div_add by lia. rewrite (Z.div_small b), Z.add_0_l by lia. rewrite !Z.mod_small by lia. reflexivity.
Qed.
Lemma bfd_family bfam bdesc : match family bfam bdesc with
  | Some fam => exists bfd, bfd_of bfam bdesc = Some bfd /\ 0 <= bfd < 2 ^ 12 /\ swap6 bfd = fam
  | None => bfd_of bfam bdesc = None
  end.
Proof.
  unfold family, bfd_of. pose proof (Z.mod_pos_bound bfam 64 ltac:(lia)) as A. pose proof (Z.mod_pos_bound (bfam / 64) 64 ltac:(lia)) as B. pose proof (Z.mod_pos_bound bdesc 64 ltac:(lia)) as C.
  fold (swap6 bfam). rewrite !land63. rewrite Z.shiftr_div_pow2 by lia. change (2 ^ 6) with 64. destruct (Z.eqb_spec bdesc 0) as [->|N].
  - eexists. split; [reflexivity|]. rewrite (swap6_eq bfam). split; [lia|]. rewrite swap6_pair by assumption. change (2 ^ 12) with (64 * 64). rewrite Z.rem_mul_r by lia. lia.
  - destruct (((bfam / 64) mod 64 =? 0) || ((bfam / 64) mod 64 =? bdesc)) eqn:Q.
    + rewrite <- negb_orb, Q. cbn [negb]. eexists. split; [reflexivity|]. rewrite lor6 by exact C. split; [lia|]. apply swap6_pair; assumption.
    + rewrite <- negb_orb, Q. reflexivity.
Qed.

(** ** Codes *)
Lemma full_nth datyp nele lst j : (j < nele)%nat -> nth j (full_codes datyp nele lst) 0 = match code_at datyp j with Some c => c | None => nth j lst 0 end.
Proof. intros J. unfold full_codes. rewrite XdfEnum.nth_map_seq by exact J. reflexivity. Qed.
Lemma full_length datyp nele lst : length (full_codes datyp nele lst) = nele.
Proof. unfold full_codes. rewrite map_length, seq_length. reflexivity. Qed.
Lemma full_same datyp nele lst : (nele <= length lst)%nat -> (forall j, code_at datyp j = None) -> full_codes datyp nele lst = firstn nele lst.
Proof. intros L N. apply (nth_ext _ _ 0 0); [rewrite full_length, firstn_length; lia|]. intros j J. rewrite full_length in J. rewrite full_nth, N, nth_firstn_d by exact J. reflexivity. Qed.
Lemma valid2_spec code l : Nat.even (length l) = true -> (forall j, (j < length l)%nat -> Nat.odd j = true -> nth j l 0 = 0 \/ nth j l 0 = code) ->
  fst (valid2 code l) = 0 /\ length (snd (valid2 code l)) = length l /\ forall j, (j < length l)%nat -> nth j (snd (valid2 code l)) 0 = if Nat.odd j then code else nth j l 0.
Proof.
  induction l as [|a|a b t IH] using pairs_ind; intros EV V.
  - split; [reflexivity|]. split; [reflexivity|]. intros j J. cbn in J. lia.
  - discriminate.
  - cbn [length Nat.even] in EV. destruct (IH EV) as (I1 & I2 & I3).
    { intros j J O. apply (V (S (S j))); [cbn [length]; lia|exact O]. }
    assert (RES : valid2 code (a :: b :: t) = (fst (valid2 code t), a :: code :: snd (valid2 code t))).
    { cbn [valid2]. destruct (Z.eqb_spec b code) as [->|N]; [reflexivity|]. destruct (V 1%nat ltac:(cbn [length]; lia) eq_refl) as [E|E]; cbn [nth] in E; [rewrite E; reflexivity|congruence]. }
    rewrite RES. cbn [fst snd length]. split; [exact I1|]. split; [rewrite I2; reflexivity|]. intros j J. destruct j as [|[|j]]; [reflexivity|reflexivity|]. cbn [nth]. rewrite I3 by lia. reflexivity.
Qed.
Lemma quads_ind (P : list Z -> Prop) : P [] -> (forall a, P [a]) -> (forall a b, P [a; b]) -> (forall a b c, P [a; b; c]) -> (forall a b c d t, P t -> P (a :: b :: c :: d :: t)) -> forall l, P l.
Proof. intros H0 H1 H2 H3 H4. fix F 1. intros [|a [|b [|c [|d t]]]]; [exact H0|apply H1|apply H2|apply H3|]. apply H4, F. Qed.
Lemma mod4_SSSS j : (S (S (S (S j))) mod 4 = j mod 4)%nat.
Proof. replace (S (S (S (S j)))) with (j + 1 * 4)%nat by lia. apply Nat.mod_add. lia. Qed.
Lemma valid4_spec l : (length l mod 4 = 0)%nat -> (forall j c, (j < length l)%nat -> code_at 9 j = Some c -> nth j l 0 = 0 \/ nth j l 0 = c) ->
  fst (valid4 l) = 0 /\ length (snd (valid4 l)) = length l /\ forall j, (j < length l)%nat -> nth j (snd (valid4 l)) 0 = match code_at 9 j with Some c => c | None => nth j l 0 end.
Proof.
  induction l as [|a|a b|a b c|a b c d t IH] using quads_ind; intros EV V; try (cbn in EV; discriminate).
  - split; [reflexivity|]. split; [reflexivity|]. intros j J. cbn in J. lia.
  - cbn [length] in EV. rewrite mod4_SSSS in EV. assert (CA : forall j, code_at 9 (S (S (S (S j)))) = code_at 9 j) by (intros j; unfold code_at; cbn [Z.eqb Pos.eqb]; rewrite mod4_SSSS; reflexivity).
    destruct (IH EV) as (I1 & I2 & I3). { intros j e J O. apply (V (S (S (S (S j))))); [cbn [length]; lia|rewrite CA; exact O]. }
    assert (V1 : forall x e, x = 0 \/ x = e -> valid1 e x = Some e). { intros x e [->| ->]; unfold valid1; [destruct (0 =? e) eqn:Q; [apply Z.eqb_eq in Q; congruence|reflexivity]|rewrite Z.eqb_refl; reflexivity]. }
    cbn [valid4]. rewrite (V1 b 14284), (V1 c 14286), (V1 d 14287).
    + cbn [fst snd length]. split; [exact I1|]. split; [rewrite I2; reflexivity|]. intros j J. destruct j as [|[|[|[|j]]]]; [reflexivity|reflexivity|reflexivity|reflexivity|]. rewrite CA. cbn [nth]. apply I3. lia.
    + apply (V 3%nat); [cbn [length]; lia|reflexivity].
    + apply (V 2%nat); [cbn [length]; lia|reflexivity].
    + apply (V 1%nat); [cbn [length]; lia|reflexivity].
Qed.
Lemma codes_valid datyp nele lst : 2 <= datyp <= 9 -> (nele <= length lst)%nat -> codes_ok datyp nele lst ->
  (if 7 <=? datyp then valid789 lst nele datyp else Some (0, lst)) = Some (0, full_codes datyp nele lst ++ skipn nele lst).
Proof.
  intros D L (_ & C & E2 & E4). destruct (Z.leb_spec 7 datyp) as [B|B].
  2: { rewrite full_same; [rewrite firstn_skipn; reflexivity|exact L|]. intros j. unfold code_at. rewrite (proj2 (Z.eqb_neq _ 7)), (proj2 (Z.eqb_neq _ 8)), (proj2 (Z.eqb_neq _ 9)) by lia. reflexivity. }
  unfold valid789. rewrite (proj2 (Nat.ltb_ge _ _) L). assert (LF : length (firstn nele lst) = nele) by (rewrite firstn_length; lia).
  assert (D3 : datyp = 7 \/ datyp = 8 \/ datyp = 9) by lia. destruct D3 as [D7|[D7|D7]]; subst datyp; cbn [Z.eqb Pos.eqb orb].
  - assert (EV : Nat.even nele = true) by (apply Nat.even_spec; exists (nele / 2)%nat; pose proof (Nat.div_mod nele 2 ltac:(lia)); rewrite E2 in * by (left; reflexivity); lia). unfold Nat.odd. rewrite EV. cbn [negb].
    destruct (valid2_spec 14284 (firstn nele lst)) as (A1 & A2 & A3); [rewrite LF; exact EV| |].
    { intros j J O. rewrite LF in J. rewrite nth_firstn_d by exact J. apply C; [exact J|unfold code_at; cbn [Z.eqb Pos.eqb]; rewrite O; reflexivity]. }
    rewrite A1. do 2 f_equal. f_equal. apply (nth_ext _ _ 0 0); [rewrite A2, LF, full_length; reflexivity|]. intros j J. rewrite A2 in J. rewrite A3 by exact J. rewrite LF in J. rewrite full_nth by exact J. unfold code_at. cbn [Z.eqb Pos.eqb]. rewrite nth_firstn_d by exact J. destruct (Nat.odd j); reflexivity.
  - assert (EV : Nat.even nele = true) by (apply Nat.even_spec; exists (nele / 2)%nat; pose proof (Nat.div_mod nele 2 ltac:(lia)); rewrite E2 in * by (right; reflexivity); lia). unfold Nat.odd. rewrite EV. cbn [negb].
    destruct (valid2_spec 14285 (firstn nele lst)) as (A1 & A2 & A3); [rewrite LF; exact EV| |].
    { intros j J O. rewrite LF in J. rewrite nth_firstn_d by exact J. apply C; [exact J|unfold code_at; cbn [Z.eqb Pos.eqb]; rewrite O; reflexivity]. }
    rewrite A1. do 2 f_equal. f_equal. apply (nth_ext _ _ 0 0); [rewrite A2, LF, full_length; reflexivity|]. intros j J. rewrite A2 in J. rewrite A3 by exact J. rewrite LF in J. rewrite full_nth by exact J. unfold code_at. cbn [Z.eqb Pos.eqb]. rewrite nth_firstn_d by exact J. destruct (Nat.odd j); reflexivity.
  - rewrite E4 by reflexivity. cbn [Nat.eqb negb]. destruct (valid4_spec (firstn nele lst)) as (A1 & A2 & A3); [rewrite LF; apply E4; reflexivity| |].
    { intros j c J O. rewrite LF in J. rewrite nth_firstn_d by exact J. apply C; assumption. }
    rewrite A1. do 2 f_equal. f_equal. apply (nth_ext _ _ 0 0); [rewrite A2, LF, full_length; reflexivity|]. intros j J. rewrite A2 in J. rewrite A3 by exact J. rewrite LF in J. rewrite full_nth by exact J. rewrite nth_firstn_d by exact J. reflexivity.
Qed.
Lemma full_range datyp nele lst : codes_ok datyp nele lst -> Forall (fun e => 0 <= e < 2 ^ 16) (full_codes datyp nele lst).
Proof.
  intros (R & _). apply Forall_forall. intros x X. apply (In_nth _ _ 0) in X. destruct X as (j & J & <-). rewrite full_length in J. rewrite full_nth by exact J. destruct (code_at datyp j) as [c|] eqn:E; [|apply R, J].
  unfold code_at in E. destruct (datyp =? 7); [destruct (Nat.odd j); [|discriminate]; assert (c = 14284) by congruence; lia|]. destruct (datyp =? 8); [destruct (Nat.odd j); [|discriminate]; assert (c = 14285) by congruence; lia|].
  destruct (datyp =? 9); [|discriminate]. destruct (j mod 4)%nat as [|[|[|[|q]]]]; cbn [nth] in E; try discriminate; try (assert (c = 14284 \/ c = 14286 \/ c = 14287) by (rewrite <- (f_equal (fun o => match o with Some x => x | None => 0 end) E); auto); lia). destruct q; discriminate.
Qed.

(** ** Adding *)
Lemma good_end orc K r its : good orc K r its -> exists T, b_data (r_b r) = (K ++ heads its ++ segs its) ++ T /\ T <> [] /\ length (heads its) = (4 * length its)%nat /\ length (segs its) = (2 * units its)%nat /\
  length (K ++ heads its ++ segs its) = (10 + 4 * length its + 2 * units its)%nat.
Proof.
  intros G. destruct (gd_data _ _ _ _ G) as (T & D & NT). exists T. rewrite <- !app_assoc. pose proof (heads_length _ _ _ (gd_lay _ _ _ _ G)) as LH. pose proof (segs_length _ _ _ (gd_lay _ _ _ _ G)) as LS. repeat split; try assumption. rewrite !app_length, (gd_K _ _ _ _ G), LH, LS. lia.
Qed.
Lemma plain_seg orc seg n b vals : seg_reads orc Plain seg n b vals -> length seg = nb_words n b -> length vals = nb_words n b -> words_ok seg -> seg = vals.
Proof.
  intros R L1 L2 W. specialize (R [] [0] (repeat 0 (length vals))). cbn [app] in R. rewrite repeat_length in R. specialize (R ltac:(apply words_app; split; [exact W|constructor; [lia|constructor]]) ltac:(discriminate) (le_n _)).
  cbn [fetch] in R. change (length (@nil Z)) with 0%nat in R. rewrite (take_list [] seg [0] _ L1 : take_at (seg ++ [0]) 0 (nb_words n b) = Some seg) in R. cbn [bind] in R. rewrite store_words in R by (rewrite repeat_length; lia). rewrite !skipn_all2 in R by (rewrite repeat_length; lia). rewrite !app_nil_r in R. congruence.
Qed.

Lemma raw_length dt kd tbl n nb : kind_of dt = Some kd -> src_ok kd tbl n nb -> (dt =? 2) || (dt =? 4) || (dt =? 6) = true -> (dt = 6 -> nb = 32%nat) -> (n <= length (read_as kd tbl n nb))%nat.
Proof.
  intros K (_ & S) Q B. apply orb_prop in Q. destruct Q as [Q|Q]; [apply orb_prop in Q; destruct Q as [Q|Q]|]; apply Z.eqb_eq in Q; subst dt; vm_compute in K; assert (EK := f_equal (fun o => match o with Some x => x | None => kd end) K); cbv beta iota in EK; subst kd; cbn [read_as].
  - rewrite map_length, firstn_length. lia.
  - rewrite firstn_length. lia.
  - rewrite firstn_length. rewrite (B eq_refl) in *. pose proof (nb_words_bits n 32). lia.
Qed.
Theorem add_good orc junk K r its nele nval nt bfam bdesc btyp nbit datyp lst tbl k : good orc K r its -> acceptable nele nval nt btyp nbit datyp lst tbl ->
  new_block nele nval nt bfam bdesc btyp nbit datyp lst tbl = Some k -> (needs (bk_datyp k) (bk_size k) (bk_nbit k) <= length tbl)%nat -> (packed datyp = true -> (bk_size k <= length tbl)%nat) -> room r (blks its ++ [k]) ->
  exists r' it, it_k it = k /\ mrbadd orc 1 junk r nele nval nt bfam bdesc btyp nbit datyp lst tbl = Some (0, r', full_codes datyp nele lst ++ skipn nele lst) /\ good orc K r' (its ++ [it]).
Proof.
  intros G (A1 & A2 & A3 & B1 & B2 & B3 & BT & NB & DT & D35 & L3 & LL & CO & WT) NK LN LP RM. unfold new_block in NK.
  destruct (stored_bits nbit datyp (firstn (nele * nval * nt) tbl)) as [[nb dt]|] eqn:SB; [|discriminate]. pose proof (bfd_family bfam bdesc) as BF. destruct (family bfam bdesc) as [fam|]; [|discriminate]. destruct BF as (bfd & BF & BR & BS).
  assert (EK : k = mkblk nele nval nt fam btyp nb dt (full_codes datyp nele lst) (kept dt (nele * nval * nt) nb tbl)) by congruence. set (n := (nele * nval * nt)%nat) in *.
  assert (SZ : bk_size k = n) by (rewrite EK; reflexivity). assert (KN : bk_nele k = nele /\ bk_nval k = nval /\ bk_nt k = nt /\ bk_nbit k = nb /\ bk_datyp k = dt /\ bk_codes k = full_codes datyp nele lst /\ bk_vals k = kept dt n nb tbl /\ bk_btyp k = btyp /\ bk_bfam k = fam) by (rewrite EK; repeat split). destruct KN as (K1 & K2 & K3 & K4 & K5 & K6 & K7 & K8 & K9). rewrite SZ, K4, K5 in LN. rewrite SZ in LP.
  assert (N1 : (1 <= n)%nat) by (unfold n; nia). destruct (nbit_datyp_ok nbit datyp tbl n nb dt N1 NB DT WT SB LN LP) as (ND & NB2 & DT2 & DD & BAD & _ & kd & KD & SO & UN).
  assert (BAD0 : bad_nbits datyp nbit = false).
  { unfold bad_nbits. destruct ((datyp =? 3) || (datyp =? 5)) eqn:Q; [|reflexivity]. rewrite D35; [reflexivity|]. apply orb_prop in Q. destruct Q as [Q|Q]; apply Z.eqb_eq in Q; auto. }
  unfold mrbadd. rewrite BAD0. fold n. rewrite ND. cbn [bind]. change (0 <? 0) with false. cbv iota. rewrite (codes_valid datyp nele lst DT LL CO). cbn [bind]. change (0 <? 0) with false. cbv iota. rewrite BF.
  set (lst' := full_codes datyp nele lst ++ skipn nele lst) in *. pose proof (full_length datyp nele lst) as FL. assert (LL' : length lst' = length lst) by (unfold lst'; rewrite app_length, FL, skipn_length; lia).
  destruct (good_end _ _ _ _ G) as (T & D & NT & LH & LS & LA). pose proof (gd_nbits _ _ _ _ G) as GN. pose proof (gd_K _ _ _ _ G) as GK. pose proof (gd_size _ _ _ _ G) as GS. pose proof (gd_nwords _ _ _ _ G) as GW. pose proof (gd_buf9 _ _ _ _ G) as G9.
  set (N := length its) in *. set (b := r_b r) in *. set (A := K ++ heads its ++ segs its) in *.
  destruct RM as [RM1 RM2]. fold b in RM1. assert (TW : total_words (blks its ++ [k]) = (2 * units its + 2 * bk_units k)%nat).
  { rewrite <- total_units, <- bk_words_units. unfold total_words. rewrite fold_right_app. cbn [fold_right]. rewrite Nat.add_0_r. clear. generalize (bk_words k). intros m. induction (blks its) as [|x l IH]; cbn [fold_right]; [reflexivity|rewrite IH; lia]. }
  rewrite TW in RM1, RM2. rewrite app_length in RM1. cbn [length] in RM1. unfold blks in RM1. rewrite map_length in RM1. fold N in RM1.
  assert (LT : length (b_data b) = (length A + length T)%nat) by (rewrite D, app_length; reflexivity).
  assert (LG : large k = ((GROSNELE <=? nele)%nat || (GROSDIM <=? nval)%nat || (GROSDIM <=? nt)%nat)) by (unfold large; rewrite K1, K2, K3; reflexivity). rewrite <- LG.
  assert (E0 : w32 (b_nbits b - NBENTR - Z.of_nat (r_buf9 r)) / 64 = Z.of_nat (units its)).
  { rewrite GN, G9. unfold NBENTR. rewrite w32_id by (unfold word_ok; lia). replace (32 * Z.of_nat (10 + 4 * N + 2 * units its) - 320 - Z.of_nat (128 * N)) with (Z.of_nat (units its) * 64) by lia. apply Z.div_mul. lia. }
  rewrite E0.
  set (es := if large k then firstn nele lst' else skipn 3 (firstn nele lst')).
  assert (FE : firstn nele lst' = full_codes datyp nele lst) by (unfold lst'; rewrite <- FL at 1; apply firstn_app_len).
  assert (ES : es = skipn (nele - listed k) (full_codes datyp nele lst)).
  { unfold es, listed. rewrite FE, K1. destruct (large k); [rewrite Nat.sub_diag; reflexivity|]. destruct (Nat.le_gt_cases 3 nele); [f_equal; lia|]. rewrite !skipn_all2 by (rewrite FL; lia). reflexivity. }
  assert (LE : length es = listed k) by (rewrite ES, skipn_length, FL; unfold listed; rewrite K1; destruct (large k); lia).
  (* the header *)
  set (hd := match nth_error lst' 0, nth_error lst' 1, nth_error lst' 2 with Some e1, Some e2, Some e3 =>
       if large k then mk_hb (Z.of_nat nb - 1) btyp bfd (Z.of_nat (units its)) dt (junk 0%nat) (Z.of_nat nele) (junk 1%nat) (Z.of_nat GROSNELE) 1 (Z.of_nat nt) (Z.of_nat nval)
       else mk_hb (Z.of_nat nb - 1) btyp bfd (Z.of_nat (units its)) dt (Z.of_nat nt) e1 (Z.of_nat nval) (Z.of_nat nele) 0 e3 e2 | _, _, _ => [] end).
  assert (HD : (if large k then Some (mk_hb (Z.of_nat nb - 1) btyp bfd (Z.of_nat (units its)) dt (junk 0%nat) (Z.of_nat nele) (junk 1%nat) (Z.of_nat GROSNELE) 1 (Z.of_nat nt) (Z.of_nat nval))
               else e1 <- nth_error lst' 0 ;; e2 <- nth_error lst' 1 ;; e3 <- nth_error lst' 2 ;; Some (mk_hb (Z.of_nat nb - 1) btyp bfd (Z.of_nat (units its)) dt (Z.of_nat nt) e1 (Z.of_nat nval) (Z.of_nat nele) 0 e3 e2)) = Some hd /\
    head_ok (units its) hd k).
  { assert (X : exists e1 e2 e3 tl, lst' = e1 :: e2 :: e3 :: tl) by (destruct lst' as [|e1 [|e2 [|e3 tl]]]; cbn [length] in LL'; try lia; eauto). destruct X as (e1 & e2 & e3 & tl & EX). unfold hd. rewrite EX. cbn [nth_error bind].
    assert (NB5 : (Z.of_nat nb - 1) mod 2 ^ 5 + 1 = Z.of_nat nb) by (rewrite Z.mod_small by lia; lia).
    assert (DT4 : dt mod 2 ^ 4 = dt) by (apply Z.mod_small; lia). assert (BT15 : btyp mod 2 ^ 15 = btyp) by (apply Z.mod_small; lia). assert (BF12 : bfd mod 2 ^ 12 = bfd) by (apply Z.mod_small; lia). assert (U20 : Z.of_nat (units its) mod 2 ^ 20 = Z.of_nat (units its)) by (apply Z.mod_small; lia).
    assert (LGV : large k = ((127 <=? nele)%nat || (256 <=? nval)%nat || (256 <=? nt)%nat)) by exact LG.
    destruct (large k) eqn:LGK.
    - split; [reflexivity|]. pose proof (mk_hb_get (Z.of_nat nb - 1) btyp bfd (Z.of_nat (units its)) dt (junk 0%nat) (Z.of_nat nele) (junk 1%nat) (Z.of_nat GROSNELE) 1 (Z.of_nat nt) (Z.of_nat nval)) as M. cbv zeta in M. destruct M as (M1 & M2 & M3 & M4 & M5 & M6 & M7 & M8 & M9 & M10 & M11 & M12).
      assert (E16 : Z.of_nat nele mod 2 ^ 16 = Z.of_nat nele /\ Z.of_nat nval mod 2 ^ 16 = Z.of_nat nval /\ Z.of_nat nt mod 2 ^ 16 = Z.of_nat nt) by (repeat split; apply Z.mod_small; lia). destruct E16 as (E16a & E16b & E16c).
      constructor; rewrite ?M4, ?M5, ?M1, ?M2, ?M3, ?U20, ?DT4, ?NB5, ?BT15, ?BF12, ?K4, ?K5, ?K8, ?K9; try reflexivity.
      + apply mk_hb_words.
      + unfold hb_dims. rewrite M10. change (1 mod 2 ^ 1 =? 0) with false. cbv iota. rewrite M7, M11, M12, E16a, E16b, E16c, !Nat2Z.id, K1, K2, K3. reflexivity.
      + exact BS.
      + rewrite M10, LGK. reflexivity.
      + unfold hb_listed, listed. rewrite M10, LGK. change (1 mod 2 ^ 1 =? 0) with false. cbv iota. rewrite M7, E16a, Nat2Z.id, K1. reflexivity.
      + intros X. congruence.
    - symmetry in LGV. apply orb_false_elim in LGV. destruct LGV as [LGV L3']. apply orb_false_elim in LGV. destruct LGV as [L1' L2']. apply Nat.leb_gt in L1', L2', L3'.
      split; [reflexivity|]. pose proof (mk_hb_get (Z.of_nat nb - 1) btyp bfd (Z.of_nat (units its)) dt (Z.of_nat nt) e1 (Z.of_nat nval) (Z.of_nat nele) 0 e3 e2) as M. cbv zeta in M. destruct M as (M1 & M2 & M3 & M4 & M5 & M6 & M7 & M8 & M9 & M10 & M11 & M12).
      assert (E16 : Z.of_nat nele mod 2 ^ 7 = Z.of_nat nele /\ Z.of_nat nval mod 2 ^ 8 = Z.of_nat nval /\ Z.of_nat nt mod 2 ^ 8 = Z.of_nat nt) by (repeat split; apply Z.mod_small; lia). destruct E16 as (E16a & E16b & E16c).
      constructor; rewrite ?M4, ?M5, ?M1, ?M2, ?M3, ?U20, ?DT4, ?NB5, ?BT15, ?BF12, ?K4, ?K5, ?K8, ?K9; try reflexivity.
      + apply mk_hb_words.
      + unfold hb_dims. rewrite M10. change (0 mod 2 ^ 1 =? 0) with true. cbv iota. rewrite M6, M8, M9, E16a, E16b, E16c, !Nat2Z.id, K1, K2, K3. reflexivity.
      + exact BS.
      + rewrite M10, LGK. reflexivity.
      + unfold hb_listed, listed. rewrite M10, LGK. change (0 mod 2 ^ 1 =? 0) with true. cbv iota. rewrite M9, E16a, Nat2Z.id, K1. reflexivity.
      + intros _. rewrite M7, M11, M12, K1, K6. pose proof (full_range datyp nele lst CO) as FR. rewrite <- FE, EX in FR. rewrite <- FE, EX. clear - FR.
        destruct nele as [|[|[|nele]]]; cbn [firstn Nat.min]; [reflexivity|..]; inversion FR as [|? ? F1 FR1]; subst; rewrite (Z.mod_small e1) by lia; [reflexivity|..]; inversion FR1 as [|? ? F2 FR2]; subst; rewrite (Z.mod_small e2) by lia; [reflexivity|]; inversion FR2 as [|? ? F3 FR3]; subst; rewrite (Z.mod_small e3) by lia; rewrite firstn_nil; reflexivity. }
  destruct HD as [HD HO]. rewrite HD. cbn [bind]. rewrite (proj2 (Nat.ltb_ge _ _)) by lia.
  (* the list *)
  assert (I0 : Z.to_nat (b_nbits b / 32) = length A) by (rewrite GN, Z.mul_comm, Z.div_mul by lia; rewrite Nat2Z.id; lia). rewrite I0, D.
  pose proof (gd_words _ _ _ _ G) as GWD. fold b in GWD. rewrite D in GWD. pose proof GWD as GWD'. apply words_app in GWD'. destruct GWD' as [WA WTl].
  assert (U : (2 * bk_units k = list_words (length es) + nb_words n nb)%nat) by (rewrite list_words_eq, LE; unfold bk_units, nb_words; rewrite SZ, K4; lia).
  assert (FR : Forall (fun e => 0 <= e < 2 ^ 16) es).
  { rewrite ES. apply Forall_forall. intros x X. pose proof (full_range datyp nele lst CO) as F. rewrite Forall_forall in F. apply F. rewrite <- (firstn_skipn (nele - listed k)). apply in_or_app. right. exact X. }
  destruct (put_list_seg orc es A T ltac:(lia) WTl FR) as (L & T1 & PL & LL1 & LT1 & WL & WT1 & RL). rewrite PL. cbn [bind].
  set (lw := list_words (length es)) in *. assert (NB1 : w32 (b_nbits b + 32 * Z.of_nat lw) = 32 * Z.of_nat (length A + lw)) by (rewrite w32_id by (unfold word_ok; lia); rewrite GN; lia). rewrite NB1. set (b1 := set_data b _ _).
  (* the header inserted *)
  destruct (ins_list orc b1 hd (r_buf9 r) 4 32 0 Plain (K ++ heads its) (segs its ++ L) T1) as (hd' & T2 & IN & LH2 & LT2 & WW2 & RH).
  { reflexivity. } { reflexivity. } { rewrite G9. replace (128 * N)%nat with (0 + 2 * N * 64)%nat by lia. rewrite Nat.mod_add by lia. reflexivity. }
  { unfold b1, set_data, A. cbn [b_data]. rewrite <- !app_assoc. reflexivity. } { apply (gd_ridx _ _ _ _ G). }
  { rewrite G9, (Nat.mul_comm 128). rewrite index_head by apply (gd_didx _ _ _ _ G). rewrite app_length, GK, LH. lia. }
  { unfold b1, set_data. cbn [b_nbits]. rewrite !app_length, GK, LH, LS, LL1. rewrite LA. lia. }
  { change (nb_words 4 32) with 4%nat. lia. } { rewrite !app_length, GK, LH, LS, LL1. lia. } { unfold b1, set_data. cbn [b_nwords]. rewrite !app_length, GK, LH, LS, LL1. fold b in GW. lia. }
  { rewrite <- !app_assoc. unfold A in WA. apply words_app in WA. destruct WA as [WK WA]. apply words_app in WA. destruct WA. repeat (apply words_app; split); assumption. }
  { split; [apply (ho_words _ _ _ HO)|]. rewrite (ho_len _ _ _ HO). cbn. lia. }
  change (nb_words 4 32) with 4%nat in *.
  assert (hd' = hd) as ->.
  { assert (RA : read_as Plain hd 4 32 = hd) by (cbn [read_as]; apply firstn_all2; rewrite (ho_len _ _ _ HO); cbn; lia). rewrite RA in RH. apply (plain_seg orc hd' 4 32 hd RH LH2); [apply (ho_len _ _ _ HO)|]. apply words_app in WW2. destruct WW2 as [_ WW2]. apply words_app in WW2. apply WW2. }
  rewrite IN. cbn [bind]. change (0 <? 0) with false. cbv iota. set (b2 := set_data b1 _ _).
  (* the values *)
  destruct (add_list orc b2 tbl n nb dt kd (K ++ heads its ++ hd ++ segs its ++ L) T2 KD BAD) as (V & AD & LV & WV & RV).
  { unfold b2, set_data. cbn [b_data]. rewrite <- !app_assoc. reflexivity. }
  { unfold b2, b1, set_data. cbn [b_nbits]. rewrite !app_length, GK, LH, LS, LL1, LH2. rewrite LA. lia. }
  { lia. } { rewrite !app_length, GK, LH, LS, LL1, LH2. lia. } { unfold b2, b1, set_data. cbn [b_nwords]. rewrite !app_length, GK, LH, LS, LL1, LH2. fold b in GW. lia. }
  { rewrite <- !app_assoc. rewrite <- !app_assoc in WW2. exact WW2. } { exact SO. }
  rewrite AD. cbn [bind]. change (0 <? 0) with false. cbv iota. set (b3 := set_data b2 _ _).
  exists (mkrep b3 (S (r_nblk r)) (r_buf9 r + NBENTB)), (mkit hd (L ++ V) k). split; [reflexivity|]. split; [reflexivity|].
  assert (UA : units (its ++ [mkit hd (L ++ V) k]) = (units its + bk_units k)%nat) by (rewrite units_app; cbn [units fold_right it_k]; lia).
  assert (DA : b_data b3 = K ++ heads (its ++ [mkit hd (L ++ V) k]) ++ segs (its ++ [mkit hd (L ++ V) k]) ++ skipn (nb_words n nb) T2).
  { rewrite heads_app, segs_app. unfold heads at 2, segs at 2. cbn [map concat it_h it_s]. rewrite !app_nil_r, <- !app_assoc. unfold b3, set_data. cbn [b_data]. rewrite <- !app_assoc. reflexivity. }
  assert (WK : words_ok (b_data b3)).
  { unfold b3, set_data. cbn [b_data]. rewrite <- !app_assoc. apply words_app in WW2. destruct WW2 as [X1 WW2]. apply words_app in X1. destruct X1. apply words_app in WW2. destruct WW2 as [X2 WW2]. apply words_app in WW2. destruct WW2 as [X3 X4]. apply words_app in X3. destruct X3. repeat (apply words_app; split); try assumption. apply words_skipn. assumption. }
  assert (LD3 : length (b_data b3) = length (b_data b)).
  { unfold b3, set_data. cbn [b_data]. rewrite <- !app_assoc. rewrite !app_length, skipn_length, GK, LH, LS, LL1, LH2, LV. lia. }
  constructor; cbn [r_b r_nblk r_buf9].
  - exists (skipn (nb_words n nb) T2). split; [exact DA|]. intros X. apply (f_equal (@length Z)) in X. rewrite skipn_length in X. cbn [length] in X. lia.
  - exact GK.
  - exact WK.
  - apply lay_app. split; [apply (gd_lay _ _ _ _ G)|]. cbn [lay it_h it_s it_k]. rewrite Nat.add_0_l. split; [exact HO|]. split; [|split; [|exact Logic.I]].
    + constructor; rewrite ?K1, ?K2, ?K3, ?K4, ?K5, ?K6; try assumption. intros D5. destruct DD as [->|[_ ->]]; [|lia]. unfold stored_bits in SB. rewrite (proj2 (Z.eqb_neq _ 2)), (proj2 (Z.ltb_lt _ _)) in SB by lia. cbn [andb] in SB. congruence.
    + exists L, V, kd, (read_as kd tbl n nb). rewrite SZ, K1, K4, K5, K6, K7. rewrite <- list_words_eq. rewrite LE in *. rewrite <- ES. repeat split; try assumption; [rewrite <- LE; exact LL1|].
      intros Q. apply (raw_length dt kd tbl n nb KD SO Q).
      destruct DD as [->|[_ ->]]; [|discriminate]. intros ->. unfold stored_bits in SB. cbn in SB. congruence.
  - apply (gd_didx _ _ _ _ G).
  - apply (gd_ridx _ _ _ _ G).
  - unfold b3, b2, b1, set_data. cbn [b_nbits]. rewrite app_length, UA. cbn [length]. fold N. rewrite LA. lia.
  - rewrite (gd_nblk _ _ _ _ G), app_length. cbn [length]. lia.
  - rewrite G9, app_length. cbn [length]. unfold NBENTB. fold N. lia.
  - rewrite LD3. exact GS.
  - rewrite UA. lia.
  - rewrite LD3. exact GW.
Qed.
