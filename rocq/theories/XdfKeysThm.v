(** Generic keys: what searches compare, what c_xdfini, c_xdfupd, c_xdfput and
    c_xdfprm do to them. *)
From Coq Require Import ZArith List Lia Bool.
From Verif Require Import Bits Handles HandlesFacts WaFile Xdf XdfLib XdfInv XdfDel XdfPut XdfPut2 XdfPut3 XdfPut4 XdfOpen XdfClose XdfClose2 XdfReopen XdfCreate XdfSearch XdfAbs XdfCkpt XdfLoc XdfHist XdfSys XdfSys2 XdfSpec XdfThm XdfEnum XdfSta XdfThm2 XdfThm3 XdfKeys XdfKeysFacts XdfKeysHist.
Import ListNotations.
Open Scope Z_scope.

(** Keys that fit in [n] words and do not overlap. *)
Definition key_layout (fs : list field) (n : nat) : Prop :=
  Forall fits fs /\ ForallOrdPairs apart_fields fs /\ Forall (fun f => (fd_w f < n)%nat) fs.
(** The first key is in the first word, the last one in the last word. *)
Definition spans (fs : list field) (n : nat) : Prop :=
  match fs with [] => False | f :: _ => fd_w f = 0%nat /\ S (fd_w (last fs f)) = n end.
(** Entry [e] has the given keys; a key of all ones is not compared. *)
Definition gen_match (fs : list field) (keys e : list Z) : bool :=
  forallb (fun fk => (snd fk =? 2 ^ 32 - 1) || (get_field (fst fk) (nth (2 + fd_w (fst fk)) e 0) =? key_of (fst fk) (snd fk) mod 2 ^ fd_n (fst fk))) (combine fs keys).

Definition coversb (f : field) (j : nat) (b : Z) : bool := (fd_w f =? j)%nat && (fd_s f <=? b) && (b <? fd_s f + fd_n f).
Definition masked (fs : list field) (keys : list Z) (j : nat) (b : Z) : bool :=
  existsb (fun fk => negb (snd fk =? 2 ^ 32 - 1) && coversb (fst fk) j b) (combine fs keys).

Lemma each_key_mask fs : forall keys m m', each_key (fun f w _ => set_mask f w) fs keys m = Some m' -> Forall fits fs ->
  forall j b, 0 <= b < 32 -> (j < length m)%nat -> Z.testbit (nth j m' 0) b = masked fs keys j b || Z.testbit (nth j m 0) b.
Proof.
  induction fs as [|f fs IH]; intros keys m m' H F j b B J; cbn [each_key] in H; [injection H as <-; reflexivity|]. destruct keys as [|k keys]; [discriminate|].
  inversion F as [|? ? F1 F2]; subst. unfold masked. cbn [combine existsb fst snd].
  destruct (k =? 2 ^ 32 - 1); cbn [negb andb orb]; [exact (IH _ _ _ H F2 j b B J)|].
  destruct (Nat.ltb_spec (fd_w f) (length m)) as [L|]; [|discriminate]. rewrite (IH _ _ _ H F2 j b B) by (rewrite upd_length; exact J). fold (masked fs keys j b).
  rewrite upd_nthd. unfold coversb. destruct (Nat.eqb_spec j (fd_w f)) as [->|N].
  - rewrite (proj2 (Nat.ltb_lt _ _) L). cbn [andb]. rewrite set_mask_bit by assumption. rewrite Nat.eqb_refl. cbn [andb].
    destruct (_ && _), (masked fs keys (fd_w f) b); reflexivity.
  - cbn [andb]. rewrite (proj2 (Nat.eqb_neq _ _)) by congruence. reflexivity.
Qed.

Lemma clear_mask_all fs n m m' : spans fs n -> clear_mask fs m = Some m' -> forall j, (j < n)%nat -> nth j m' 0 = 0.
Proof.
  intros S H j J. destruct fs as [|f fs]; [contradiction|]. cbn [spans] in S. destruct S as [S1 S2]. cbn [clear_mask] in H. cbv zeta in H.
  destruct (_ || _) eqn:C; [|discriminate]. assert (E : m' = map (fun j => if (fd_w f <=? j)%nat && (j <=? fd_w (last (f :: fs) f))%nat then 0 else nth j m 0) (seq 0 (length m))) by congruence.
  rewrite E. clear E H. apply orb_prop in C. destruct (Nat.lt_ge_cases j (length m)) as [L|L].
  - rewrite nth_map_seq by exact L. rewrite S1. rewrite !(proj2 (Nat.leb_le _ _)) by lia. reflexivity.
  - apply nth_overflow. rewrite map_length, seq_length. exact L.
Qed.

Lemma land_zero_bits a m : Z.land a m = 0 <-> forall b, 0 <= b -> Z.testbit m b = true -> Z.testbit a b = false.
Proof.
  split.
  - intros H b B M. assert (X : Z.testbit (Z.land a m) b = false) by (rewrite H; apply Z.testbit_0_l). rewrite Z.land_spec, M, andb_true_r in X. exact X.
  - intros H. apply Z.bits_inj'. intros b B. rewrite Z.land_spec, Z.testbit_0_l. destruct (Z.testbit m b) eqn:M; [rewrite H by assumption; reflexivity|apply andb_false_r].
Qed.

Lemma nth_skipn_d {A} n (l : list A) j d : nth j (skipn n l) d = nth (n + j) l d.
Proof. revert l. induction n; intros l; [reflexivity|]. destruct l; [destruct j; reflexivity|]. apply IHn. Qed.

Lemma masked_eq_gen fs keys n e t m b : key_layout fs n -> (length fs <= length keys)%nat ->
  length e = (2 + n)%nat -> length t = (2 + length b)%nat -> skipn 2 t = b -> (n <= length b)%nat ->
  (forall i f k, nth_error fs i = Some f -> nth_error keys i = Some k -> k <> 2 ^ 32 - 1 -> get_field f (nth (fd_w f) b 0) = key_of f k mod 2 ^ fd_n f) ->
  nth 0 m 0 = 0 -> nth 1 m 0 = 0 -> (forall j, (j < n)%nat -> 0 <= nth (2 + j) m 0) -> (forall j c, (j < n)%nat -> 0 <= c -> Z.testbit (nth (2 + j) m 0) c = (c <? 32) && masked fs keys j c) ->
  masked_eq (2 + n) e t m = gen_match fs keys e.
Proof.
  intros (LF & LA & LW) LK LE LT EB LB GK M0 M1 MP MB. apply eq_true_iff_eq. unfold masked_eq, gen_match. rewrite !forallb_forall.
  assert (NT : forall j, nth (2 + j) t 0 = nth j b 0) by (intros j; rewrite <- EB; symmetry; apply nth_skipn_d).
  rewrite Forall_forall in LF, LW.
  assert (IDX : forall f k, In (f, k) (combine fs keys) -> exists i, nth_error fs i = Some f /\ nth_error keys i = Some k).
  { clear. revert keys. induction fs as [|g fs IH]; intros keys f k H; [contradiction|]. destruct keys as [|x keys]; [contradiction|]. cbn [combine] in H. destruct H as [H|H].
    - injection H as <- <-. exists 0%nat. auto.
    - destruct (IH _ _ _ H) as (i & A & B). exists (S i). auto. }
  assert (MSK : forall j c, masked fs keys j c = true <-> exists f k, In (f, k) (combine fs keys) /\ k <> 2 ^ 32 - 1 /\ fd_w f = j /\ fd_s f <= c < fd_s f + fd_n f).
  { intros j c. unfold masked. rewrite existsb_exists. split.
    - intros ([f k] & I & H). cbn [fst snd] in H. apply andb_prop in H. destruct H as [H1 H2]. apply negb_true_iff, Z.eqb_neq in H1. unfold coversb in H2.
      apply andb_prop in H2. destruct H2 as [H2 H3]. apply andb_prop in H2. destruct H2 as [H2 H4]. apply Nat.eqb_eq in H2. apply Z.ltb_lt in H3. apply Z.leb_le in H4.
      exists f, k. repeat split; assumption.
    - intros (f & k & I & NK & FW & BB). exists (f, k). split; [exact I|]. cbn [fst snd]. rewrite (proj2 (Z.eqb_neq _ _) NK). unfold coversb.
      rewrite (proj2 (Nat.eqb_eq _ _) FW), (proj2 (Z.leb_le _ _)), (proj2 (Z.ltb_lt _ _)) by lia. reflexivity. }
  split.
  - intros H [f k] I. cbn [fst snd]. destruct (Z.eqb_spec k (2 ^ 32 - 1)) as [->|NK]; [reflexivity|]. cbn [orb].
    destruct (IDX f k I) as (i & I1 & I2). apply Z.eqb_eq. rewrite <- (GK i f k I1 I2 NK). pose proof (nth_error_In _ _ I1) as IF. pose proof (LF f IF) as FF. pose proof (LW f IF) as FW. cbn beta in FW.
    assert (HJ := H (2 + fd_w f)%nat ltac:(apply in_seq; lia)). cbn beta in HJ. apply Z.eqb_eq in HJ. rewrite land_zero_bits in HJ. rewrite NT in HJ.
    pose proof FF as (F1 & F2 & F3). apply Z.bits_inj'. intros c C. rewrite !get_field_bit by assumption. destruct (Z.ltb_spec c (fd_n f)); cbn [andb]; [|reflexivity].
    specialize (HJ (c + fd_s f) ltac:(lia)). rewrite MB in HJ by (assumption || lia). rewrite (proj2 (Z.ltb_lt _ 32)) in HJ by lia. cbn [andb] in HJ.
    rewrite Z.lxor_spec in HJ. apply xorb_eq. apply HJ. apply MSK. exists f, k. repeat split; auto; lia.
  - intros H j J. apply in_seq in J. apply Z.eqb_eq. destruct j as [|[|j]]; [rewrite M0; apply Z.land_0_r|rewrite M1; apply Z.land_0_r|]. change (S (S j)) with (2 + j)%nat. apply land_zero_bits.
    intros c C. rewrite MB by lia. intros X. apply andb_prop in X. destruct X as [_ X]. apply MSK in X. destruct X as (f & k & I & NK & FW & BB).
    specialize (H (f, k) I). cbn [fst snd] in H. rewrite (proj2 (Z.eqb_neq _ _) NK) in H. cbn [orb] in H. apply Z.eqb_eq in H.
    destruct (IDX f k I) as (i & I1 & I2). rewrite <- (GK i f k I1 I2 NK) in H. pose proof (LF f (nth_error_In _ _ I1)) as FF. pose proof FF as (F1 & F2 & F3).
    rewrite Z.lxor_spec, NT, <- FW. assert (HB : Z.testbit (get_field f (nth (2 + fd_w f) e 0)) (c - fd_s f) = Z.testbit (get_field f (nth (fd_w f) b 0)) (c - fd_s f)) by (rewrite H; reflexivity).
    rewrite !get_field_bit in HB by (assumption || lia). rewrite (proj2 (Z.ltb_lt _ _)) in HB by lia. cbn [andb] in HB. replace (c - fd_s f + fd_s f) with c in HB by lia. rewrite HB. apply xorb_nilpotent.
Qed.

Lemma spans_last fs n : spans fs n -> forall m, (n <= length m)%nat -> exists m', clear_mask fs m = Some m'.
Proof.
  intros S m L. destruct fs as [|f fs]; [contradiction|]. cbn [spans] in S. destruct S as [S1 S2]. cbn [clear_mask]. cbv zeta. rewrite (proj2 (Nat.ltb_lt _ _)) by lia. cbn [orb]. eauto.
Qed.

Lemma gen_aims junk f primk nprim msk : finv f -> nprim <> 0 -> key_layout (prim_fields (f_hdr f)) (nkeys f) -> spans (prim_fields (f_hdr f)) (nkeys f) ->
  (length (prim_fields (f_hdr f)) <= length primk)%nat ->
  forall g, fok g -> as_generic (f_kp g) (prim_fields (f_hdr f)) -> f_hdr g = f_hdr f -> f_plen g = f_plen f ->
  exists g1, aimed junk g primk nprim msk g1 /\ aims_to f (gen_match (prim_fields (f_hdr f)) primk) g1.
Proof.
  intros FI NP LY SP LK g GK KP HH PL. set (fs := prim_fields (f_hdr f)) in *. pose proof LY as (LF & LA & LW).
  pose proof (g_plen _ _ (proj1 FI)) as PB. pose proof (fo_t _ GK) as LT. pose proof (fo_c _ GK) as LC. unfold MAX_PRIMARY_LNG in LT, LC. unfold nkeys in *.
  unfold aimed. rewrite (proj2 (Z.eqb_neq _ _) NP), HH, (proj1 (KP (f_hdr f) eq_refl)). unfold gen_write. fold fs.
  rewrite LT, LC. cbn [Nat.ltb Nat.leb orb].
  destruct (spans_last fs _ SP (skipn 2 (f_cmask g))) as (m0 & C0); [rewrite skipn_length; lia|]. rewrite C0. cbn [bind].
  assert (FW : forall l : list Z, (2 * (f_plen f - 1) <= length l)%nat -> Forall (fun x => (fd_w x < length l)%nat) fs).
  { intros l L. eapply Forall_impl; [|exact LW]. cbn beta. intros; lia. }
  destruct (each_key_total set_field fs primk (skipn 2 (f_target g)) LK) as (b & B). { apply FW. rewrite skipn_length. lia. }
  pose proof (clear_mask_length _ _ _ C0) as LC0. rewrite skipn_length in LC0.
  destruct (each_key_total (fun f w _ => set_mask f w) fs primk m0 LK) as (m1 & M1). { apply FW. lia. }
  rewrite B, M1. cbn [bind]. eexists. split; [eexists _, _; split; reflexivity|].
  pose proof (each_key_length _ _ _ _ _ B) as LB. rewrite skipn_length in LB. pose proof (each_key_length _ _ _ _ _ M1) as LM1.
  split; [reflexivity|]. intros e LE WE. cbn [f_settgt f_target f_cmask].
  replace (2 * f_plen f)%nat with (2 + 2 * (f_plen f - 1))%nat by lia.
  assert (NM : forall j, (j < 2 * f_plen f)%nat -> nth j (new_mask g ([0; 0] ++ m1)) 0 = Z.land (nth j ([0; 0] ++ m1) 0) (2 ^ 32 - 1)).
  { intros j J. unfold new_mask. rewrite nth_map_seq by (rewrite app_length; cbn [length]; lia). rewrite PL, (proj2 (Nat.ltb_lt _ _) J). rewrite (fo_s _ GK). rewrite nth_repeat_lt by (unfold MAX_PRIMARY_LNG; lia). reflexivity. }
  apply (masked_eq_gen fs primk _ e _ _ b LY LK); try lia.
  - rewrite app_length, firstn_length. lia.
  - rewrite skipn_app, skipn_firstn_comm, firstn_length. replace (2 - Nat.min 2 (length (f_target g)))%nat with 0%nat by lia. reflexivity.
  - intros i x k I K NK. rewrite (each_key_get _ _ _ _ B LF LA i x k I K). unfold after_write. rewrite (proj2 (Z.eqb_neq _ _) NK). reflexivity.
  - rewrite NM by lia. reflexivity.
  - rewrite NM by lia. reflexivity.
  - intros j J. rewrite NM by lia. apply Z.land_nonneg. right. lia.
  - intros j c J C. rewrite NM by lia. rewrite Z.land_spec, mask_testbit by lia. rewrite (proj2 (Z.leb_le 0 c) C). cbn [andb].
    destruct (Z.ltb_spec c 32) as [C3|C3]; [|rewrite andb_false_r; reflexivity]. rewrite andb_true_r.
    change (nth (2 + j) ([0; 0] ++ m1) 0) with (nth j m1 0). rewrite (each_key_mask _ _ _ _ M1 LF j c) by lia. rewrite (clear_mask_all _ _ _ _ SP C0 j J), Z.testbit_0_l. rewrite orb_false_r. reflexivity.
Qed.

(** * Upper case *)
Lemma key_of_bits f v b : Z.testbit (key_of f v) b = true -> Z.testbit v b = true.
Proof. unfold key_of, upcase. destruct (fd_up f); [|auto]. rewrite Z.ldiff_spec. intros H. apply andb_prop in H. apply H. Qed.
Lemma key_of_le f v : 0 <= v -> 0 <= key_of f v <= v.
Proof.
  intros V. unfold key_of, upcase. destruct (fd_up f); [|lia]. set (m := Z.shiftr _ _). split; [apply Z.ldiff_nonneg; lia|].
  assert (E : v = Z.ldiff v m + Z.land v m).
  { rewrite Z.add_nocarry_lxor. 2: { apply Z.bits_inj'. intros b B. rewrite !Z.land_spec, Z.ldiff_spec, Z.testbit_0_l. destruct (Z.testbit v b), (Z.testbit m b); reflexivity. }
    apply Z.bits_inj'. intros b B. rewrite Z.lxor_spec, Z.ldiff_spec, Z.land_spec. destruct (Z.testbit v b), (Z.testbit m b); reflexivity. }
  assert (0 <= Z.land v m) by (apply Z.land_nonneg; lia). lia.
Qed.
Lemma key_of_small f v n : 0 <= v < 2 ^ n -> 0 <= key_of f v < 2 ^ n.
Proof. intros V. pose proof (key_of_le f v ltac:(lia)). lia. Qed.
(** Upper case letters stay as they are; [n]-bit parts. *)
Lemma key_of_mod f v n : 0 <= n -> 0 <= v -> key_of f (key_of f v mod 2 ^ n) mod 2 ^ n = key_of f v mod 2 ^ n.
Proof.
  intros N V. unfold key_of. destruct (fd_up f); [|apply Z.mod_mod; lia]. apply Z.bits_inj'. intros b B. destruct (Z.lt_ge_cases b n) as [L|L].
  2: { rewrite !Z.mod_pow2_bits_high by lia. reflexivity. }
  rewrite !Z.mod_pow2_bits_low by lia. unfold upcase at 1. rewrite Z.ldiff_spec, Z.mod_pow2_bits_low by lia. rewrite Z.shiftr_spec, Z.land_spec by lia.
  destruct (Z.lt_ge_cases (b + 1) n) as [L1|L1].
  - rewrite Z.mod_pow2_bits_low by lia. unfold upcase. rewrite !Z.ldiff_spec, !Z.shiftr_spec, !Z.land_spec by lia.
    destruct (Z.testbit v b), (Z.testbit v (b + 1)), (Z.testbit 1077952576 (b + 1)); cbn; try reflexivity; destruct (Z.testbit v (b + 1 + 1)), (Z.testbit 1077952576 (b + 1 + 1)) eqn:X; cbn; try reflexivity.
  - rewrite Z.mod_pow2_bits_high by lia. cbn [andb]. rewrite andb_true_r. reflexivity.
Qed.

(** * Put, then read the keys *)
Lemma xdfprm_gen s p i f k r e : wf s -> s_fs s p = Opened i -> w_file (s_w s) i = Some f -> ent f k r = Some e ->
  xdfprm (s_w s) (rec_handle i k r) = bind (kp_read (f_kp f) (f_hdr f) e) (fun ks => Some (Go (e_addr e, e_lng e, e_idtyp e, ks))).
Proof.
  intros W P F E. pose proof (fo_inv _ (wf_fok _ W i f F)) as FI. pose proof FI as [G I]. destruct (rec_handle_ent _ _ _ _ _ _ _ W P F E) as (H1 & H2 & H3 & _).
  destruct (ent_inv _ _ _ _ E) as (pg & K & R & EP). unfold xdfprm. rewrite H1, F, H2, H3. rewrite (locate_own _ _ _ _ _ G).
  rewrite (proj2 (Nat.ltb_lt _ _)) by (apply nth_error_Some; congruence). rewrite (entry_of_own _ _ _ _ _ _ F K), (proj2 (Z.ltb_ge _ _)) by lia. rewrite EP. reflexivity.
Qed.

Lemma skipn2_upd (l : list Z) i v : (i < 2)%nat -> skipn 2 (upd l i v) = skipn 2 l.
Proof. intros I. destruct i as [|[|i]]; [| |lia]; destruct l as [|x [|y l]]; reflexivity. Qed.

(** Field [f] of the key words after the two words of a record header. *)
Definition key_in (data : list Z) (f : field) : Z := get_field f (nth (2 + fd_w f) data 0).

Lemma gen_keyed fk e0 e data addr nwords fs n : as_generic (f_kp fk) fs -> prim_fields (f_hdr fk) = fs -> key_layout fs n -> length e0 = (2 + n)%nat ->
  keyed fk e0 e data addr nwords ->
  length e = (2 + n)%nat /\ nth 0 e 0 = mk_hd (w_idtyp (nth 0 data 0)) (nwords / 2) /\ (length fs <= MAX_PRIMARY_LNG)%nat /\
  forall f, In f fs -> key_in data f <> 2 ^ 32 - 1 -> key_in e f = key_of f (key_in data f).
Proof.
  intros KP PF (LF & LA & LW) L0 (ks & em & KR & KW & EE). rewrite (proj2 (KP _ PF)) in KR. rewrite (proj1 (KP _ PF)) in KW.
  destruct em as [d m]. destruct (gen_write_inv _ _ _ _ _ _ _ KW) as (_ & _ & m0 & b & m1 & _ & B & _ & ED & _). rewrite PF in B.
  unfold gen_read in KR. rewrite PF in KR. destruct (Nat.leb_spec (length fs) MAX_PRIMARY_LNG) as [LE|]; [|discriminate].
  apply read_keys_spec in KR. destruct KR as [LK RK]. cbn [fst] in EE.
  assert (SE : skipn 2 e = b). { rewrite EE, !skipn2_upd by lia. rewrite ED, skipn_app, skipn_firstn_comm, firstn_length. replace (2 - Nat.min 2 (length e0))%nat with 0%nat by lia. reflexivity. }
  pose proof (each_key_length _ _ _ _ _ B) as LB. rewrite skipn_length in LB.
  assert (LEe : length e = (2 + n)%nat). { rewrite EE, !upd_length, ED, app_length, firstn_length. lia. }
  split; [exact LEe|]. split. { rewrite EE. rewrite EE, !upd_length in LEe. destruct d as [|x d]; [cbn [length] in LEe; lia|]. destruct d; reflexivity. }
  split; [exact LE|].
  intros f IF NO. apply In_nth_error in IF. destruct IF as (i & I). destruct (RK i f I) as [R1 R2].
  assert (KI : get_field f (nth (fd_w f) (skipn 2 (stamped data addr nwords)) 0) = key_in data f).
  { unfold stamped. rewrite !skipn2_upd by lia. unfold key_in. rewrite nth_skipn_d. reflexivity. }
  rewrite KI in R2.
  pose proof (each_key_get _ _ _ _ B LF LA i f (key_in data f) I) as EG. rewrite nth_error_app1 in EG by (apply nth_error_Some; congruence). specialize (EG R2).
  unfold key_in at 1. rewrite <- nth_skipn_d, SE, EG. unfold after_write. rewrite (proj2 (Z.eqb_neq _ _) NO). apply Z.mod_small.
  rewrite Forall_forall in LF. pose proof (LF f (nth_error_In _ _ I)) as (F1 & F2 & F3). apply key_of_small. unfold key_in, get_field, fd_mask. rewrite land_ones_mod by lia. apply Z.mod_pos_bound. lia.
Qed.

Lemma read_keys_map fs e n : Forall (fun f => (fd_w f < n)%nat) fs -> length e = (2 + n)%nat -> read_keys fs (skipn 2 e) = Some (map (key_in e) fs).
Proof.
  intros LW LE. apply read_keys_spec. split; [apply map_length|]. intros i f I. rewrite Forall_forall in LW. pose proof (LW f (nth_error_In _ _ I)) as W. cbn beta in W. rewrite skipn_length.
  split; [lia|]. rewrite nth_error_map, I. cbn [option_map]. unfold key_in. rewrite nth_skipn_d. reflexivity.
Qed.

Lemma put_prm_gen s junk iun handle buf s1 : wf s -> ok_op s (OpPut junk iun handle buf) -> step (OpPut junk iun handle buf) s = Some (0, s1) ->
  exists p i k r f addr, s_fs s1 p = Opened i /\ w_file (s_w s) i = Some f /\ f_iun f = iun /\
    let fs := prim_fields (f_hdr f) in
    (as_generic (f_kp f) fs -> key_layout fs (nkeys f) -> (forall x, In x fs -> key_in (b_data buf) x <> 2 ^ 32 - 1) ->
     forall l s2 j g, hist (spares p k r) s1 l s2 -> s_fs s2 p = Opened j -> w_file (s_w s2) j = Some g -> as_generic (f_kp g) (prim_fields (f_hdr g)) ->
     xdfprm (s_w s2) (rec_handle j k r) =
       Some (Go (addr, b_nbits buf / 32 / 2, w_idtyp (nth 0 (b_data buf) 0), map (fun x => key_of x (key_in (b_data buf) x)) fs))).
Proof.
  intros W OK ST. pose proof (proj1 (step_spec _ _ _ _ W OK ST)) as W1.
  destruct (put_spec _ _ _ _ _ _ W OK ST) as (p & i & f & k & r & e & P1 & F & IU & SA & _ & _ & _ & fk & e0 & FK1 & FK2 & FK3 & FK4).
  exists p, i, k, r, f, (e_addr e). split; [exact P1|]. split; [exact F|]. split; [exact IU|]. intros fs KP LY NO l s2 j g H P2 G KG.
  assert (P : s_fs s p = Opened i). { cbn [step] in ST. destruct (xdfput _ _ _ _ _) as [[[c w'] b']|]; [|discriminate]. cbn [bind] in ST. injection ST as _ <-. exact P1. }
  pose proof (hist_frame _ _ _ _ _ _ _ W1 H SA) as S2. pose proof (hist_wf _ _ _ _ H W1) as W2.
  rewrite (sabs_open _ _ _ _ P2 G) in S2. unfold abs in S2. destruct (ent g k r) as [e'|] eqn:E; [|discriminate]. destruct (live e'); [|discriminate].
  assert (e' = e) as -> by congruence.
  pose proof (g_plen _ _ (proj1 (fo_inv _ (wf_fok _ W i f F)))) as PL.
  destruct (gen_keyed fk e0 e (b_data buf) (e_addr e) (b_nbits buf / 32) fs (nkeys f)) as (LE & E0 & L32 & KE).
  { rewrite FK1. exact KP. } { pose proof (desc_hkeep _ _ FK2) as DK. unfold desc in DK. unfold fs. congruence. } { exact LY. } { rewrite FK3. unfold nkeys. lia. } { exact FK4. }
  assert (DS : prim_fields (f_hdr g) = fs).
  { assert (D1 : described s1 p (desc (f_hdr f))).
    { unfold described. rewrite P1. assert (WB : writable f).
      { destruct (step_spec _ _ _ _ W OK ST) as [_ EF]. cbn [effect Z.eqb] in EF. destruct EF as (p' & i' & f' & k' & r' & e1 & ws & _ & FX & F' & WB & _).
        destruct (file_index_own _ _ _ FX) as (g0 & G0 & IU0 & _). assert (i' = i) as -> by (apply (wf_iun _ W i' i g0 f G0 F); congruence). congruence. }
      destruct (step_kept _ _ _ _ _ _ _ W OK ST P F WB) as [(_ & f' & F' & HK & WB')|(f' & PS & _)]; [|congruence].
      exists f'. split; [exact F'|]. split; [apply desc_hkeep; exact HK|]. intros PR. exfalso. exact (protected_not _ PR WB'). }
    pose proof (hist_described (spares p k r) p _ s1 l s2 (spares_keeps p k r) W1 H D1) as D2. unfold described in D2. rewrite P2 in D2. destruct D2 as (g' & G' & DG & _).
    assert (g' = g) as -> by congruence. unfold desc in DG. unfold fs. congruence. }
  rewrite (xdfprm_gen _ _ _ _ _ _ _ W2 P2 G E), (proj2 (KG _ eq_refl)). unfold gen_read. rewrite DS, (proj2 (Nat.leb_le _ _) L32).
  rewrite (read_keys_map fs e (nkeys f)) by (assumption || apply LY). cbn [bind].
  pose proof OK as ((_ & B2 & _ & B4) & _). set (t := w_idtyp (nth 0 (b_data buf) 0)) in *. set (n := b_nbits buf / 32) in *.
  assert (E1 : e_lng e = n / 2). { unfold e_lng. rewrite E0, hd_lng. apply Z.mod_small. split; [apply Z.div_pos; lia|]. apply Z.div_lt_upper_bound; lia. }
  assert (E2 : e_idtyp e = t). { unfold e_idtyp. rewrite E0, hd_idtyp. apply Z.mod_small. lia. }
  rewrite E1, E2. do 3 f_equal. apply map_ext_in. intros x X. apply KE; [exact X|]. apply NO, X.
Qed.

(** * c_xdfini, c_xdfupd, c_xdfhdr *)
(** Field [f] of the info keys, which start at word [2 * plen]. *)
Definition info_in (plen : nat) (data : list Z) (f : field) : Z := get_field f (nth (2 * plen + fd_w f) data 0).
(** What writing [keys] makes of the fields [fs] holding [old f]. *)
Definition new_keys (on : bool) (fs : list field) (keys : list Z) (old : field -> Z) : list Z :=
  if on then map (fun fk => after_write (fst fk) (snd fk) (old (fst fk))) (combine fs keys) else map old fs.

Lemma nth_error_combine {A B} (l : list A) (m : list B) i a b : nth_error l i = Some a -> nth_error m i = Some b -> nth_error (combine l m) i = Some (a, b).
Proof. revert m i. induction l; intros [|y m] [|i] H1 H2; try discriminate; cbn in *; [congruence|auto]. Qed.

Lemma each_key_len put fs : forall keys buf buf', each_key put fs keys buf = Some buf' -> (length fs <= length keys)%nat.
Proof.
  induction fs as [|f fs IH]; intros keys buf buf' H; cbn [each_key length] in *; [lia|]. destruct keys as [|k keys]; [discriminate|]. cbn [length].
  destruct (k =? 2 ^ 32 - 1); [apply IH in H; lia|]. destruct (_ <? _)%nat; [|discriminate]. apply IH in H. lia.
Qed.

Lemma map_new_keys fs keys (old new : field -> Z) : (length fs <= length keys)%nat ->
  (forall i f k, nth_error fs i = Some f -> nth_error keys i = Some k -> new f = after_write f k (old f)) -> map new fs = new_keys true fs keys old.
Proof.
  unfold new_keys. revert keys. induction fs as [|f fs IH]; intros keys L H; [reflexivity|]. destruct keys as [|k keys]; [cbn [length] in L; lia|]. cbn [map combine fst snd]. f_equal.
  - apply (H 0%nat f k); reflexivity.
  - apply IH; [cbn [length] in L; lia|]. intros i g x G K. apply (H (S i) g x); assumption.
Qed.

Lemma write_keys_spec f mask d keys nk info ni d2 : as_generic (f_kp f) (prim_fields (f_hdr f)) -> (1 <= f_plen f)%nat ->
  let fs := prim_fields (f_hdr f) in let gs := info_fields (f_hdr f) in
  key_layout fs (nkeys f) -> key_layout gs (2 * f_ilen f) -> (2 * (f_plen f + f_ilen f) <= length d)%nat ->
  write_keys f mask d keys nk info ni = Some d2 ->
  length d2 = length d /\ firstn 2 d2 = firstn 2 d /\
  map (key_in d2) fs = new_keys (0 <? nk) fs keys (key_in d) /\ map (info_in (f_plen f) d2) gs = new_keys (0 <? ni) gs info (info_in (f_plen f) d) /\
  forall j b, 0 <= b < 32 ->
    (forall i x k, 0 < nk -> nth_error fs i = Some x -> nth_error keys i = Some k -> k <> 2 ^ 32 - 1 -> ~ (j = (2 + fd_w x)%nat /\ fd_s x <= b < fd_s x + fd_n x)) ->
    (forall i x k, 0 < ni -> nth_error gs i = Some x -> nth_error info i = Some k -> k <> 2 ^ 32 - 1 -> ~ (j = (2 * f_plen f + fd_w x)%nat /\ fd_s x <= b < fd_s x + fd_n x)) ->
    Z.testbit (nth j d2 0) b = Z.testbit (nth j d 0) b.
Proof.
  intros KP PL fs gs (PF & PA & PW) (IF & IA & IW) LD H. unfold write_keys in H. rewrite (proj1 (KP _ eq_refl)) in H.
  assert (X1 : exists d1, (if 0 <? nk then bind (gen_write (f_hdr f) d keys (map mask (seq 0 MAX_PRIMARY_LNG)) []) (fun r => Some (fst r)) else Some d) = Some d1 /\
    length d1 = length d /\ firstn 2 d1 = firstn 2 d /\ skipn (2 * f_plen f) d1 = skipn (2 * f_plen f) d /\ map (key_in d1) fs = new_keys (0 <? nk) fs keys (key_in d) /\
    (forall j b, 0 <= b < 32 ->
      (forall i x k, 0 < nk -> nth_error fs i = Some x -> nth_error keys i = Some k -> k <> 2 ^ 32 - 1 -> ~ (j = (2 + fd_w x)%nat /\ fd_s x <= b < fd_s x + fd_n x)) ->
      Z.testbit (nth j d1 0) b = Z.testbit (nth j d 0) b)).
  { destruct (Z.ltb_spec 0 nk) as [NK|NK].
    2: { exists d. repeat split; reflexivity. }
    destruct (gen_write _ _ _ _ _) as [[dd mm]|] eqn:GW; [|discriminate]. cbn [bind fst] in *. exists dd. split; [reflexivity|].
    destruct (gen_write_inv _ _ _ _ _ _ _ GW) as (L1 & _ & m0 & b & m1 & _ & B & _ & -> & _). fold fs in B.
    pose proof (each_key_length _ _ _ _ _ B) as LB. rewrite skipn_length in LB.
    assert (L2 : length (firstn 2 d) = 2%nat) by (rewrite firstn_length; lia).
    assert (NB : forall j, nth (2 + j) (firstn 2 d ++ b) 0 = nth j b 0). { intros j. rewrite app_nth2 by lia. rewrite L2. f_equal. lia. }
    assert (WR : forall j, (nkeys f <= j)%nat -> nth j b 0 = nth (2 + j) d 0).
    { intros j J. rewrite <- nth_skipn_d. clear - B PW J. revert B. generalize (skipn 2 d) as d0. revert keys b. revert PW. generalize fs. clear fs. induction fs as [|x fs IH]; intros PW keys b d0 B; cbn [each_key] in B; [congruence|].
      destruct keys as [|k keys]; [discriminate|]. inversion PW as [|? ? W1 W2]; subst. destruct (k =? 2 ^ 32 - 1); [apply (IH W2 _ _ _ B)|]. destruct (_ <? _)%nat; [|discriminate].
      rewrite (IH W2 _ _ _ B), upd_nthd. rewrite (proj2 (Nat.eqb_neq j (fd_w x))) by lia. reflexivity. }
    split; [rewrite app_length; lia|]. split. { rewrite firstn_app, L2, firstn_firstn. cbn [Nat.sub firstn]. rewrite app_nil_r. reflexivity. }
    split. { apply (nth_ext _ _ 0 0); [rewrite !skipn_length, app_length; lia|]. intros j J. rewrite !nth_skipn_d. unfold nkeys in WR. replace (2 * f_plen f + j)%nat with (2 + (2 * (f_plen f - 1) + j))%nat by lia. rewrite NB, WR by lia. reflexivity. }
    split.
    - apply map_new_keys; [apply (each_key_len _ _ _ _ _ B)|]. intros i x k I K. unfold key_in. rewrite NB, <- nth_skipn_d. apply (each_key_get _ _ _ _ B PF PA i x k I K).
    - intros j c C N. destruct j as [|[|j]].
      + rewrite app_nth1 by lia. rewrite nth_firstn_d by lia. reflexivity.
      + rewrite app_nth1 by lia. rewrite nth_firstn_d by lia. reflexivity.
      + change (S (S j)) with (2 + j)%nat in *. rewrite NB, <- nth_skipn_d. apply (each_key_frame _ _ _ _ B PF j c C). intros i x k I K NO [C1 C2]. apply (N i x k NK I K NO). split; [lia|exact C2]. }
  destruct X1 as (d1 & E1 & L1 & F1 & S1 & K1 & B1). rewrite E1 in H. cbn [bind] in H.
  destruct (Z.ltb_spec 0 ni) as [NI|NI].
  2: { assert (d2 = d1) as -> by congruence. repeat split; try assumption.
       - unfold new_keys. apply map_ext_in. intros x X. unfold info_in. rewrite <- !nth_skipn_d, S1. reflexivity.
       - intros j b C N1 N2. apply B1; assumption. }
  destruct (Nat.ltb_spec (length d1) (2 * f_plen f)) as [|LG]; [discriminate|]. unfold info_write in H. fold gs in H.
  destruct (each_key set_field gs info (skipn (2 * f_plen f) d1)) as [iw|] eqn:EI; [|discriminate]. cbn [bind] in H. assert (E2 : d2 = firstn (2 * f_plen f) d1 ++ iw) by congruence. clear H.
  pose proof (each_key_length _ _ _ _ _ EI) as LI. rewrite skipn_length in LI. assert (LF : length (firstn (2 * f_plen f) d1) = (2 * f_plen f)%nat) by (rewrite firstn_length; lia).
  assert (NLO : forall j, (j < 2 * f_plen f)%nat -> nth j d2 0 = nth j d1 0). { intros j J. rewrite E2, app_nth1 by lia. apply nth_firstn_d. exact J. }
  assert (NHI : forall j, nth (2 * f_plen f + j) d2 0 = nth j iw 0). { intros j. rewrite E2, app_nth2 by lia. rewrite LF. f_equal. lia. }
  split; [rewrite E2, app_length; lia|]. split.
  { rewrite <- F1. rewrite E2, firstn_app, LF, firstn_firstn. replace (Nat.min 2 (2 * f_plen f)) with 2%nat by lia. replace (2 - 2 * f_plen f)%nat with 0%nat by lia. cbn [firstn]. apply app_nil_r. }
  split. { rewrite <- K1. apply map_ext_in. intros x X. unfold key_in. rewrite Forall_forall in PW. pose proof (PW x X) as W. cbn beta in W. unfold nkeys in W. rewrite NLO by lia. reflexivity. }
  split.
  - apply map_new_keys; [apply (each_key_len _ _ _ _ _ EI)|]. intros i x k I K. unfold info_in. rewrite NHI. rewrite (each_key_get _ _ _ _ EI IF IA i x k I K). rewrite S1, nth_skipn_d. reflexivity.
  - intros j b C N1 N2. destruct (Nat.lt_ge_cases j (2 * f_plen f)) as [J|J]; [rewrite NLO by exact J; apply B1; assumption|].
    replace j with (2 * f_plen f + (j - 2 * f_plen f))%nat by lia. rewrite NHI. set (t := (j - 2 * f_plen f)%nat).
    rewrite (each_key_frame _ _ _ _ EI IF t b C). { rewrite S1, nth_skipn_d. reflexivity. }
    intros i x k I K NO [C1 C2]. apply (N2 i x k NI I K NO). unfold t in C1. split; [lia|exact C2].
Qed.

Lemma xdfhdr_gen w buf ninfo i f : file_index w (b_iun buf) = Some i -> w_file w i = Some f -> as_generic (f_kp f) (prim_fields (f_hdr f)) -> (1 <= f_plen f)%nat ->
  let fs := prim_fields (f_hdr f) in let gs := info_fields (f_hdr f) in
  key_layout fs (nkeys f) -> key_layout gs (2 * f_ilen f) -> (length fs <= MAX_PRIMARY_LNG)%nat -> (2 * (f_plen f + f_ilen f) <= length (b_data buf))%nat ->
  xdfhdr w buf ninfo = Some (Go (nth 1 (b_data buf) 0, w_lng (nth 0 (b_data buf) 0), w_idtyp (nth 0 (b_data buf) 0), map (key_in (b_data buf)) fs,
                                 if 0 <? ninfo then map (info_in (f_plen f) (b_data buf)) gs else [])).
Proof.
  intros FX F KP PL fs gs (PF & PA & PW) (IF & IA & IW) L32 LD. unfold xdfhdr. rewrite FX, F. cbn [bind]. rewrite (proj2 (Nat.ltb_ge _ _)) by lia. rewrite (proj2 (KP _ eq_refl)). unfold gen_read. fold fs.
  rewrite (proj2 (Nat.leb_le _ _) L32). rewrite (proj2 (read_keys_spec fs _ (map (key_in (b_data buf)) fs))).
  2: { split; [apply map_length|]. intros j x I. rewrite Forall_forall in PW. pose proof (PW x (nth_error_In _ _ I)) as W. cbn beta in W. unfold nkeys in W. rewrite skipn_length. split; [lia|]. rewrite nth_error_map, I. cbn [option_map]. unfold key_in. rewrite nth_skipn_d. reflexivity. }
  cbn [bind]. unfold info_read. fold gs. destruct (0 <? ninfo); [|reflexivity].
  rewrite (proj2 (read_keys_spec gs _ (map (info_in (f_plen f) (b_data buf)) gs))); [reflexivity|].
  split; [apply map_length|]. intros j x I. rewrite Forall_forall in IW. pose proof (IW x (nth_error_In _ _ I)) as W. cbn beta in W. rewrite skipn_length. split; [lia|]. rewrite nth_error_map, I. cbn [option_map]. unfold info_in. rewrite nth_skipn_d. reflexivity.
Qed.
