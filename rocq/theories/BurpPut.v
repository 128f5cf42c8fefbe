(** Reports written to a file and read back. *)
From Coq Require Import ZArith List Lia Bool.
From Verif Require Import BitIO CompactInt SpecPack Fst Bits Handles HandlesFacts WaFile Xdf XdfLib XdfInv XdfDel XdfPut XdfPut2 XdfPut3 XdfPut4 XdfOpen XdfClose XdfClose2 XdfReopen XdfCreate XdfSearch XdfAbs XdfCkpt XdfLoc XdfHist XdfSys XdfSys2 XdfSpec XdfThm XdfEnum XdfSta XdfThm2 XdfThm3 XdfKeys XdfKeysFacts XdfKeysHist FstStd XdfKeysThm XdfBuf XdfBufSpec XdfBufFacts Burp Burp2 BurpKeys BurpFile BurpBuf BurpSpec BurpUse BurpPack BurpInv BurpEdit BurpHead BurpBuilt.
Import ListNotations.
Open Scope Z_scope.
Open Scope opt_scope.

(** ** The buffer after c_xdfput *)
Lemma put_record_buf junk w i rw te wa nw buf c w' b' : put_record junk w i rw te wa nw buf = Some (c, w', b') ->
  exists a, b' = mkbuf (b_nwords buf) (b_nbits buf) (b_didx buf) (b_ridx buf) (b_iun buf) (b_aidx buf) (upd (upd (b_data buf) 1 (w32 a)) 0 (mk_hd (w_idtyp (nth 0 (b_data buf) 0)) (nw / 2))).
Proof.
  unfold put_record. destruct (w_file w i) as [f|]; [|discriminate]. cbn [bind]. destruct (nth_error (b_data buf) 0) as [b0|] eqn:B0; [|discriminate]. cbn [bind]. cbv zeta. rewrite (nth_error_nth _ _ 0 B0).
  destruct (_ || _); [discriminate|]. destruct (f_write _ _ _ _) as [f1|]; [|discriminate]. cbn [bind]. destruct (kp_read _ _ _) as [ks|]; [|discriminate]. cbn [bind]. destruct (Xdf.c_ent _) as [[pp r]|]; [|discriminate]. cbn [bind].
  destruct (get_page _ _) as [p|]; [|discriminate]. cbn [bind]. destruct (nth_error (p_ents p) r) as [e|]; [|discriminate]. cbn [bind]. destruct (kp_write _ _ _ _ _ _) as [em|]; [|discriminate]. cbn [bind].
  destruct (w_file (set_page _ _ _) i) as [f2|]; [|discriminate]. cbn [bind]. intros H. eexists. symmetry. match type of H with Some (_, _, ?x) = _ => assert (x = b') by congruence end. exact H0.
Qed.
Lemma xdfput_buf junk w iun handle buf c w' b' : xdfput junk w iun handle buf = Some (c, w', b') -> b' = buf \/
  exists a, b' = mkbuf (b_nwords buf) (b_nbits buf) (b_didx buf) (b_ridx buf) (b_iun buf) (b_aidx buf) (upd (upd (b_data buf) 1 (w32 a)) 0 (mk_hd (w_idtyp (nth 0 (b_data buf) 0)) (b_nbits buf / 32 / 2))).
Proof.
  unfold xdfput. destruct (file_index w (b_iun buf)) as [ib|]; [|intros H; left; congruence]. destruct (file_index w iun) as [i|]; [|intros H; left; congruence]. destruct (negb _); [intros H; left; congruence|]. cbv zeta.
  destruct (w_file w i) as [f|]; [|discriminate]. cbn [bind]. destruct (_ || _); [intros H; left; congruence|]. destruct (_ && _); [intros H; left; congruence|].
  destruct (if handle =? 0 then _ else _) as [[[c1 f1]|[f1 ip]]|]; [intros H; left; congruence| |discriminate].
  match goal with |- match ?x with Some _ => _ | None => _ end = _ -> _ => destruct x as [[[c2 f2]|f2]|] end; [intros H; left; congruence| |discriminate].
  destruct (if handle =? 0 then _ else _) as [[c3 w3]|]; [|discriminate]. destruct (c3 <? 0); [intros H; left; congruence|]. intros H. right. eapply put_record_buf. exact H.
Qed.

(** ** The number of blocks in word 8 *)
Lemma setbits_range w s n v : 0 <= s -> 0 <= n -> 0 <= w < 2 ^ 32 -> s + n <= 32 -> 0 <= setbits w s n v < 2 ^ 32.
Proof.
  intros S N W L. unfold setbits, putf, getf. rewrite Z.mod_mod by lia. pose proof (Z.mod_pos_bound v (2 ^ n) ltac:(lia)) as MV. pose proof (Z.mod_pos_bound (w / 2 ^ s) (2 ^ n) ltac:(lia)) as MW.
  pose proof (Z.div_mod w (2 ^ s) ltac:(lia)) as D1. pose proof (Z.mod_pos_bound w (2 ^ s) ltac:(lia)) as M1. pose proof (Z.div_mod (w / 2 ^ s) (2 ^ n) ltac:(lia)) as D2.
  assert (0 <= w / 2 ^ s) by (apply Z.div_pos; lia). assert (0 <= w / 2 ^ s / 2 ^ n) by (apply Z.div_pos; lia).
  assert (E32 : 2 ^ 32 = 2 ^ s * 2 ^ n * 2 ^ (32 - s - n)) by (rewrite <- !Z.pow_add_r by lia; f_equal; lia).
  assert (Q : w / 2 ^ s / 2 ^ n < 2 ^ (32 - s - n)). { rewrite Z.div_div by lia. apply Z.div_lt_upper_bound; [nia|]. rewrite <- E32. lia. }
  set (q := w / 2 ^ s / 2 ^ n) in *. set (mw := (w / 2 ^ s) mod 2 ^ n) in *. set (mv := v mod 2 ^ n) in *. set (lo := w mod 2 ^ s) in *. set (A := 2 ^ s) in *. set (B := 2 ^ n) in *. set (C := 2 ^ (32 - s - n)) in *.
  replace (w - mw * A + mv * A) with (A * (B * q + mv) + lo) by nia. split; [nia|]. rewrite E32. assert (B * q + mv <= B * C - 1) by nia. nia.
Qed.
Lemma setbits16 w v : 0 <= w < 2 ^ 32 -> getf (setbits w 16 16 v) 16 16 = v mod 2 ^ 16 /\ setbits w 16 16 v mod 2 ^ 16 = w mod 2 ^ 16.
Proof.
  intros W. unfold setbits, putf, getf. rewrite Z.mod_mod by lia. pose proof (Z.mod_pos_bound v (2 ^ 16) ltac:(lia)) as MV. pose proof (Z.div_mod w (2 ^ 16) ltac:(lia)) as D1. pose proof (Z.mod_pos_bound w (2 ^ 16) ltac:(lia)) as M1.
  assert (Q : 0 <= w / 2 ^ 16 < 2 ^ 16) by (split; [apply Z.div_pos; lia|apply Z.div_lt_upper_bound; lia]). rewrite (Z.mod_small (w / 2 ^ 16)) by exact Q.
  set (lo := w mod 2 ^ 16) in *. set (q := w / 2 ^ 16) in *. set (mv := v mod 2 ^ 16) in *. replace (w - q * 2 ^ 16 + mv * 2 ^ 16) with (lo + mv * 2 ^ 16) by lia. split.
  - rewrite Z.div_add by lia. rewrite (Z.div_small lo) by lia. apply Z.mod_small. lia.
  - rewrite Z.mod_add by lia. apply Z.mod_small. lia.
Qed.

(** The buffer that c_mrfput gives to c_xdfput. *)
Definition counted (r : report) : buffer := set_words (r_b r) (upd (b_data (r_b r)) 8 (setbits (nth 8 (b_data (r_b r)) 0) 16 16 (Z.of_nat (r_nblk r)))).
Definition opposed (handle : Z) : Z := if 0 <? handle then - handle else handle.
Lemma mrfput_eq junk w iun handle r c w' r' : (9 <= length (b_data (r_b r)))%nat -> mrfput junk w iun handle r = Some (c, w', r') ->
  exists b', xdfput junk w iun (opposed handle) (counted r) = Some (c, w', b') /\ r' = with_buf r b'.
Proof.
  intros L H. unfold mrfput in H. destruct (nth_error (b_data (r_b r)) 8) as [w8|] eqn:E8; [|discriminate]. cbn [bind] in H. fold (opposed handle) in H. unfold counted. rewrite (nth_error_nth _ _ 0 E8).
  destruct (xdfput _ _ _ _ _) as [[[c1 w1] b1]|]; [|discriminate]. cbn [bind] in H. exists b1. assert (c1 = c /\ w1 = w' /\ r' = with_buf r b1) as (-> & -> & ->) by (repeat split; congruence). auto.
Qed.
Lemma words_nth l j : words_ok l -> 0 <= nth j l 0 < 2 ^ 32.
Proof. intros W. apply (all_words_nth l j W). Qed.

(** ** Sizes *)
Lemma good_sizes orc K r its : good orc K r its -> 11 <= Z.of_nat (length (b_data (r_b r))) /\ b_nbits (r_b r) / 32 = Z.of_nat (10 + 4 * length its + 2 * units its) /\ b_nbits (r_b r) / 32 < Z.of_nat (length (b_data (r_b r))) /\
  b_nbits (r_b r) mod 64 = 0.
Proof.
  intros [(T & D & NT) LK GW GL GD GR GB GN G9 GS GU GN2]. pose proof (segs_length _ _ _ GL) as LS. pose proof (heads_length _ _ _ GL) as LH.
  assert (LT : (1 <= length T)%nat) by (destruct T; [congruence|cbn; lia]). assert (LD : length (b_data (r_b r)) = (10 + 4 * length its + 2 * units its + length T)%nat) by (rewrite D, !app_length, LK, LH, LS; lia).
  rewrite GB, LD. replace (32 * Z.of_nat (10 + 4 * length its + 2 * units its) / 32) with (Z.of_nat (10 + 4 * length its + 2 * units its)) by (symmetry; rewrite Z.mul_comm; apply Z.div_mul; lia).
  split; [lia|]. split; [reflexivity|]. split; [lia|]. replace (32 * Z.of_nat (10 + 4 * length its + 2 * units its)) with (0 + (5 + 2 * Z.of_nat (length its) + Z.of_nat (units its)) * 64) by lia. rewrite Z.mod_add by lia. reflexivity.
Qed.

(** ** What is given to c_mrfput *)
Lemma put_copy orc K r its junk w iun handle c w' r' : good orc K r its -> mrfput junk w iun handle r = Some (c, w', r') -> copy_of r r' /\ nth 8 (b_data (r_b r')) 0 = nth 8 (b_data (counted r)) 0.
Proof.
  intros G H. pose proof (good_sizes _ _ _ _ G) as (L11 & NB & LT & _). pose proof (gd_words _ _ _ _ G) as GW. pose proof (gd_size _ _ _ _ G) as GS. pose proof (gd_nwords _ _ _ _ G) as GN.
  destruct (mrfput_eq junk w iun handle r c w' r' ltac:(lia) H) as (b' & XP & ->). set (d := b_data (r_b r)) in *. set (v8 := setbits (nth 8 d 0) 16 16 (Z.of_nat (r_nblk r))).
  pose proof (setbits16 (nth 8 d 0) (Z.of_nat (r_nblk r)) (words_nth d 8 GW)) as [_ S8]. fold v8 in S8.
  assert (W1 : words_ok (upd d 8 v8)) by (apply upd_words; [exact GW|apply setbits_range; try lia; apply words_nth; exact GW]).
  assert (N8 : forall j, j <> 8%nat -> nth j (upd d 8 v8) 0 = nth j d 0) by (intros j J; rewrite upd_nthd, (proj2 (Nat.eqb_neq j 8)) by exact J; reflexivity).
  assert (E8 : nth 8 (upd d 8 v8) 0 = v8) by (rewrite upd_nthd, Nat.eqb_refl, (proj2 (Nat.ltb_lt _ _)) by lia; reflexivity).
  destruct (xdfput_buf _ _ _ _ _ _ _ _ XP) as [->|(a & ->)].
  - split; [|reflexivity]. unfold copy_of, with_buf, counted, set_words, set_data. cbn [r_b r_nblk r_buf9 b_nbits b_didx b_ridx b_data b_nwords]. fold d v8. rewrite upd_length. repeat (split; [try reflexivity; try assumption; try lia|]).
    + intros j _ J _. apply N8, J.
    + rewrite E8. exact S8.
    + rewrite N8 by lia. reflexivity.
  - unfold counted, set_words, set_data. cbn [b_data b_nwords b_nbits b_didx b_ridx b_iun b_aidx]. fold d v8. set (d2 := upd (upd (upd d 8 v8) 1 (w32 a)) 0 (mk_hd (w_idtyp (nth 0 (upd d 8 v8) 0)) (b_nbits (r_b r) / 32 / 2))).
    assert (ND : forall j, (2 <= j)%nat -> nth j d2 0 = nth j (upd d 8 v8) 0) by (intros j J; unfold d2; rewrite !upd_nthd, (proj2 (Nat.eqb_neq j 0)), (proj2 (Nat.eqb_neq j 1)) by lia; reflexivity).
    assert (L2 : length d2 = length d) by (unfold d2; rewrite !upd_length; reflexivity).
    assert (W2 : words_ok d2). { unfold d2. apply upd_words; [apply upd_words; [exact W1|apply Z.mod_pos_bound; lia]|]. unfold mk_hd, word_ok. pose proof (Z.mod_pos_bound (w_idtyp (nth 0 (upd d 8 v8) 0)) 256 ltac:(lia)). pose proof (Z.mod_pos_bound (b_nbits (r_b r) / 32 / 2) (2 ^ 24) ltac:(lia)). lia. }
    split; [|unfold with_buf; cbn [r_b b_data]; apply ND; lia]. unfold copy_of, with_buf. cbn [r_b r_nblk r_buf9 b_nbits b_didx b_ridx b_data b_nwords]. fold d. rewrite L2. repeat (split; [try reflexivity; try assumption; try lia|]).
    + intros j J1 J _. rewrite ND by exact J1. apply N8, J.
    + rewrite ND, E8 by lia. exact S8.
    + unfold d2 at 1. rewrite upd_nthd, Nat.eqb_refl, (proj2 (Nat.ltb_lt _ _)) by (rewrite !upd_length; lia). cbn [andb]. rewrite hd_idtyp, N8 by lia. pose proof (words_nth d 0 GW) as R0. unfold w_idtyp.
      apply Z.mod_mod. lia.
Qed.

(** ** Reading a record: the rest of the buffer *)
Lemma rec_fields s p i f k r e ws buf b : wf s -> s_fs s p = Opened i -> w_file (s_w s) i = Some f -> sabs s p k r = Some (Some (e, ws)) -> takes buf (length ws) ->
  xdfget (s_w s) (rec_handle i k r) buf = Some (0, b) -> b_nwords b = b_nwords buf /\ b_didx b = 2 * Z.of_nat (f_plen f + f_ilen f) /\ b_ridx b = 0.
Proof.
  intros W P F X TK H. rewrite (sabs_open _ _ _ _ P F) in X. pose proof (fo_inv _ (wf_fok _ W i f F)) as FI. pose proof FI as [G I]. apply abs_live in X. destruct X as (E & L & D).
  destruct (rec_handle_ent _ _ _ _ _ _ _ W P F E) as (H1 & H2 & H3 & _). destruct (ent_inv _ _ _ _ E) as (pg & PG & R & EP). destruct TK as (T1 & T2 & T3).
  unfold xdfget in H. rewrite H1, F, (locate_own _ _ _ _ _ G), H2 in H. rewrite (proj2 (Nat.ltb_lt _ _)) in H by (apply nth_error_Some; congruence). cbn [fst] in H. rewrite F in H. cbn [bind] in H.
  rewrite H3, (entry_of_own _ _ _ _ _ _ F PG), (proj2 (Z.ltb_ge _ _)) in H by lia. rewrite EP in H. destruct (live_facts e L) as [L1 L2]. rewrite L1, L2 in H. cbv zeta in H.
  rewrite (proj2 (Z.ltb_ge (s32 (b_nwords buf)) 0)) in H by exact T2. cbn [andb] in H. destruct (_ <? _); [discriminate|]. destruct (_ <? _)%nat; [discriminate|]. destruct (waread _ _ _) as [x|]; [|discriminate]. cbn [bind] in H.
  destruct (fst x =? _); [|discriminate]. match type of H with Some (_, ?y) = _ => assert (b = y) as -> by congruence end. repeat split.
Qed.

(** ** Put, then get *)
Lemma put_words_nth buf a j : 2 <= b_nbits buf / 32 -> b_nbits buf / 32 <= Z.of_nat (length (b_data buf)) ->
  length (put_words buf a) = Z.to_nat (b_nbits buf / 32) /\ nth 0 (put_words buf a) 0 = mk_hd (w_idtyp (nth 0 (b_data buf) 0)) (b_nbits buf / 32 / 2) /\
  ((2 <= j)%nat -> Z.of_nat j < b_nbits buf / 32 -> nth j (put_words buf a) 0 = nth j (b_data buf) 0).
Proof.
  intros A B. unfold put_words. cbv zeta. set (n := b_nbits buf / 32) in *. split; [cbn [length]; rewrite skipn_length, firstn_length; lia|]. split; [reflexivity|].
  intros J1 J2. destruct j as [|[|j]]; try lia. cbn [nth]. rewrite XdfKeysThm.nth_skipn_d, nth_firstn_d by lia. reflexivity.
Qed.
Definition put_ok (s : sys) (iun handle : Z) (r : report) : Prop :=
  forall i f, file_index (s_w s) iun = Some i -> w_file (s_w s) i = Some f ->
    XdfPut2.room f (b_nbits (r_b r) / 32) /\ (handle <> 0 -> hidx (s_w s) (Z.abs handle) = i -> real_handle f (Z.abs handle)).

Theorem put_report orc s h r ks i f junk iun handle w' r' : wf s -> report_ok orc h r ks -> file_index (s_w s) iun = Some i -> w_file (s_w s) i = Some f -> burp_file f ->
  Z.of_nat (length ks) < 2 ^ 16 -> put_ok s iun handle r -> mrfput junk (s_w s) iun handle r = Some (0, w', r') ->
  copy_of r r' /\ ok_op s (OpPut junk iun (opposed handle) (counted r)) /\ step (OpPut junk iun (opposed handle) (counted r)) s = Some (0, mksys w' (s_fs s)) /\
  exists p k n, s_fs s p = Opened i /\ (handle = 0 -> sabs s p k n = None) /\
    (forall q j t, (q, j, t) <> (p, k, n) -> (handle <> 0 -> ~ designates s (Z.abs handle) q j t) -> sabs (mksys w' (s_fs s)) q j t = sabs s q j t) /\
    forall l s2 j g, hist (spares p k n) (mksys w' (s_fs s)) l s2 -> s_fs s2 p = Opened j -> w_file (s_w s2) j = Some g -> f_kp g = burp_kp ->
      burp_file g /\
      (In (k, n) (positions (page_sizes g)) /\ live_entry (entry_words g k n) = true /\ forall x, In x burp_fields -> key_in (entry_words g k n) x = key_of x (key_in (b_data (r_b r)) x)) /\
      (exists addr, xdfprm (s_w s2) (rec_handle j k n) = Some (Go (addr, b_nbits (r_b r) / 64, 1, map (fun x => key_of x (key_in (b_data (r_b r)) x)) burp_fields))) /\
      forall r0, receives r0 r -> exists r2, mrfget (s_w s2) (rec_handle j k n) r0 = Some (0, r2) /\ copy_of r r2.
Proof.
  intros W (K & its & G & <- & KH) FX F BF NB PO H. pose proof (good_sizes _ _ _ _ G) as (L11 & EB & LT & M64). pose proof (gd_words _ _ _ _ G) as GW. pose proof (gd_size _ _ _ _ G) as GS. pose proof (gd_nwords _ _ _ _ G) as GN. pose proof (gd_units _ _ _ _ G) as GU.
  unfold blks in NB. rewrite map_length in NB. destruct (put_copy _ _ _ _ _ _ _ _ _ _ _ G H) as [CP _]. split; [exact CP|].
  destruct (mrfput_eq junk (s_w s) iun handle r 0 w' r' ltac:(lia) H) as (b' & XP & _). set (d := b_data (r_b r)) in *. set (v8 := setbits (nth 8 d 0) 16 16 (Z.of_nat (r_nblk r))). set (cb := counted r) in *.
  assert (CD : b_data cb = upd d 8 v8) by reflexivity. assert (CN : b_nbits cb = b_nbits (r_b r)) by reflexivity.
  pose proof (setbits16 (nth 8 d 0) (Z.of_nat (r_nblk r)) (words_nth d 8 GW)) as [G8 S8]. fold v8 in G8, S8.
  assert (W1 : words_ok (upd d 8 v8)) by (apply upd_words; [exact GW|apply setbits_range; try lia; apply words_nth; exact GW]).
  assert (N8 : forall j, j <> 8%nat -> nth j (upd d 8 v8) 0 = nth j d 0) by (intros j J; rewrite upd_nthd, (proj2 (Nat.eqb_neq j 8)) by exact J; reflexivity).
  assert (E8 : nth 8 (upd d 8 v8) 0 = v8) by (rewrite upd_nthd, Nat.eqb_refl, (proj2 (Nat.ltb_lt _ _)) by lia; reflexivity).
  destruct KH as (KP & KI & KT). destruct (gd_data _ _ _ _ G) as (T & D & _). fold d in D. pose proof (gd_K _ _ _ _ G) as LK.
  assert (D0 : w_idtyp (nth 0 d 0) = 1) by (rewrite D, app_nth1 by lia; exact KT).
  assert (OK : ok_op s (OpPut junk iun (opposed handle) cb)).
  { cbn [ok_op]. split; [split; [rewrite CD; exact W1|]; rewrite CN, CD, upd_length, N8, D0 by lia; lia|]. intros i0 f0 FX0 F0. destruct (PO i0 f0 FX0 F0) as [RM RH]. rewrite CN. split; [exact RM|].
    unfold opposed. destruct (Z.ltb_spec 0 handle); [rewrite Z.abs_opp; intros Q; apply RH; lia|exact RH]. }
  assert (ST : step (OpPut junk iun (opposed handle) cb) s = Some (0, mksys w' (s_fs s))) by (cbn [step]; rewrite XP; reflexivity).
  split; [exact OK|]. split; [exact ST|]. set (s1 := mksys w' (s_fs s)) in *. pose proof (proj1 (step_spec _ _ _ _ W OK ST)) as W1s.
  destruct (put_spec _ _ _ _ _ _ W OK ST) as (p & i' & f' & k & n & e & P1 & F' & IU & SA & _ & SN & SO & fk & e0 & FK1 & FK2 & FK3 & FK4).
  assert (i' = i) as ->. { destruct (file_index_own _ _ _ FX) as (g0 & G0 & IU0 & _). apply (wf_iun _ W i' i f' g0 F' G0). congruence. }
  assert (f' = f) as -> by congruence. exists p, k, n. split; [exact P1|]. split. { intros ->. apply SN. reflexivity. }
  split. { intros q j t NE ND. apply SO; [exact NE|]. unfold opposed. destruct (Z.ltb_spec 0 handle); [rewrite Z.abs_opp; intros Q; apply ND; lia|exact ND]. }
  intros l s2 j g HI P2 G2 KP2. pose proof (hist_frame _ _ _ _ _ _ _ W1s HI SA) as S2. pose proof (hist_wf _ _ _ _ HI W1s) as W2.
  assert (WB : writable f).
  { destruct (step_spec _ _ _ _ W OK ST) as [_ EF]. cbn [effect Z.eqb] in EF. destruct EF as (p' & i' & f' & k' & r'' & e1 & ws & _ & FX' & F'' & WB & _). congruence. }
  assert (DS : described s1 p (burp_fields, burp_info, 4) /\ sized s1 p (4, 1)).
  { pose proof BF as (_ & PL & IL & PF & IF). pose proof (wf_fok _ W i f F) as FK. pose proof (g_lprm _ _ (proj1 (fo_inv _ FK))) as LP. pose proof (fo_il _ FK) as IL2. pose proof (fo_inv _ FK) as [GG _].
    assert (LA : h_laux (f_hdr f) = 1). { rewrite IL in IL2. assert (0 <= h_laux (f_hdr f)) by (unfold h_laux; apply Z.mod_pos_bound; lia). lia. }
    destruct (step_kept _ _ _ _ _ _ _ W OK ST P1 F WB) as [(_ & f1 & F1 & HK & WB')|(f1 & PS & _)]; [|unfold s1 in *; cbn [s_fs] in *; congruence].
    split; [unfold described|unfold sized]; rewrite P1; exists f1; (split; [exact F1|]); (split; [|intros PR; exfalso; exact (protected_not _ PR WB')]).
    - rewrite (desc_hkeep _ _ HK). unfold desc. rewrite PF, IF, LP, PL. reflexivity.
    - rewrite (sizes_hkeep _ _ HK). unfold sizes. rewrite LP, PL, LA. reflexivity. }
  destruct DS as [DS SZ].
  pose proof (file_of_desc s2 p j g W2 (hist_described _ _ _ _ _ _ (spares_keeps p k n) W1s HI DS) (hist_sized _ _ _ _ _ _ (spares_keeps p k n) W1s HI SZ) P2 G2 KP2) as BG. split; [exact BG|].
  assert (NN : forall x, In x burp_fields -> key_in d x <> 2 ^ 32 - 1 /\ key_in (b_data cb) x = key_in d x).
  { intros x X. pose proof burp_layout as (LF & _ & LW). rewrite Forall_forall in LF, LW. destruct (LF x X) as (A1 & A2 & A3). pose proof (LW x X) as LX. cbn beta in LX. split.
    - unfold key_in, get_field, fd_mask. rewrite land_ones_mod by lia. pose proof (Z.mod_pos_bound (Z.shiftr (nth (2 + fd_w x) d 0) (fd_s x)) (2 ^ fd_n x) ltac:(lia)).
      assert (fd_n x <= 24). { revert X. unfold burp_fields. cbn [In]. intuition (subst x; cbn; lia). } assert (2 ^ fd_n x <= 2 ^ 24) by (apply Z.pow_le_mono_r; lia). lia.
    - unfold key_in. rewrite CD, N8 by lia. reflexivity. }
  assert (SE : ent g k n = Some e /\ live e = true).
  { rewrite (sabs_open _ _ _ _ P2 G2) in S2. unfold abs in S2. destruct (ent g k n) as [e'|] eqn:E; [|discriminate]. destruct (live e') eqn:LV; [|discriminate]. assert (e' = e) as -> by congruence. split; [reflexivity|exact LV]. }
  destruct SE as [E LV]. apply (proj1 (and_assoc _ _ _)). split.
  - 
    pose proof BF as (KPF & PL & IL & PF & IF). pose proof BG as (KPG & PLG & ILG & PFG & IFG).
    destruct (gen_keyed fk e0 e (b_data cb) (e_addr e) (b_nbits cb / 32) burp_fields 6) as (LE & E0 & L32 & KE).
    { rewrite FK1, KPF. rewrite <- PF, <- KPF. apply burp_as_generic. exact BF. } { pose proof (desc_hkeep _ _ FK2) as DK. unfold desc in DK. rewrite <- PF. congruence. } { apply burp_layout. } { rewrite FK3, PL. reflexivity. } { exact FK4. }
    pose proof (fo_inv _ (wf_fok _ W2 j g G2)) as FIG.
    assert (EW : entry_words g k n = e). { apply entry_at_page in E. destruct E as (n0 & pg & _ & PG & _ & Q). unfold entry_words. rewrite PG. apply nth_error_nth. exact Q. }
    assert (KEY : forall x, In x burp_fields -> key_in e x = key_of x (key_in d x)). { intros x X. destruct (NN x X) as [NO KD]. rewrite KE; [rewrite KD; reflexivity|exact X|rewrite KD; exact NO]. }
    split. { rewrite EW. split; [apply positions_ent; [exact FIG|rewrite EW; exact E]|]. split; [exact LV|exact KEY]. }
    exists (e_addr e). rewrite (xdfprm_gen _ _ _ _ _ _ _ W2 P2 G2 E), (proj2 (burp_as_generic _ BG _ eq_refl)). unfold gen_read. rewrite PFG, (proj2 (Nat.leb_le _ _) L32).
    rewrite (read_keys_map burp_fields e 6) by (exact LE || apply burp_layout). cbn [bind]. rewrite CD, CN, N8, D0 in E0 by lia.
    assert (E1 : e_lng e = b_nbits (r_b r) / 64). { pose proof (gd_nbits _ _ _ _ G) as GB. unfold e_lng. rewrite E0, hd_lng. rewrite Z.div_div by lia. change (32 * 2) with 64. apply Z.mod_small. split; [apply Z.div_pos; lia|]. apply Z.div_lt_upper_bound; [lia|]. pose proof (Z.div_mod (b_nbits (r_b r)) 32 ltac:(lia)). pose proof (Z.mod_pos_bound (b_nbits (r_b r)) 32 ltac:(lia)). lia. }
    assert (E2 : e_idtyp e = 1) by (unfold e_idtyp; rewrite E0, hd_idtyp; reflexivity). rewrite E1, E2. do 3 f_equal. apply map_ext_in. exact KEY.
  - intros r0 (RW & RN & RL & RT). destruct (put_words_nth cb (w32 (e_addr e)) 0) as (LP & PH & _); [rewrite CN; lia|rewrite CN, CD, upd_length; fold d in LT; lia|]. rewrite CN in LP. set (ws := put_words cb (w32 (e_addr e))) in *.
    assert (PJ : forall j, (2 <= j)%nat -> Z.of_nat j < b_nbits (r_b r) / 32 -> nth j ws 0 = nth j (upd d 8 v8) 0). { intros t T1 T2. destruct (put_words_nth cb (w32 (e_addr e)) t) as (_ & _ & X); [rewrite CN; lia|rewrite CN, CD, upd_length; fold d in LT; lia|]. fold ws in X. rewrite CD in X. apply X; [exact T1|rewrite CN; exact T2]. }
    assert (S32 : s32 (b_nwords (r_b r0)) = b_nwords (r_b r0)) by (unfold s32; rewrite (proj2 (Z.ltb_lt _ _)) by lia; reflexivity).
    assert (TK : takes (r_b r0) (length ws)) by (unfold takes; rewrite LP, S32; lia).
    destruct (reads_live s2 p j k n e ws W2 P2 S2) as [_ RL2]. destruct (RL2 (r_b r0) TK) as (b & XG & BN & BD). destruct (rec_fields s2 p j g k n e ws (r_b r0) b W2 P2 G2 S2 TK XG) as (F1 & F2 & F3).
    unfold mrfget. rewrite XG. cbn [bind]. change (0 <? 0) with false. cbv iota. assert (LB : length (b_data b) = length (b_data (r_b r0))) by (rewrite BD, app_length, skipn_length, LP; lia).
    assert (NW : forall t, (t < length ws)%nat -> nth t (b_data b) 0 = nth t ws 0) by (intros t TT; rewrite BD, app_nth1 by exact TT; reflexivity).
    assert (B8 : nth 8 (b_data b) 0 = v8) by (rewrite NW, PJ by lia; exact E8). destruct (nth_error (b_data b) 8) as [w8|] eqn:Q8; [|apply nth_error_None in Q8; lia]. cbn [bind].
    assert (EW8 : w8 = v8) by (rewrite <- B8; symmetry; apply nth_error_nth; exact Q8). rewrite EW8, G8. pose proof (gd_nblk _ _ _ _ G) as GNB. rewrite GNB, Z.mod_small by lia. rewrite Nat2Z.id. eexists. split; [reflexivity|].
    unfold copy_of. cbn [r_nblk r_buf9 r_b]. rewrite GNB, (gd_buf9 _ _ _ _ G), BN, F1, F2, F3, LB, (gd_didx _ _ _ _ G), (gd_ridx _ _ _ _ G). pose proof BG as (_ & PLG & ILG & _). rewrite PLG, ILG.
    assert (WS : words_ok ws). { unfold ws, put_words. cbv zeta. apply Forall_cons; [|apply Forall_cons; [apply Z.mod_pos_bound; lia|apply all_words_skipn, all_words_firstn; rewrite CD; exact W1]].
      unfold mk_hd. pose proof (Z.mod_pos_bound (w_idtyp (nth 0 (b_data cb) 0)) 256 ltac:(lia)). pose proof (Z.mod_pos_bound (b_nbits cb / 32 / 2) (2 ^ 24) ltac:(lia)). lia. }
    split; [reflexivity|]. split; [unfold NBENTB; lia|]. split; [rewrite LP, EB, Z2Nat.id by lia; rewrite (gd_nbits _ _ _ _ G); reflexivity|]. split; [reflexivity|]. split; [reflexivity|].
    split; [rewrite BD; apply all_words_app; split; [exact WS|apply all_words_skipn; exact RW]|]. split; [lia|]. split; [lia|]. split; [|split].
    + intros t T1 T8 T2. fold d. rewrite NW by lia. rewrite PJ by assumption. apply N8, T8.
    + rewrite B8. exact S8.
    + fold d. rewrite NW by lia. rewrite PH, hd_idtyp, CD, N8, D0 by lia. reflexivity.
Qed.
