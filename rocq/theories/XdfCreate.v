(** c_xdfopn, mode CREATE: the new file satisfies the invariant. *)
From Coq Require Import ZArith List Lia Bool.
From Verif Require Import Bits Handles WaFile Xdf XdfOpen XdfLib XdfInv XdfDel XdfPut XdfPut2 XdfPut3 XdfPut4 XdfClose XdfClose2 XdfReopen.
Import ListNotations.
Open Scope Z_scope.

Lemma std_kp_ok : kp_ok std_kp.
Proof.
  split.
  - intros h dst ks m mk dst' m' H. cbn [std_kp kp_write] in H. unfold std_write in H. cbv zeta in H.
    destruct (Nat.leb_spec (std_nw h) (length ks)); [|discriminate]. destruct (Nat.leb_spec (std_nw h) (length mk)); [|discriminate].
    destruct (Nat.leb_spec (2 + std_nw h) (length dst)); [|discriminate]. destruct (Nat.leb_spec (2 + std_nw h) (length m)); [|discriminate].
    cbn [andb] in H. set (n := std_nw h) in *.
    assert (dst' = firstn 2 dst ++ firstn n ks ++ skipn (2 + n) dst /\ m' = [0; 0] ++ firstn n mk ++ skipn (2 + n) m) as [-> ->] by (split; congruence).
    rewrite !app_length, !firstn_length, !skipn_length. cbn [length]. split; [lia|]. split; [lia|].
    intros D K. apply all_words_app. split; [apply all_words_firstn; exact D|]. apply all_words_app. split; [apply all_words_firstn; exact K|apply all_words_skipn; exact D].
  - intros h src ks H W. cbn [std_kp kp_read] in H. unfold std_read in H. cbv zeta in H. destruct (_ && _); [|discriminate]. 
    assert (ks = firstn (std_nw h) (skipn 2 src)) as -> by congruence. apply all_words_firstn, all_words_skipn. exact W.
Qed.

(** Key lists c_xdfopn is given (at most 100 keys of each kind, entries of at
    most 16 64-bit words). *)
Definition keys_ok (pri aux : list (Z * Z)) : Prop :=
  (length pri <= 100)%nat /\ (length aux <= 100)%nat /\ sum_lcle pri <= 960.

Lemma sum_lcle_nonneg l : 0 <= sum_lcle l.
Proof.
  induction l as [|k l IH]; [cbn; lia|]. cbn [sum_lcle fold_right]. fold (sum_lcle l). unfold kd_lcle. pose proof (Z.mod_pos_bound (snd k / 2 ^ 14) 32 ltac:(lia)). lia.
Qed.
Lemma sum_lcle_le l : sum_lcle l <= 31 * Z.of_nat (length l).
Proof.
  induction l as [|k l IH]; [cbn; lia|]. cbn [sum_lcle fold_right length]. fold (sum_lcle l). unfold kd_lcle. pose proof (Z.mod_pos_bound (snd k / 2 ^ 14) 32 ltac:(lia)). lia.
Qed.

Lemma kd_store_length l : length (flat_map kd_store l) = (2 * length l)%nat.
Proof. induction l; [reflexivity|]. cbn [flat_map length]. rewrite app_length, IHl. cbn [kd_store length]. lia. Qed.
Lemma kd_store_words l : all_words (flat_map kd_store l).
Proof.
  induction l; [constructor|]. cbn [flat_map]. apply all_words_app. split; [|exact IHl]. unfold kd_store. constructor; [apply w32_range|]. constructor; [|constructor].
  pose proof (Z.mod_pos_bound (snd a / 2 ^ 8) (2 ^ 24) ltac:(lia)). unfold word_ok. lia.
Qed.

Definition new_hdr (pri aux : list (Z * Z)) (sign : Z) : list Z :=
  let npri := Z.of_nat (length pri) in let naux := Z.of_nat (length aux) in
  let lng := naux + npri + 8 in
  [mk_hd 0 lng; 0; XDF0; w32 sign; w32 lng; 0; 0; 0; 0; 0;
   npri mod 2 ^ 16 * 2 ^ 16 + ((sum_lcle pri + 63) / 64 + 1) mod 2 ^ 16; naux mod 2 ^ 16 * 2 ^ 16 + ((sum_lcle aux + 63) / 64) mod 2 ^ 16; 0; 0; 0; 0]
   ++ flat_map kd_store pri ++ flat_map kd_store aux.

Lemma create_spec junk iun std kp d pri aux sign : keys_ok pri aux -> kp_ok kp ->
  exists f, xdfopn_create junk iun false std kp d pri aux sign = Some (0, f) /\ finv f /\ writable f /\
    hget (f_hdr f) H_RWFLG = CREATE /\ hget (f_hdr f) 2 = XDF0 /\ hget (f_hdr f) 3 = w32 sign /\
    f_iun f = iun /\ f_ro f = false /\ f_std f = std /\ f_kp f = kp /\ 
    f_plen f = Z.to_nat ((sum_lcle pri + 63) / 64 + 1) /\ f_ilen f = Z.to_nat ((sum_lcle aux + 63) / 64) /\ h_laux (f_hdr f) = Z.of_nat (f_ilen f) /\
    nents (f_pages f) = [0%nat] /\ f_target f = repeat 0 MAX_PRIMARY_LNG /\ f_cmask f = repeat (2 ^ 32 - 1) MAX_PRIMARY_LNG /\ f_smask f = repeat (2 ^ 32 - 1) MAX_PRIMARY_LNG /\
    2 * hget (f_hdr f) H_FSIZ <= 416 + page_wlen (f_plen f).
Proof.
  intros (KP & KA & KS) KPO. pose proof (sum_lcle_nonneg pri) as S0. pose proof (sum_lcle_nonneg aux) as S1. pose proof (sum_lcle_le aux) as S2.
  set (lng := Z.of_nat (length aux) + Z.of_nat (length pri) + 8).
  set (plen := Z.to_nat ((sum_lcle pri + 63) / 64 + 1)). set (ilen := Z.to_nat ((sum_lcle aux + 63) / 64)).
  assert (PLB : 1 <= (sum_lcle pri + 63) / 64 + 1 <= 16).
  { assert (0 <= (sum_lcle pri + 63) / 64) by (apply Z.div_pos; lia). assert ((sum_lcle pri + 63) / 64 < 16) by (apply Z.div_lt_upper_bound; lia). lia. }
  assert (ILB : 0 <= (sum_lcle aux + 63) / 64 <= 100).
  { split; [apply Z.div_pos; lia|]. apply Z.div_le_upper_bound; lia. }
  set (hd := new_hdr pri aux sign).
  assert (LH : length hd = Z.to_nat (2 * lng)).
  { unfold hd, new_hdr. cbv zeta. rewrite !app_length, !kd_store_length. cbn [length]. unfold lng. lia. }
  assert (WH : all_words hd).
  { unfold hd, new_hdr. cbv zeta. apply all_words_app. split; [|apply all_words_app; split; apply kd_store_words].
    unfold all_words. repeat (apply Forall_cons); try apply Forall_nil; try apply w32_range; try apply hd_word; try (unfold word_ok, XDF0; lia).
    - pose proof (Z.mod_pos_bound (Z.of_nat (length pri)) (2 ^ 16) ltac:(lia)). pose proof (Z.mod_pos_bound ((sum_lcle pri + 63) / 64 + 1) (2 ^ 16) ltac:(lia)). unfold word_ok. lia.
    - pose proof (Z.mod_pos_bound (Z.of_nat (length aux)) (2 ^ 16) ltac:(lia)). pose proof (Z.mod_pos_bound ((sum_lcle aux + 63) / 64) (2 ^ 16) ltac:(lia)). unfold word_ok. lia. }
  set (f1 := f_setnxt (f_setdisk (mkfte iun false std kp plen ilen d [] hd [] None (-1) 1 false empty_cursor (repeat 0 MAX_PRIMARY_LNG)
      (repeat (2 ^ 32 - 1) MAX_PRIMARY_LNG) (repeat (2 ^ 32 - 1) MAX_PRIMARY_LNG) false) (write_at d 0 hd) [(1, hd)]) (1 + 2 * lng)).
  assert (C1 : create_new_xdf junk (fresh iun false std kp d) pri aux sign = Some f1).
  { unfold create_new_xdf. cbv zeta. fold lng. change (f_ro (fresh iun false std kp d)) with false. cbv iota.
    rewrite f_write_rw. 2: reflexivity. 2: { cbn. unfold dsize. lia. } cbn [bind]. change (Z.to_nat (1 - 1)) with 0%nat.
    change (([mk_hd 0 lng; _; _; _; _; _; _; _; _; _; _; _; _; _; _; _] ++ flat_map kd_store pri ++ flat_map kd_store aux)) with hd.
    rewrite <- LH, firstn_all. reflexivity. }
  unfold xdfopn_create. rewrite C1. cbn [bind]. unfold add_dir_page. change (f_pages f1) with (@nil page). change (f_nxtadr f1) with (1 + 2 * lng).
  cbn [length]. change (MAX_DIR_PAGES <=? 0)%nat with false. cbv iota zeta. cbn [nth_error Nat.sub].
  assert (AD : (1 + 2 * lng - 1) / 2 + 1 = lng + 1).
  { replace (1 + 2 * lng - 1) with (lng * 2) by lia. rewrite Z.div_mul by lia. reflexivity. }
  rewrite AD. change (f_plen f1) with plen. set (pg := new_page junk plen (lng + 1)).
  assert (DL : length (write_at d 0 hd) = Nat.max (length d) (length hd)) by (rewrite write_at_length by lia; reflexivity).
  rewrite f_write_rw. 2: reflexivity. 2: { change (f_disk f1) with (write_at d 0 hd). unfold dsize. rewrite DL. lia. }
  cbn [bind]. eexists. split; [reflexivity|].
  change (f_disk f1) with (write_at d 0 hd). replace (Z.to_nat (1 + 2 * lng - 1)) with (length hd) by lia.
  change (f_hdr (f_setdisk f1 _ _)) with hd.
  cbn [f_setlink f_setnxt f_sethdr f_setpages f_setdisk f_hdr f_iun f_ro f_std f_kp f_plen f_ilen f_target f_cmask f_smask f_pages f1 app].
  pose proof (new_page_ok junk plen (lng + 1)) as POK. fold pg in POK.
  assert (PA : p_addr pg = lng + 1) by (unfold pg; rewrite new_page_addr; apply w32_id; unfold word_ok; lia).
  assert (PWE : page_wlen plen = 2 * (page_wlen plen / 2) /\ 0 < page_wlen plen < 2 ^ 16).
  { unfold page_wlen. rewrite (Z.mul_comm 2), Z.div_mul by lia. unfold EPP. lia. }
  assert (NXD : (1 + 2 * lng + page_wlen plen - 1) / 2 = lng + page_wlen plen / 2).
  { destruct PWE as [PWE _]. rewrite PWE at 1. replace (1 + 2 * lng + 2 * (page_wlen plen / 2) - 1) with ((lng + page_wlen plen / 2) * 2) by lia. apply Z.div_mul. lia. }
  rewrite NXD, PA.
  assert (H16 : (16 <= length hd)%nat) by lia.
  set (hdF := hset (hset (hadd (hset hd H_FSIZ (lng + page_wlen plen / 2)) H_NBD 1) H_PLST (lng + 1)) H_RWFLG CREATE).
  assert (LF : length hdF = length hd) by (unfold hdF; rewrite !hset_length, hadd_length, hset_length; reflexivity).
  assert (GF : forall k, hget hdF k = if Nat.eqb k H_RWFLG then CREATE else if Nat.eqb k H_PLST then w32 (lng + 1) else if Nat.eqb k H_NBD then 1
                         else if Nat.eqb k H_FSIZ then lng + page_wlen plen / 2 else hget hd k).
  { intros k. unfold hdF. rewrite hget_hset by (rewrite !hset_length, hadd_length, hset_length; unfold H_RWFLG; lia).
    rewrite hget_hset by (rewrite hadd_length, hset_length; unfold H_PLST; lia).
    rewrite hget_hadd by (rewrite hset_length; unfold H_NBD; lia). rewrite !hget_hset by (unfold H_FSIZ; lia).
    destruct (Nat.eqb_spec k H_RWFLG); [reflexivity|]. destruct (Nat.eqb_spec k H_PLST); [reflexivity|]. destruct (Nat.eqb_spec k H_NBD); [reflexivity|].
    destruct (Nat.eqb_spec k H_FSIZ); [|reflexivity]. apply w32_id. unfold word_ok. assert (page_wlen plen / 2 < page_wlen plen) by (apply Z.div_lt; lia).
    assert (0 <= page_wlen plen / 2) by (apply Z.div_pos; lia). lia. }
  assert (HP : hget hdF H_PRM = Z.of_nat (length pri) mod 2 ^ 16 * 2 ^ 16 + ((sum_lcle pri + 63) / 64 + 1) mod 2 ^ 16) by (rewrite GF; reflexivity).
  assert (HA : hget hdF H_AUX = Z.of_nat (length aux) mod 2 ^ 16 * 2 ^ 16 + ((sum_lcle aux + 63) / 64) mod 2 ^ 16) by (rewrite GF; reflexivity).
  assert (HLN : h_lng hdF = lng). { unfold h_lng. rewrite GF. change (w_lng (mk_hd 0 lng) = lng). rewrite hd_lng. apply Z.mod_small. lia. }
  match goal with |- finv ?F /\ _ => set (f := F) end.
  assert (NE : nents (f_pages f) = [0%nat]) by reflexivity.
  assert (FP : f_pages f = [p_setmod pg true]) by reflexivity. assert (FH : f_hdr f = hdF) by reflexivity. assert (FPL : f_plen f = plen) by reflexivity.
  split; [|split; [|split; [|split; [|split]]]].
  - assert (EXT : forall o x, ext [0%nat] f o = Some x -> (o = OHdr /\ x = (0, 2 * lng)) \/ (o = OPage 0 /\ x = (2 * lng, page_wlen plen))).
    { intros o x. destruct o as [|k|k r]; cbn [ext]; rewrite ?FP, ?FH, ?FPL.
      - intros E. left. split; [reflexivity|]. rewrite LF, LH in E. rewrite Z2Nat.id in E by lia. congruence.
      - destruct k; cbn [nth_error option_map]; [|destruct k; discriminate]. change (p_addr (p_setmod pg true)) with (p_addr pg). rewrite PA.
        intros E. right. split; [reflexivity|]. replace (2 * (lng + 1 - 1)) with (2 * lng) in E by lia. congruence.
      - unfold entry_at. destruct k; cbn [nth_error]; [cbn [Nat.ltb Nat.leb]; destruct r; discriminate|destruct k; discriminate]. }
    split.
    + rewrite NE. constructor; rewrite ?FP, ?FH, ?FPL; cbn [f f1 f_setmod f_sethdr f_setlink f_setnxt f_setpages f_setdisk f_kp f_link f_tail f_plen f_hdr f_pages f_nxtadr f_disk f_modified]; try exact KPO; try reflexivity.
      * unfold plen. lia.
      * rewrite LF, HLN, LH. lia.
      * rewrite LF; lia.
      * unfold hdF. do 2 apply hset_words. apply hadd_words, hset_words. exact WH.
      * unfold h_lprm. rewrite HP. rewrite Z.add_comm, Z.mod_add by lia. rewrite Z.mod_mod by lia. rewrite Z.mod_small by lia. unfold plen. lia.
      * cbn [length]. unfold MAX_DIR_PAGES. lia.
      * constructor; [exact POK|constructor].
      * constructor; [unfold EPP; lia|constructor].
      * rewrite GF. cbn [Nat.eqb H_FSIZ H_RWFLG H_PLST H_NBD]. lia.
      * rewrite GF. cbn [Nat.eqb H_FSIZ H_RWFLG H_PLST H_NBD]. unfold dsize. rewrite write_at_length by lia. rewrite (p_words_length _ _ POK). lia.
      * rewrite GF. cbn [Nat.eqb H_FSIZ H_RWFLG H_PLST H_NBD]. lia.
      * intros o s l E. rewrite GF. cbn [Nat.eqb H_FSIZ H_RWFLG H_PLST H_NBD]. destruct (EXT _ _ E) as [[_ X]|[_ X]]; pose proof (f_equal fst X) as X1; pose proof (f_equal snd X) as X2; cbn [fst snd] in X1, X2; lia.
      * intros o o' x x' E E' N. destruct (EXT _ _ E) as [[-> ->]|[-> ->]]; destruct (EXT _ _ E') as [[-> ->]|[-> ->]]; try congruence; unfold apart; cbn [fst snd]; lia.
      * intros k r e. unfold entry_at. destruct k; cbn [nth_error]; [cbn [Nat.ltb Nat.leb]; destruct r; discriminate|destruct k; discriminate].
      * intros p E. cbn [nth_error] in E. injection E as <-. rewrite HLN. exact PA.
      * intros k p q E E'. destruct k; cbn [nth_error] in E'; [discriminate|]. destruct k; discriminate.
      * intros p E. cbn [length Nat.sub nth_error] in E. injection E as <-. reflexivity.
      * constructor.
        -- intros x. rewrite FH, GF. cbn [Nat.eqb H_FSIZ H_RWFLG H_PLST H_NBD]. intros Hx. destruct (Z.lt_ge_cases x (2 * lng)).
           ++ exists OHdr, 0, (2 * lng). split; [|lia]. cbn [ext]. rewrite FH, LF, LH, Z2Nat.id by lia. reflexivity.
           ++ exists (OPage 0), (2 * lng), (page_wlen plen). split; [|lia]. cbn [ext]. rewrite FP, FPL. cbn [nth_error option_map].
              change (p_addr (p_setmod pg true)) with (p_addr pg). rewrite PA. f_equal. f_equal. lia.
        -- rewrite FH, !GF. cbn [Nat.eqb H_FSIZ H_RWFLG H_PLST H_NBD]. split; [|reflexivity]. change (w_idtyp (mk_hd 0 lng) = 0). rewrite hd_idtyp. reflexivity.
        -- rewrite FP, FPL. constructor; [reflexivity|constructor].
        -- intros k r e p. unfold entry_at. destruct k; cbn [nth_error]; [cbn [Nat.ltb Nat.leb]; destruct r; discriminate|destruct k; discriminate].
    + intros k p E _ [M|M]; [|discriminate]. rewrite FP in E. destruct k; cbn [nth_error] in E; [|destruct k; discriminate].
      injection E as <-. discriminate.
  - split; [|reflexivity]. rewrite FH, GF. discriminate.
  - rewrite GF. reflexivity.
  - rewrite GF. reflexivity.
  - rewrite GF. reflexivity.
  - repeat (split; [reflexivity|]). split.
    { unfold h_laux. rewrite FH, HA. rewrite Z.add_comm, Z.mod_add by lia. rewrite Z.mod_mod by lia. rewrite Z.mod_small by lia. unfold ilen. change (f_ilen f) with ilen. unfold ilen. lia. }
    split; [exact NE|]. repeat (split; [reflexivity|]). rewrite FH, FPL, GF. cbn [Nat.eqb H_FSIZ H_RWFLG H_PLST H_NBD]. lia.
Qed.
