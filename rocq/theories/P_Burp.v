(** Meteorological reports: properties C41 to C44.

    [built orc h r ks]: the report [r] was made by mrbini with the header [h],
    or copied, and successful calls to mrbadd, mrbdel, mrbrep and mrbupd gave it
    the blocks [ks] and the header [h]. [shows orc r ks]: mrbprm and mrbxtr give
    the parameters, the element codes and the values of each of [ks].
    [burp_file f]: the keys of the file are laid out as mrfopn does.
    [hist (spares p k n) s l s']: any calls on any files, closing and opening
    included, but those that rewrite or delete this record or make the file
    anew. *)
From Coq Require Import ZArith List Lia Bool.
From Verif Require Import Bits BitIO CompactInt SpecPack Handles WaFile Xdf XdfLib XdfSearch XdfOpen XdfInv XdfPut2 XdfHist XdfSpec XdfAbs XdfSys XdfSys2 XdfThm XdfThm2 XdfThm3 XdfCreate XdfDemo XdfKeys Fst FstStd XdfKeysHist XdfKeysThm XdfBuf Burp Burp2 BurpFile BurpSpec BurpUse BurpInv BurpEdit BurpEdit2 BurpEdit3 BurpHead BurpBuilt BurpLoc BurpPut BurpFind FstDemo.
Import ListNotations.
Open Scope Z_scope.

(** ** C41: blocks *)

(** Whatever was done to make a report, mrbprm and mrbxtr give back its blocks. *)
Theorem c41_shows : forall orc h r ks, built orc h r ks -> shows orc r ks.
Proof. intros orc h r ks B. exact (ok_shows _ _ _ _ (built_ok _ _ _ _ B)). Qed.
Print Assumptions c41_shows.

(** mrbini succeeds; mrbadd, mrbdel and mrbrep succeed when there is room, and
    change the list of blocks as they should. *)
Theorem c41_ini : forall orc w mask iun buf h i f, file_index w iun = Some i -> w_file w i = Some f -> burp_file f -> fresh buf ->
  exists r, mrbini w mask iun buf h = Some (0, r) /\ built orc h r [] /\ length (b_data (r_b r)) = length (b_data buf).
Proof.
  intros orc w mask iun buf h i f FX F BF FR. destruct (ini_good orc w mask iun buf h i f FX F BF FR) as (r & K & E & _ & _ & L). exists r. split; [exact E|]. split; [|exact L]. eapply built_ini; eassumption.
Qed.
Print Assumptions c41_ini.
Theorem c41_add : forall orc h junk r ks nele nval nt bfam bdesc btyp nbit datyp lst tbl k, built orc h r ks -> acceptable nele nval nt btyp nbit datyp lst tbl ->
  new_block nele nval nt bfam bdesc btyp nbit datyp lst tbl = Some k -> (needs (bk_datyp k) (bk_size k) (bk_nbit k) <= length tbl)%nat -> (packed datyp = true -> (bk_size k <= length tbl)%nat) ->
  room r (ks ++ [k]) ->
  exists r', mrbadd orc 1 junk r nele nval nt bfam bdesc btyp nbit datyp lst tbl = Some (0, r', full_codes datyp nele lst ++ skipn nele lst) /\ built orc h r' (ks ++ [k]).
Proof.
  intros orc h junk r ks nele nval nt bfam bdesc btyp nbit datyp lst tbl k B AC NK LN LP RM. destruct (built_ok _ _ _ _ B) as (K & its & G & EQ & KH).
  destruct (add_good orc junk K r its nele nval nt bfam bdesc btyp nbit datyp lst tbl k G AC NK LN LP) as (r' & it & _ & E & _); [rewrite EQ; exact RM|]. exists r'. split; [exact E|]. eapply built_add; eassumption.
Qed.
Print Assumptions c41_add.
Theorem c41_del : forall orc h r ks i k, built orc h r ks -> nth_error ks i = Some k -> bk_datyp k <> 3 ->
  exists r', mrbdel orc 1 r (S i) = Some (0, r') /\ built orc h r' (firstn i ks ++ skipn (S i) ks).
Proof.
  intros orc h r ks i k B E N3. destruct (built_ok _ _ _ _ B) as (K & its & G & EQ & KH). pose proof E as E'. rewrite <- EQ in E'. unfold blks in E'. rewrite nth_error_map in E'. destruct (nth_error its i) as [it|] eqn:EI; [|discriminate]. cbn [option_map] in E'. assert (EK : it_k it = k) by congruence.
  destruct (del_good orc K r its i it G EI ltac:(rewrite EK; exact N3)) as (r' & its' & D & _). exists r'. split; [exact D|]. eapply built_del; eassumption.
Qed.
Print Assumptions c41_del.
Theorem c41_rep : forall orc h r ks i k tbl k', built orc h r ks -> nth_error ks i = Some k -> bk_datyp k <> 3 -> words_ok tbl -> with_vals k tbl = Some k' ->
  (needs (bk_datyp k') (bk_size k) (bk_nbit k') <= length tbl)%nat -> (packed (bk_datyp k) = true -> (bk_size k <= length tbl)%nat) -> room r (firstn i ks ++ k' :: skipn (S i) ks) ->
  exists r', mrbrep orc 1 r (S i) tbl = Some (0, r') /\ built orc h r' (firstn i ks ++ k' :: skipn (S i) ks).
Proof.
  intros orc h r ks i k tbl k' B E N3 WT WV LN LP RM. destruct (built_ok _ _ _ _ B) as (K & its & G & EQ & KH). pose proof E as E'. rewrite <- EQ in E'. unfold blks in E'. rewrite nth_error_map in E'. destruct (nth_error its i) as [it|] eqn:EI; [|discriminate]. cbn [option_map] in E'. assert (EK : it_k it = k) by congruence.
  destruct (rep_good orc K r its i it tbl k' G EI) as (r' & its' & D & _); rewrite ?EK, ?EQ; try assumption. exists r'. split; [exact D|]. eapply built_rep; eassumption.
Qed.
Print Assumptions c41_rep.
(** A block number that is not that of a block is refused, and nothing changes. *)
Theorem c41_number_refused : forall orc h r ks n lst tbl, built orc h r ks -> (n < 1 \/ length ks < n)%nat ->
  mrbxtr orc 1 r n lst tbl = Some (BURP_ERR_BNUM, lst, tbl) /\ mrbdel orc 1 r n = Some (BURP_ERR_BNUM, r) /\ mrbrep orc 1 r n tbl = Some (BURP_ERR_BNUM, r).
Proof.
  intros orc h r ks n lst tbl B N. destruct (c41_shows _ _ _ _ B) as [E _]. unfold mrbxtr, mrbdel, mrbrep. rewrite E.
  assert ((n <? 1)%nat || (length ks <? n)%nat = true) as -> by (apply orb_true_iff; rewrite !Nat.ltb_lt; exact N). auto.
Qed.
Print Assumptions c41_number_refused.

(** mrbloc finds the first block wanted after a given one; so does mrblocx,
    each part of the type being asked for separately. *)
Theorem c41_search : forall orc h r ks bfam bdesc btyp n, built orc h r ks -> (n <= length ks)%nat ->
  (search_ok bfam bdesc -> exists c, mrbloc r bfam bdesc btyp n = Some c /\ first_after (wanted bfam bdesc btyp) ks n c) /\
  (~ search_ok bfam bdesc -> mrbloc r bfam bdesc btyp n = Some BURP_ERR_BDESC).
Proof. intros orc h r ks bfam bdesc btyp n B N. split; [apply (loc_found orc h r ks bfam bdesc btyp n (built_ok _ _ _ _ B) N)|apply loc_refused]. Qed.
Print Assumptions c41_search.
Theorem c41_searchx : forall orc h r ks bfam bdesc bknat bktyp bkstp n, built orc h r ks -> (n <= length ks)%nat -> search_ok bfam bdesc -> part_ok 4 bknat -> part_ok 7 bktyp -> part_ok 4 bkstp ->
  exists c, mrblocx r bfam bdesc bknat bktyp bkstp n = Some c /\ first_after (wantedx bfam bdesc bknat bktyp bkstp) ks n c.
Proof. intros orc h r ks bfam bdesc bknat bktyp bkstp n B. exact (locx_found orc h r ks bfam bdesc bknat bktyp bkstp n (built_ok _ _ _ _ B)). Qed.
Print Assumptions c41_searchx.

(** Element codes F XX YYY: F in two bits, XX in six, YYY in eight; block types:
    4, 7 and 4 bits. Both ways. *)
Theorem c41_codes : (forall ii vi viii, 0 <= ii <= 3 -> 0 <= vi <= 63 -> 0 <= viii <= 255 ->
    mrbcov (ii * 100000 + vi * 1000 + viii) = ii * 2 ^ 14 + vi * 2 ^ 8 + viii /\ mrbdcv (mrbcov (ii * 100000 + vi * 1000 + viii)) = ii * 100000 + vi * 1000 + viii) /\
  (forall c, 0 <= c < 2 ^ 16 -> mrbcov (mrbdcv c) = c) /\
  (forall bknat bktyp bkstp, 0 <= bknat <= 15 -> 0 <= bktyp <= 127 -> 0 <= bkstp <= 15 -> exists t, mrbtyp bknat bktyp bkstp (-1) = (t, (bknat, bktyp, bkstp)) /\
     0 <= t < 2 ^ 15 /\ forall a b c, mrbtyp a b c t = (0, (bknat, bktyp, bkstp))) /\
  (forall a b c t, 0 <= t < 2 ^ 15 -> exists n y s, mrbtyp a b c t = (0, (n, y, s)) /\ mrbtyp n y s (-1) = (t, (n, y, s))).
Proof.
  split; [|split; [|split]].
  - intros ii vi viii A B C. split; [apply cov_dcv; assumption|]. rewrite cov_dcv by assumption. set (c := ii * 2 ^ 14 + vi * 2 ^ 8 + viii). assert (R : 0 <= c < 2 ^ 16) by (unfold c; lia). rewrite (proj1 (dcv_cov c R)).
    assert (E1 : c / 2 ^ 14 = ii) by (symmetry; apply (Z.div_unique _ _ _ (vi * 2 ^ 8 + viii)); unfold c; lia).
    assert (E2 : c / 2 ^ 8 = vi + ii * 64) by (symmetry; apply (Z.div_unique _ _ _ viii); unfold c; lia).
    assert (E3 : c mod 256 = viii) by (symmetry; apply (Z.mod_unique _ _ (vi + ii * 64)); unfold c; lia).
    rewrite E1, E2, E3, Z.mod_add by lia. rewrite Z.mod_small by lia. reflexivity.
  - intros c C. apply dcv_cov. exact C.
  - intros n y s A B C. rewrite typ_make by assumption. exists (n * 2048 + y * 16 + s). split; [reflexivity|]. split; [lia|]. intros a b c.
    destruct (typ_split a b c (n * 2048 + y * 16 + s)) as (n' & y' & s' & E & X1 & X2 & X3 & EQ); [lia|]. rewrite E. assert (n' = n /\ y' = y /\ s' = s) as (-> & -> & ->) by lia. reflexivity.
  - intros a b c t T. destruct (typ_split a b c t T) as (n & y & s & E & X1 & X2 & X3 & ->). exists n, y, s. split; [exact E|]. apply typ_make; assumption.
Qed.
Print Assumptions c41_codes.

(** ** C42: reports in files *)

(** A file made by mrfopn keeps the layout of report files, after any calls but
    making it anew. *)
Theorem c42_files : forall s junk p iun s1 l s2 j g, reach s -> step (burp_create junk p iun) s = Some (0, s1) -> hist (keeps_file p) s1 l s2 ->
  s_fs s2 p = Opened j -> w_file (s_w s2) j = Some g -> f_kp g = burp_kp -> burp_file g.
Proof.
  intros s junk p iun s1 l s2 j g R ST H P G KP. pose proof (reach_wf _ R) as W. destruct (created_burp _ _ _ _ _ W ST) as (D & S & _).
  assert (OK : ok_op s (burp_create junk p iun)) by (split; [apply burp_keys_ok|apply burp_kp_ok]). pose proof (proj1 (step_spec _ _ _ _ W OK ST)) as W1. pose proof (hist_wf _ _ _ _ H W1) as W2.
  apply (file_of_desc s2 p j g W2); try assumption; [eapply hist_described|eapply hist_sized]; try exact H; try exact W1; try assumption; auto.
Qed.
Print Assumptions c42_files.

(** mrfput, then any calls, then mrfget: the same blocks, the same header; and
    no other record is changed. A new record (handle 0) takes a place that was
    free. *)
Theorem c42_put_get : forall orc s h r ks i f junk iun handle w' r', reach s -> built orc h r ks -> file_index (s_w s) iun = Some i -> w_file (s_w s) i = Some f -> burp_file f ->
  Z.of_nat (length ks) < 2 ^ 16 -> put_ok s iun handle r -> mrfput junk (s_w s) iun handle r = Some (0, w', r') ->
  let s1 := mksys w' (s_fs s) in
  reach s1 /\ built orc h r' ks /\
  exists p k n, s_fs s p = Opened i /\ (handle = 0 -> sabs s p k n = None) /\
    (forall q j t, (q, j, t) <> (p, k, n) -> (handle <> 0 -> ~ designates s (Z.abs handle) q j t) -> sabs s1 q j t = sabs s q j t) /\
    forall l s2 j g, hist (spares p k n) s1 l s2 -> s_fs s2 p = Opened j -> w_file (s_w s2) j = Some g -> f_kp g = burp_kp -> forall r0, receives r0 r ->
      exists r2, mrfget (s_w s2) (rec_handle j k n) r0 = Some (0, r2) /\ built orc h r2 ks /\ shows orc r2 ks /\ (head_fits h -> forall e, mrbhdr e r2 = Some (seen e h, length ks)).
Proof.
  intros orc s h r ks i f junk iun handle w' r' R B FX F BF NB PO H s1. destruct (put_found orc s h r ks i f junk iun handle w' r' (reach_wf _ R) (built_ok _ _ _ _ B) FX F BF NB PO H) as (CP & HI & p & k & n & P & SN & SO & L).
  split; [eapply reach_hist; eassumption|]. split; [eapply built_copy; eassumption|]. exists p, k, n. split; [exact P|]. split; [exact SN|]. split; [exact SO|].
  intros l s2 j g H2 P2 G2 KP2 r0 RC. destruct (L l s2 j g H2 P2 G2 KP2) as (_ & GET & _). destruct (GET r0 RC) as (r2 & E & C2). exists r2. split; [exact E|].
  assert (B2 : built orc h r2 ks) by (eapply built_copy; eassumption). split; [exact B2|]. split; [apply (c41_shows _ _ _ _ B2)|]. intros HF e. apply (ok_header orc h r2 ks e (built_ok _ _ _ _ B2) HF).
Qed.
Print Assumptions c42_put_get.

(** ** C43: headers *)

(** mrbhdr gives the header given to mrbini, as changed by mrbupd. *)
Theorem c43_header : forall orc h r ks e, built orc h r ks -> head_fits h -> mrbhdr e r = Some (seen e h, length ks).
Proof. intros orc h r ks e B HF. apply (ok_header orc h r ks e (built_ok _ _ _ _ B) HF). Qed.
Print Assumptions c43_header.
(** mrfprm gives the part of it that is in the keys, and the length in words. *)
Theorem c43_params : forall orc s h r ks i f junk iun handle w' r', reach s -> built orc h r ks -> head_fits h -> file_index (s_w s) iun = Some i -> w_file (s_w s) i = Some f -> burp_file f ->
  Z.of_nat (length ks) < 2 ^ 16 -> put_ok s iun handle r -> mrfput junk (s_w s) iun handle r = Some (0, w', r') ->
  exists p k n, s_fs s p = Opened i /\
    forall l s2 j g, hist (spares p k n) (mksys w' (s_fs s)) l s2 -> s_fs s2 p = Opened j -> w_file (s_w s2) j = Some g -> f_kp g = burp_kp ->
      forall e, mrfprm e (s_w s2) (rec_handle j k n) = Some (0, Some (seen_keys e h, b_nbits (r_b r) / 32)).
Proof.
  intros orc s h r ks i f junk iun handle w' r' R B HF FX F BF NB PO H. destruct (put_found orc s h r ks i f junk iun handle w' r' (reach_wf _ R) (built_ok _ _ _ _ B) FX F BF NB PO H) as (CP & HI & p & k & n & P & SN & SO & L).
  exists p, k, n. split; [exact P|]. intros l s2 j g H2 P2 G2 KP2. destruct (L l s2 j g H2 P2 G2 KP2) as (_ & _ & PR & _). exact (PR HF).
Qed.
Print Assumptions c43_params.

(** ** C44: searches for reports *)

(** Successive calls to mrfloc give the records not deleted whose keys have the
    values searched for, each once, then fail. *)
Theorem c44_scan : forall s p i f junk stnid idtyp lat lon date temps, reach s -> s_fs s p = Opened i -> w_file (s_w s) i = Some f -> burp_file f ->
  let call := fun w h => mrfloc junk w (f_iun f) h stnid idtyp lat lon date temps in
  let found := map (fun x => rec_handle i (fst x) (snd x))
    (filter (fun x => let e := entry_words f (fst x) (snd x) in live_entry e &&
       forallb (fun fk => (snd fk =? 2 ^ 32 - 1) || (key_in e (fst fk) =? key_of (fst fk) (snd fk) mod 2 ^ fd_n (fst fk))) (combine burp_fields (search_keys stnid idtyp lat lon date temps)))
       (positions (page_sizes f))) in
  (exists w, enumerates call (s_w s) 0 found w) /\ (forall l w, enumerates call (s_w s) 0 l w -> l = found) /\ NoDup found.
Proof.
  intros s p i f junk stnid idtyp lat lon date temps R P F BF call found. destruct (mrfloc_finds s p i f junk stnid idtyp lat lon date temps (reach_wf _ R) P F BF) as [(w & E) ND].
  split; [exists w; exact E|]. split; [intros l w2 E2; apply (enum_det _ _ _ _ _ E _ _ E2)|exact ND].
Qed.
Print Assumptions c44_scan.
(** A report put in a file is found exactly when its header is sought. *)
Theorem c44_found : forall orc s h r ks i f junk iun handle w' r', reach s -> built orc h r ks -> head_fits h -> file_index (s_w s) iun = Some i -> w_file (s_w s) i = Some f -> burp_file f ->
  Z.of_nat (length ks) < 2 ^ 16 -> put_ok s iun handle r -> mrfput junk (s_w s) iun handle r = Some (0, w', r') ->
  exists p k n, s_fs s p = Opened i /\
    forall l s2 j g, hist (spares p k n) (mksys w' (s_fs s)) l s2 -> s_fs s2 p = Opened j -> w_file (s_w s2) j = Some g -> f_kp g = burp_kp ->
    forall junk2 stnid idtyp lat lon date temps, search_fits stnid idtyp lat lon date temps ->
      exists found w, enumerates (fun w c => mrfloc junk2 w (f_iun g) c stnid idtyp lat lon date temps) (s_w s2) 0 found w /\ NoDup found /\
        (In (rec_handle j k n) found <-> sought stnid idtyp lat lon date temps h = true).
Proof.
  intros orc s h r ks i f junk iun handle w' r' R B HF FX F BF NB PO H. destruct (put_found orc s h r ks i f junk iun handle w' r' (reach_wf _ R) (built_ok _ _ _ _ B) FX F BF NB PO H) as (CP & HI & p & k & n & P & SN & SO & L).
  exists p, k, n. split; [exact P|]. intros l s2 j g H2 P2 G2 KP2. destruct (L l s2 j g H2 P2 G2 KP2) as (_ & _ & _ & FD). exact (FD HF).
Qed.
Print Assumptions c44_found.

(** ** Concrete cases *)

(** Station "7162a", 2026/11/16 18:30; a buffer of 100 words; a new file. *)
Definition stn : list Z := [55; 49; 54; 50; 97].
Definition demo_head : rhead := mkrhead stn 1830 5 32 13550 10630 10 20 400 0 20261116 0 3.
Definition demo_room : buffer := mkbuf 109 0 0 0 10 0 (repeat 7 100).
Definition no_report : report := mkrep demo_room 0 0.
Notation burp0 := (final [burp_create zeros 0 10]).
Definition made (x : option (Z * report)) : report := match x with Some (_, r) => r | None => no_report end.
Definition added (x : option (Z * report * list Z)) : report := match x with Some (_, r, _) => r | None => no_report end.
Notation rep0 := (made (mrbini (s_w burp0) zeros 10 demo_room demo_head)).
(** A block of 2 x 3 x 1 values of which one is missing, then one of five
    elements with negative values. *)
Definition vals1 : list Z := [100; 2 ^ 32 - 1; 3000; 7; 8; 9].
Definition vals2 : list Z := [2 ^ 32 - 5; 17; 0; 3; 2 ^ 32 - 1].
Notation add1 r := (mrbadd no_orc 1 zeros r 2 3 1 1 0 64 10 2 [2817; 2818; 0] vals1).
Notation add2 r := (mrbadd no_orc 1 zeros r 5 1 1 3 0 100 5 4 [1; 2; 3; 4; 5] vals2).
Notation rep1 := (added (add1 rep0)).
Notation rep2 := (added (add2 rep1)).
Definition blk1 : block := mkblk 2 3 1 1 64 12 2 [2817; 2818] vals1.
Definition blk2 : block := mkblk 5 1 1 3 100 6 4 [1; 2; 3; 4; 5] vals2.

Lemma head_demo : head_fits demo_head.
Proof. unfold head_fits, bits_ok, date_ok, char_ok, demo_head, stn. cbn [rh_stnid rh_temps rh_flgs rh_idtyp rh_lati rh_long rh_dx rh_dy rh_elev rh_drcv rh_date rh_oars rh_run]. repeat split; try lia; try (vm_compute; congruence); repeat (apply Forall_cons || apply Forall_nil); lia. Qed.
Lemma burp0_facts : exists s i f, burp0 = s /\ reach s /\ step (burp_create zeros 0 10) init_sys = Some (0, s) /\ file_index (s_w s) 10 = Some i /\ w_file (s_w s) i = Some f /\ s_fs s 0%nat = Opened i /\ burp_file f /\ hget (f_hdr f) H_FSIZ < 10000.
Proof.
  assert (R0 : reach init_sys) by (exists []; constructor).
  assert (X : match step (burp_create zeros 0 10) init_sys with
              | Some (c, s) => match file_index (s_w s) 10, s_fs s 0%nat with
                | Some i, Opened j => match w_file (s_w s) i with Some f => Some (c, (i =? j)%nat, hget (f_hdr f) H_FSIZ <? 10000) | None => None end
                | _, _ => None end
              | None => None end = Some (0, true, true)) by (vm_compute; reflexivity).
  destruct (step (burp_create zeros 0 10) init_sys) as [[c s]|] eqn:ST; [|discriminate]. destruct (file_index (s_w s) 10) as [i|] eqn:FX; [|discriminate]. destruct (s_fs s 0%nat) as [| |j] eqn:P; try discriminate. destruct (w_file (s_w s) i) as [f|] eqn:F; [|discriminate].
  assert (c = 0 /\ (i =? j)%nat = true /\ (hget (f_hdr f) H_FSIZ <? 10000) = true) as (-> & IJ & SZ) by (repeat split; congruence). apply Nat.eqb_eq in IJ. subst j. exists s, i, f.
  assert (OK : ok_op init_sys (burp_create zeros 0 10)) by (split; [apply burp_keys_ok|apply burp_kp_ok]).
  assert (E : burp0 = s) by (unfold final, run; rewrite ST; reflexivity). split; [exact E|]. split; [eexists; eapply hist_cons; [exact OK|exact Logic.I|exact ST|constructor]|]. split; [reflexivity|]. split; [exact FX|]. split; [exact F|]. split; [exact P|]. split; [|apply Z.ltb_lt; exact SZ].
  destruct (created_burp _ _ _ _ _ (reach_wf _ R0) ST) as (_ & _ & i' & f' & P' & F' & KP). assert (i' = i) as -> by congruence. assert (f' = f) as -> by congruence. eapply c42_files; [exact R0|exact ST|apply hist_nil|exact P|exact F|exact KP].
Qed.
Lemma built_demo : built no_orc demo_head rep0 [] /\ built no_orc demo_head rep1 [blk1] /\ built no_orc demo_head rep2 [blk1; blk2].
Proof.
  destruct burp0_facts as (s & i & f & E & _ & _ & FX & F & _ & BF & _).
  assert (B0 : built no_orc demo_head rep0 []).
  { rewrite E. destruct (c41_ini no_orc (s_w s) zeros 10 demo_room demo_head i f FX F BF) as (r & Q & B & _); [split; [cbn; lia|reflexivity]|]. rewrite Q. exact B. }
  assert (RM : forall r ks, ((10 + 4 * length ks + total_words ks <? length (b_data (r_b r)))%nat && (total_words ks <? 100)%nat) = true -> room r ks).
  { intros r ks Q. apply andb_prop in Q. destruct Q as [Q1 Q2]. apply Nat.ltb_lt in Q1, Q2. split; [exact Q1|lia]. }
  assert (W : forall l, forallb (fun v => (0 <=? v) && (v <? 2 ^ 32)) l = true -> words_ok l).
  { intros l Q. apply Forall_forall. intros v V. rewrite forallb_forall in Q. specialize (Q v V). apply andb_prop in Q. destruct Q as [Q1 Q2]. apply Z.leb_le in Q1. apply Z.ltb_lt in Q2. split; assumption. }
  assert (B1 : built no_orc demo_head rep1 [blk1]).
  { destruct (c41_add no_orc demo_head zeros rep0 [] 2 3 1 1 0 64 10 2 [2817; 2818; 0] vals1 blk1 B0) as (r & Q & B).
    - repeat split; try lia; try (cbn; lia); try (apply W; vm_compute; reflexivity).
      + destruct j as [|[|j]]; cbn [nth]; lia. + destruct j as [|[|j]]; cbn [nth]; lia. + intros j c J C. discriminate C.
    - vm_compute. reflexivity.
    - vm_compute. lia.
    - intros _. vm_compute. lia.
    - apply RM. vm_compute. reflexivity.
    - rewrite Q. exact B. }
  split; [exact B0|]. split; [exact B1|].
  destruct (c41_add no_orc demo_head zeros rep1 [blk1] 5 1 1 3 0 100 5 4 [1; 2; 3; 4; 5] vals2 blk2 B1) as (r & Q & B).
  - repeat split; try lia; try (cbn; lia); try (apply W; vm_compute; reflexivity).
    + destruct j as [|[|[|[|[|j]]]]]; cbn [nth]; lia. + destruct j as [|[|[|[|[|j]]]]]; cbn [nth]; lia. + intros j c J C. discriminate C.
  - vm_compute. reflexivity.
  - vm_compute. lia.
  - intros _. vm_compute. lia.
  - apply RM. vm_compute. reflexivity.
  - rewrite Q. exact B.
Qed.
(** What mrbhdr and mrbxtr give; deletion and replacement (with more bits). *)
Example c41_demo : mrbxtr no_orc 1 rep2 1 (repeat 9 3) (repeat 9 7) = Some (0, [2817; 2818; 9], vals1 ++ [9]) /\
  mrbxtr no_orc 1 (made (mrbdel no_orc 1 rep2 1)) 1 (repeat 9 6) (repeat 9 5) = Some (0, [1; 2; 3; 4; 5; 9], vals2) /\
  mrbxtr no_orc 1 (made (mrbrep no_orc 1 rep2 1 [1; 2; 3; 4; 5; 2 ^ 20])) 1 (repeat 9 3) (repeat 9 6) = Some (0, [2817; 2818; 9], [1; 2; 3; 4; 5; 2 ^ 20]) /\
  mrbxtr no_orc 1 (made (mrbrep no_orc 1 rep2 1 [1; 2; 3; 4; 5; 2 ^ 20])) 2 (repeat 9 6) (repeat 9 5) = Some (0, [1; 2; 3; 4; 5; 9], vals2) /\
  mrbloc rep2 3 0 (-1) 0 = Some 2 /\ mrbloc rep2 (-1) 0 64 0 = Some 1 /\ mrbloc rep2 (-1) 0 64 1 = Some (-1) /\ mrblocx rep2 (-1) 0 (-1) (-1) 4 0 = Some 2.
Proof. repeat split; vm_compute; reflexivity. Qed.
(** The report put in the file: the hypotheses of C42, C43 and C44 are met. *)
Example c42_demo : exists s h r ks i f w' r', reach s /\ built no_orc h r ks /\ length ks = 2%nat /\ head_fits h /\ file_index (s_w s) 10 = Some i /\ w_file (s_w s) i = Some f /\ burp_file f /\
  put_ok s 10 0 r /\ mrfput zeros (s_w s) 10 0 r = Some (0, w', r') /\ receives no_report r.
Proof.
  destruct burp0_facts as (s & i & f & E & R & _ & FX & F & P & BF & SZ). destruct built_demo as (_ & _ & B).
  assert (X : match mrfput zeros (s_w burp0) 10 0 rep2 with Some (c, _, _) => Some (c, b_nbits (r_b rep2)) | None => None end = Some (0, 832)) by (vm_compute; reflexivity).
  set (r := rep2) in *. clearbody r. rewrite E in X. destruct (mrfput zeros (s_w s) 10 0 r) as [[[c w'] r']|] eqn:Q; [|discriminate]. assert (c = 0 /\ b_nbits (r_b r) = 832) as [-> NB] by (split; congruence).
  exists s, demo_head, r, [blk1; blk2], i, f, w', r'. split; [exact R|]. split; [exact B|]. split; [reflexivity|]. split; [apply head_demo|]. split; [exact FX|]. split; [exact F|]. split; [exact BF|].
  split; [|split; [exact Q|]].
  - intros i' f' FX' F'. assert (f' = f) as -> by congruence. split; [|intros N; congruence]. rewrite NB. unfold XdfPut2.room, fsize. destruct BF as (_ & PL & _). rewrite PL. change (832 / 32) with 26. assert (page_wlen 4 < 100000) by (vm_compute; reflexivity). lia.
  - unfold receives. rewrite NB. split; [|cbn; lia]. cbn [r_b no_report demo_room b_data]. apply Forall_forall. intros v V. apply repeat_spec in V. subst v. lia.
Qed.
Notation putw := (match mrfput zeros (s_w burp0) 10 0 rep2 with Some (_, w, _) => w | None => s_w burp0 end).
(** The search of the station "*1**A", type 32, longitude 10630, between 18:00
    and 18:59 finds it; another type does not. *)
Example c44_demo : map (fun x => option_map fst (mrfloc zeros putw 10 (fst x) [42; 49; 42; 42; 65] (snd x) (-1) 10630 20261116 1859)) [(0, 32); (1, 32); (0, 33)] = [Some 1; Some (-12); Some (-12)] /\
  search_fits [42; 49; 42; 42; 65] 32 (-1) 10630 20261116 1859 /\ sought [42; 49; 42; 42; 65] 32 (-1) 10630 20261116 1859 demo_head = true /\
  mrfprm false putw 1 = Some (0, Some (mkrhead [55; 49; 54; 50; 65; 32; 32; 32; 32] 1830 5 32 13550 10630 10 20 0 0 20261116 0 0, 26)).
Proof.
  split; [vm_compute; reflexivity|]. split; [|split; [reflexivity|vm_compute; reflexivity]]. unfold search_fits, or_less, bits_ok, date_ok, char_ok. repeat split; try (right; lia); try (left; reflexivity); try (repeat (apply Forall_cons || apply Forall_nil); lia).
  - right. split; [lia|]. vm_compute. split; congruence.
  - right. vm_compute. split; congruence.
Qed.

(** ** What does not hold *)

(** A refused mrbadd does not leave the report as it was: the header and the
    element list of the block stay in the buffer. *)
Theorem c41_refused_add_refuted : exists h r r' lst', built no_orc h r [] /\ (exists c, c < 0 /\ mrbadd no_orc 1 zeros r 40 1 1 1 0 64 32 2 (repeat 5 40) (repeat 77 40) = Some (c, r', lst')) /\ mrblen r = (320, 1312) /\ mrblen r' = (1088, 544).
Proof.
  destruct burp0_facts as (s & i & f & E & R & _ & FX & F & P & BF & SZ). destruct (c41_ini no_orc (s_w s) zeros 10 (mkbuf 60 0 0 0 10 0 (repeat 7 51)) demo_head i f FX F BF) as (r & Q & B & _); [split; [cbn; lia|reflexivity]|].
  assert (X : match mrbini (s_w burp0) zeros 10 (mkbuf 60 0 0 0 10 0 (repeat 7 51)) demo_head with
              | Some (_, r) => match mrbadd no_orc 1 zeros r 40 1 1 1 0 64 32 2 (repeat 5 40) (repeat 77 40) with Some (c, r', _) => Some (c, mrblen r, mrblen r') | None => None end
              | None => None end = Some (-19, (320, 1312), (1088, 544))) by (vm_compute; reflexivity).
  rewrite E, Q in X. destruct (mrbadd no_orc 1 zeros r 40 1 1 1 0 64 32 2 (repeat 5 40) (repeat 77 40)) as [[[c r'] lst']|] eqn:A; [|discriminate]. exists demo_head, r, r', lst'. split; [exact B|]. split; [exists c; split; [|exact A]|split; congruence]. assert (c = -19) by congruence. lia.
Qed.
Print Assumptions c41_refused_add_refuted.
(** Blocks of characters (data type 3) cannot be replaced; deleting one damages
    the blocks that follow, without an error. *)
Notation chars r := (mrbadd no_orc 1 zeros r 2 1 1 1 0 64 8 3 [2817; 2818; 0] [1094861636; 17]).
Theorem c41_characters_refuted : exists h r ks, built no_orc h r ks /\ nth_error ks 1 = Some blk2 /\ mrbxtr no_orc 1 r 2 (repeat 9 5) (repeat 9 5) = Some (0, bk_codes blk2, vals2) /\
  option_map fst (mrbrep no_orc 1 r 1 [1094861636; 17]) = Some ERR_BAD_DATYP /\
  exists r' c v, mrbdel no_orc 1 r 1 = Some (0, r') /\ mrbxtr no_orc 1 r' 1 (repeat 9 5) (repeat 9 5) = Some (0, c, v) /\ c <> bk_codes blk2 /\ v <> vals2.
Proof.
  destruct built_demo as (B0 & _ & _). set (k3 := mkblk 2 1 1 1 64 8 3 [2817; 2818] [1094861636; 17]).
  assert (RM : forall r ks, ((10 + 4 * length ks + total_words ks <? length (b_data (r_b r)))%nat && (total_words ks <? 100)%nat) = true -> room r ks).
  { intros r ks Q. apply andb_prop in Q. destruct Q as [Q1 Q2]. apply Nat.ltb_lt in Q1, Q2. split; [exact Q1|lia]. }
  assert (W : forall l, forallb (fun v => (0 <=? v) && (v <? 2 ^ 32)) l = true -> words_ok l).
  { intros l Q. apply Forall_forall. intros v V. rewrite forallb_forall in Q. specialize (Q v V). apply andb_prop in Q. destruct Q as [Q1 Q2]. apply Z.leb_le in Q1. apply Z.ltb_lt in Q2. split; assumption. }
  assert (B1 : built no_orc demo_head (added (chars rep0)) [k3]).
  { destruct (c41_add no_orc demo_head zeros rep0 [] 2 1 1 1 0 64 8 3 [2817; 2818; 0] [1094861636; 17] k3 B0) as (r & Q & B).
    - repeat split; try lia; try (cbn; lia); try (apply W; vm_compute; reflexivity).
      + destruct j as [|[|j]]; cbn [nth]; lia. + destruct j as [|[|j]]; cbn [nth]; lia. + intros j c J C. discriminate C.
    - vm_compute. reflexivity.
    - vm_compute. lia.
    - intros Q. discriminate Q.
    - apply RM. vm_compute. reflexivity.
    - rewrite Q. exact B. }
  destruct (c41_add no_orc demo_head zeros (added (chars rep0)) [k3] 5 1 1 3 0 100 5 4 [1; 2; 3; 4; 5] vals2 blk2 B1) as (r & Q & B).
  { repeat split; try lia; try (cbn; lia); try (apply W; vm_compute; reflexivity).
    + destruct j as [|[|[|[|[|j]]]]]; cbn [nth]; lia. + destruct j as [|[|[|[|[|j]]]]]; cbn [nth]; lia. + intros j c J C. discriminate C. }
  { vm_compute. reflexivity. } { vm_compute. lia. } { intros _. vm_compute. lia. } { apply RM. vm_compute. reflexivity. }
  assert (X : match add2 (added (chars rep0)) with
              | Some (_, r, _) => Some (mrbxtr no_orc 1 r 2 (repeat 9 5) (repeat 9 5), option_map fst (mrbrep no_orc 1 r 1 [1094861636; 17]),
                  match mrbdel no_orc 1 r 1 with Some (c, r') => Some (c, mrbxtr no_orc 1 r' 1 (repeat 9 5) (repeat 9 5)) | None => None end)
              | None => None end = Some (Some (0, bk_codes blk2, vals2), Some ERR_BAD_DATYP, Some (0, Some (0, [1; 2; 3; 16706; 17220], [4294967264; 4294967264; 4294967280; 4294967264; 4294967265])))) by (vm_compute; reflexivity).
  rewrite Q in X. exists demo_head, r, ([k3] ++ [blk2]). split; [exact B|]. split; [reflexivity|]. split; [congruence|]. split; [congruence|].
  destruct (mrbdel no_orc 1 r 1) as [[c r']|]; [|discriminate]. assert (E0 : c = 0) by congruence. exists r', [1; 2; 3; 16706; 17220], [4294967264; 4294967264; 4294967280; 4294967264; 4294967265]. split; [rewrite E0; reflexivity|]. split; [congruence|]. split; discriminate.
Qed.
Print Assumptions c41_characters_refuted.
(** Transparent blocks (data type 0) are scanned as integers, and become signed
    ones when a word has its upper bit set. *)
Theorem c41_transparent_refuted : exists h r r' lst', built no_orc h r [] /\ mrbadd no_orc 1 zeros r 2 1 1 1 0 64 8 0 [2817; 2818; 0] [2 ^ 32 - 500; 17] = Some (0, r', lst') /\
  option_map (fun x => (pm_nbit (snd x), pm_datyp (snd x))) (mrbprm no_orc 1 r' 1) = Some (10, 4).
Proof.
  destruct built_demo as (B0 & _ & _). assert (X : match mrbadd no_orc 1 zeros rep0 2 1 1 1 0 64 8 0 [2817; 2818; 0] [2 ^ 32 - 500; 17] with
    | Some (c, r', _) => Some (c, option_map (fun x => (pm_nbit (snd x), pm_datyp (snd x))) (mrbprm no_orc 1 r' 1)) | None => None end = Some (0, Some (10, 4))) by (vm_compute; reflexivity).
  set (r := rep0) in *. clearbody r. destruct (mrbadd no_orc 1 zeros r 2 1 1 1 0 64 8 0 [2817; 2818; 0] [2 ^ 32 - 500; 17]) as [[[c r'] lst']|] eqn:A; [|discriminate]. exists demo_head, r, r', lst'. split; [exact B0|]. split; [|congruence]. assert (E0 : c = 0) by congruence. rewrite A, E0. reflexivity.
Qed.
Print Assumptions c41_transparent_refuted.
(** Element codes with YYY above 255 are confused with others: 001300 and
    001044. *)
Theorem c41_long_code_refuted : mrbcov 1300 = mrbcov 1044 /\ mrbdcv (mrbcov 1300) <> 1300.
Proof. split; [reflexivity|]. vm_compute. discriminate. Qed.
Print Assumptions c41_long_code_refuted.
