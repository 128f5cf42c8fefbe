(** Headers of reports in files: mrfprm and mrfloc. *)
From Coq Require Import ZArith List Lia Bool Btauto.
From Verif Require Import BitIO CompactInt SpecPack Fst Bits Handles HandlesFacts WaFile Xdf XdfLib XdfInv XdfDel XdfPut XdfPut2 XdfPut3 XdfPut4 XdfOpen XdfClose XdfClose2 XdfReopen XdfCreate XdfSearch XdfAbs XdfCkpt XdfLoc XdfHist XdfSys XdfSys2 XdfSpec XdfThm XdfEnum XdfSta XdfThm2 XdfThm3 XdfKeys XdfKeysFacts XdfKeysHist FstStd XdfKeysThm XdfBuf XdfBufSpec XdfBufFacts Burp Burp2 BurpKeys BurpFile BurpBuf BurpSpec BurpUse BurpPack BurpInv BurpEdit BurpHead BurpBuilt BurpPut.
Import ListNotations.
Open Scope Z_scope.
Open Scope opt_scope.

(** Keys written, then written again as a directory entry. *)
Lemma rewritten f k : fits f -> 0 <= k -> key_of f (after_write f k 0) = after_write f k 0.
Proof.
  intros (A & B & C) K. unfold after_write. destruct (Z.eqb_spec k (2 ^ 32 - 1)); [pose proof (key_of_le f 0 ltac:(lia)); lia|].
  pose proof (Z.mod_pos_bound (key_of f k) (2 ^ fd_n f) ltac:(lia)) as MB. rewrite <- (key_of_mod f k (fd_n f)) at 2 by lia. symmetry. apply Z.mod_small. apply key_of_small. exact MB.
Qed.
Lemma rewritten_all fs : Forall fits fs -> forall keys vs, (length fs <= length keys)%nat -> Forall (fun k => 0 <= k) keys -> map vs fs = written fs keys -> map (fun x => key_of x (vs x)) fs = written fs keys.
Proof.
  intros F. induction F as [|f fs FF _ IH]; intros [|k keys] vs L K E; try reflexivity; try (cbn [length] in L; lia). unfold written in *. cbn [combine map fst snd] in *. apply Forall_cons_iff in K. destruct K as [K0 K].
  injection E as E1 E2. rewrite E1, rewritten by assumption. f_equal. apply IH; [cbn [length] in L; lia|exact K|exact E2].
Qed.
Lemma head_keys_length h : length (head_keys h) = 18%nat.
Proof. unfold head_keys. rewrite app_length. fold (nine (rh_stnid h)). rewrite nine_length. reflexivity. Qed.
Lemma head_keys_pos h : head_fits h -> Forall (fun k => 0 <= k) (head_keys h).
Proof.
  intros (C & _). unfold head_keys. fold (nine (rh_stnid h)). apply Forall_app. split; [|cbn [map]; repeat (apply Forall_cons; [apply Z.mod_pos_bound; lia|]); apply Forall_nil].
  pose proof (nine_char _ C) as NC. eapply Forall_impl; [|exact NC]. intros c [X|X]; lia.
Qed.
Lemma keys_seen K h : khead K h -> head_fits h -> map (fun x => key_of x (key_in K x)) burp_fields = written burp_fields (head_keys h).
Proof.
  intros (KP & _) HF. apply rewritten_all; [apply burp_layout|rewrite head_keys_length; cbn; lia|apply head_keys_pos; exact HF|exact KP].
Qed.
Lemma ok_keys orc h r ks : report_ok orc h r ks -> head_fits h -> map (fun x => key_of x (key_in (b_data (r_b r)) x)) burp_fields = written burp_fields (head_keys h).
Proof.
  intros (K & its & G & _ & KH) HF. destruct (gd_data _ _ _ _ G) as (T & D & _). rewrite <- (keys_seen K h KH HF). apply map_ext_in. intros x X. f_equal. rewrite D. apply in_prefix; [|exact (gd_K _ _ _ _ G)].
  pose proof prim_w as PW. rewrite Forall_forall in PW. apply PW, X.
Qed.

(** The values of the keys. *)
Definition values (h : rhead) : list Z :=
  map capital (nine (rh_stnid h)) ++ [rh_flgs h; rh_lati h; rh_long h; date_key (rh_date h); rh_dx h; rh_idtyp h; rh_dy h; rh_temps h / 100; rh_temps h mod 100].
Lemma written_values h : head_fits h -> written burp_fields (head_keys h) = values h.
Proof.
  intros (C & T1 & T2 & F & I & LA & LO & DX & DY & EL & DR & OA & RU & DA). pose proof (nine_char _ C) as NC. pose proof (nine_length (rh_stnid h)) as NL. unfold head_keys, values. fold (nine (rh_stnid h)).
  destruct (nine (rh_stnid h)) as [|c1 [|c2 [|c3 [|c4 [|c5 [|c6 [|c7 [|c8 [|c9 [|]]]]]]]]]] eqn:EN; try discriminate NL.
  repeat match goal with H : Forall char_ok (_ :: _) |- _ => apply Forall_cons_iff in H; destruct H as [? ?] end.
  assert (T0 : rh_temps h <> -1). { intros E. rewrite E in T1. unfold bits_ok in T1. change (-1 / 100) with (-1) in T1. lia. }
  rewrite (proj2 (Z.eqb_neq _ _) T0). cbn [app map]. unfold burp_fields, written. cbn [combine map fst snd].
  rewrite !write_char by assumption. rewrite !(write_plain _ _ _ (rh_flgs h)), !(write_plain _ _ _ (rh_lati h)), !(write_plain _ _ _ (rh_long h)), !(write_plain _ _ _ (date_key (rh_date h))), !(write_plain _ _ _ (rh_dx h)), !(write_plain _ _ _ (rh_idtyp h)), !(write_plain _ _ _ (rh_dy h)), !(write_plain _ _ _ (rh_temps h / 100)), !(write_plain _ _ _ (rh_temps h mod 100)) by (try lia; try assumption; apply key_date_fits; exact DA). reflexivity.
Qed.
Lemma prm_values e h : head_fits h -> prm_head e (fun i => nth i (values h) 0) (firstn 9 (values h)) = seen_keys e h.
Proof.
  intros (C & T1 & T2 & F & I & LA & LO & DX & DY & EL & DR & OA & RU & DA). unfold values, seen_keys, seen, prm_head. pose proof (nine_length (rh_stnid h)) as NL. destruct (nine (rh_stnid h)) as [|c1 [|c2 [|c3 [|c4 [|c5 [|c6 [|c7 [|c8 [|c9 [|]]]]]]]]]] eqn:EN; try discriminate NL.
  cbn [map app nth firstn rh_stnid rh_temps rh_flgs rh_idtyp rh_lati rh_long rh_dx rh_dy rh_date]. rewrite (date_key_seen e _ DA).
  replace (rh_temps h / 100 * 100 + rh_temps h mod 100) with (rh_temps h) by (pose proof (Z.div_mod (rh_temps h) 100 ltac:(lia)); lia). reflexivity.
Qed.

(** Days *)
Lemma key_full d : date_ok d -> date_key (full_date d) = date_key d.
Proof.
  intros [D M]. unfold full_date. destruct (Z.leb_spec d 999999) as [L|L]; [|reflexivity]. assert (D0 : 0 <= d) by lia. pose proof (date_split d D0) as DS. set (mo := (d / 100) mod 100) in *. set (jj := d mod 100) in *. set (a := d / 10000) in *.
  assert (AB : 0 <= a < 100) by (split; [apply Z.div_pos; lia|apply Z.div_lt_upper_bound; lia]). pose proof (Z.mod_pos_bound d 100 ltac:(lia)) as JB. fold jj in JB.
  destruct (date_parts (1900 + a) mo jj) as (P1 & P2 & P3); [lia|lia|lia|]. replace (19000000 + d) with ((1900 + a) * 10000 + mo * 100 + jj) by lia. unfold date_key. rewrite (proj2 (Z.ltb_lt _ _)) by lia. cbv zeta. rewrite P1, P2, P3.
  rewrite (proj2 (Z.ltb_ge 999999 d)) by lia. replace (1900 + a - 1900) with a by lia. rewrite Z.quot_small by lia. replace ((1900 + a) mod 100) with a; [lia|]. replace (1900 + a) with (a + 19 * 100) by lia. rewrite Z.mod_add by lia. symmetry. apply Z.mod_small. lia.
Qed.
Lemma same_day d d' : date_ok d -> date_ok d' -> (date_key d' =? date_key d) = (full_date d =? full_date d').
Proof.
  intros D D'. apply eq_true_iff_eq. rewrite !Z.eqb_eq. split; intros E.
  - pose proof (date_key_seen true d D) as A. pose proof (date_key_seen true d' D') as B. unfold date_seen in A, B. cbn [orb] in A, B. congruence.
  - rewrite <- (key_full d D), <- (key_full d' D'), E. reflexivity.
Qed.

(** Searches *)
Definition agrees (f : field) (k v : Z) : bool := (k =? 2 ^ 32 - 1) || (v =? key_of f k mod 2 ^ fd_n f).
Lemma agrees_write f k v : agrees f k v = (k =? 2 ^ 32 - 1) || (v =? after_write f k 0).
Proof. unfold agrees, after_write. destruct (k =? 2 ^ 32 - 1); reflexivity. Qed.
Lemma agrees_char w s c d : char_ok c -> agrees (mkfield w s 8 true) (if c =? 42 then 2 ^ 32 - 1 else c) (capital d) = (c =? 42) || (capital c =? capital d).
Proof.
  intros C. rewrite agrees_write. destruct (Z.eqb_spec c 42) as [->|N]; [reflexivity|]. rewrite (write_char _ _ _ C). rewrite (proj2 (Z.eqb_neq c (2 ^ 32 - 1))) by (destruct C; lia). cbn [orb]. apply Z.eqb_sym.
Qed.
Lemma agrees_plain w s n v k : 0 < n < 32 -> or_less (bits_ok n) v -> agrees (mkfield w s n false) (w32 v) k = (v =? -1) || (v =? k).
Proof.
  intros N [->|B]; [reflexivity|]. rewrite agrees_write, (write_plain _ _ _ _ N B). destruct (bits_w32 n v N B) as (E1 & E2 & _). rewrite E1, (proj2 (Z.eqb_neq _ _) E2), (proj2 (Z.eqb_neq v (-1))) by (destruct B; lia). apply Z.eqb_sym.
Qed.
Lemma agrees_date w s d d' : or_less date_ok d -> date_ok d' -> agrees (mkfield w s 20 false) (w32 (date_key d)) (date_key d') = (d =? -1) || (full_date d =? full_date d').
Proof.
  intros [->|D] D'; [reflexivity|]. rewrite (agrees_plain w s 20) by (try lia; right; apply key_date_fits; exact D). pose proof (key_date_fits d D) as [KB _]. rewrite <- (same_day d d' D D'). destruct D as [D M].
  rewrite (proj2 (Z.eqb_neq (date_key d) (-1))), (proj2 (Z.eqb_neq d (-1))) by lia. apply Z.eqb_sym.
Qed.
Lemma agrees_hour w s t t' : or_less (fun v => bits_ok 6 (v / 100)) t -> agrees (mkfield w s 6 false) (w32 (if t =? -1 then -1 else t / 100)) (t' / 100) = (t =? -1) || (t / 100 =? t' / 100).
Proof.
  intros [->|B]; [reflexivity|]. assert (t <> -1) by (intros ->; destruct B as [B _]; change (-1 / 100) with (-1) in B; lia). rewrite (proj2 (Z.eqb_neq t (-1))) by assumption.
  rewrite (agrees_plain w s 6) by (try lia; right; exact B). rewrite (proj2 (Z.eqb_neq (t / 100) (-1))) by (destruct B; lia). reflexivity.
Qed.
Lemma agrees_any f k : agrees f (w32 (-1)) k = true.
Proof. reflexivity. Qed.

Lemma search_keys_length stnid idtyp lat lon date temps : length (search_keys stnid idtyp lat lon date temps) = 18%nat.
Proof. unfold search_keys. rewrite app_length, map_length. fold (nine stnid). rewrite nine_length. reflexivity. Qed.
Lemma fits_sought stnid idtyp lat lon date temps h vs : search_fits stnid idtyp lat lon date temps -> head_fits h -> map vs burp_fields = values h ->
  forallb (fun fk => agrees (fst fk) (snd fk) (vs (fst fk))) (combine burp_fields (search_keys stnid idtyp lat lon date temps)) = sought stnid idtyp lat lon date temps h.
Proof.
  intros (SC & S1 & S2 & S3 & S4 & S5) (C & T1 & T2 & F & I & LA & LO & DX & DY & EL & DR & OA & RU & DA) E. unfold search_keys, sought. fold (nine stnid). pose proof (nine_char _ SC) as NC. pose proof (nine_length stnid) as NL. pose proof (nine_length (rh_stnid h)) as ML. unfold values in E.
  destruct (nine stnid) as [|c1 [|c2 [|c3 [|c4 [|c5 [|c6 [|c7 [|c8 [|c9 [|]]]]]]]]]] eqn:EN; try discriminate NL. destruct (nine (rh_stnid h)) as [|d1 [|d2 [|d3 [|d4 [|d5 [|d6 [|d7 [|d8 [|d9 [|]]]]]]]]]] eqn:EM; try discriminate ML.
  repeat match goal with H : Forall char_ok (_ :: _) |- _ => apply Forall_cons_iff in H; destruct H as [? ?] end.
  unfold burp_fields in *. cbn [map app] in E. cbn [map app combine forallb fst snd seq nth].
  assert (J : forall (a b : Z) l m, a :: l = b :: m -> a = b /\ l = m) by (intros; split; congruence).
  repeat match goal with H : _ :: _ = _ :: _ |- _ => apply J in H; destruct H as [-> H] end.
  rewrite !agrees_char, !agrees_any by assumption. rewrite !(agrees_plain _ _ _ lat), !(agrees_plain _ _ _ lon), !(agrees_plain _ _ _ idtyp), agrees_date, agrees_hour by (try lia; assumption).
  rewrite !andb_true_r. cbn [andb]. rewrite <- !andb_assoc. repeat (f_equal; []). btauto.
Qed.

(** mrfloc enumerates the live records whose keys agree *)
Definition live_keys (f : fte) (keys : list Z) (x : nat * nat) : bool :=
  let e := entry_words f (fst x) (snd x) in live_entry e && forallb (fun fk => agrees (fst fk) (snd fk) (key_in e (fst fk))) (combine burp_fields keys).
Lemma mrfloc_finds s p i f junk stnid idtyp lat lon date temps : wf s -> s_fs s p = Opened i -> w_file (s_w s) i = Some f -> burp_file f ->
  let found := map (fun x => rec_handle i (fst x) (snd x)) (filter (live_keys f (search_keys stnid idtyp lat lon date temps)) (positions (page_sizes f))) in
  (exists w, enumerates (fun w h => mrfloc junk w (f_iun f) h stnid idtyp lat lon date temps) (s_w s) 0 found w) /\ NoDup found.
Proof.
  intros W P F BF found. pose proof (fo_inv _ (wf_fok _ W i f F)) as FI. pose proof BF as (KP & PL & IL & PF & IF). set (keys := search_keys stnid idtyp lat lon date temps).
  assert (LY : key_layout (prim_fields (f_hdr f)) (2 * (f_plen f - 1))) by (rewrite PF, PL; apply burp_layout). assert (SP : spans (prim_fields (f_hdr f)) (2 * (f_plen f - 1))) by (rewrite PF, PL; apply burp_spans).
  assert (LK : (length (prim_fields (f_hdr f)) <= length keys)%nat) by (unfold keys; rewrite PF, search_keys_length; cbn; lia). assert (NP : 18 <> 0) by lia.
  destruct (kp_search_spec s p i f junk (fun _ => true) keys 18 None (f_kp f) (gen_match (prim_fields (f_hdr f)) keys) W P F eq_refl NP (fun g GK E => gen_aims junk f keys 18 None FI NP LY SP LK g GK ltac:(rewrite E; apply burp_as_generic; exact BF)) false) as (w & E).
  pose proof (matching_nodup s i f (fun _ => true) (gen_match (prim_fields (f_hdr f)) keys) W F) as ND.
  assert (EQ : kp_matching f i (fun _ => true) (gen_match (prim_fields (f_hdr f)) keys) = found).
  { unfold kp_matching, found. f_equal. apply filter_ext. intros x. rewrite PF, andb_true_r. reflexivity. }
  rewrite EQ in *. cbn [andb] in E. split; [exists w; exact E|exact ND].
Qed.

(** A report put in a file is found by mrfloc exactly when it is sought *)
Lemma handle_inj s p i f k n k' n' : wf s -> s_fs s p = Opened i -> w_file (s_w s) i = Some f -> In (k, n) (positions (page_sizes f)) -> In (k', n') (positions (page_sizes f)) -> rec_handle i k' n' = rec_handle i k n -> (k', n') = (k, n).
Proof.
  intros W P F I I' E. pose proof (fo_inv _ (wf_fok _ W i f F)) as FI. apply positions_ent in I; [|exact FI]. apply positions_ent in I'; [|exact FI].
  destruct (rec_handle_ent _ _ _ _ _ _ _ W P F I) as (_ & A1 & A2 & _). destruct (rec_handle_ent _ _ _ _ _ _ _ W P F I') as (_ & B1 & B2 & _). rewrite E in B1, B2. congruence.
Qed.
Lemma found_sought s p j g k n h stnid idtyp lat lon date temps : wf s -> s_fs s p = Opened j -> w_file (s_w s) j = Some g ->
  In (k, n) (positions (page_sizes g)) -> live_entry (entry_words g k n) = true -> head_fits h -> search_fits stnid idtyp lat lon date temps -> map (key_in (entry_words g k n)) burp_fields = values h ->
  In (rec_handle j k n) (map (fun x => rec_handle j (fst x) (snd x)) (filter (live_keys g (search_keys stnid idtyp lat lon date temps)) (positions (page_sizes g)))) <-> sought stnid idtyp lat lon date temps h = true.
Proof.
  intros W P F IN LV HF SF E. assert (EQ : live_keys g (search_keys stnid idtyp lat lon date temps) (k, n) = sought stnid idtyp lat lon date temps h).
  { unfold live_keys. cbn [fst snd]. rewrite LV. cbn [andb]. apply fits_sought; assumption. }
  rewrite in_map_iff. split.
  - intros ([k' n'] & X1 & X2). apply filter_In in X2. destruct X2 as [X2 X3]. rewrite (handle_inj s p j g k n k' n' W P F IN X2 X1) in X3. congruence.
  - intros S. exists (k, n). split; [reflexivity|]. apply filter_In. split; [exact IN|congruence].
Qed.

(** All that is known of a report put in a file *)
Theorem put_found orc s h r ks i f junk iun handle w' r' : wf s -> report_ok orc h r ks -> file_index (s_w s) iun = Some i -> w_file (s_w s) i = Some f -> burp_file f ->
  Z.of_nat (length ks) < 2 ^ 16 -> put_ok s iun handle r -> mrfput junk (s_w s) iun handle r = Some (0, w', r') ->
  copy_of r r' /\ hist any s [(OpPut junk iun (opposed handle) (counted r), 0)] (mksys w' (s_fs s)) /\
  exists p k n, s_fs s p = Opened i /\ (handle = 0 -> sabs s p k n = None) /\
    (forall q j t, (q, j, t) <> (p, k, n) -> (handle <> 0 -> ~ designates s (Z.abs handle) q j t) -> sabs (mksys w' (s_fs s)) q j t = sabs s q j t) /\
    forall l s2 j g, hist (spares p k n) (mksys w' (s_fs s)) l s2 -> s_fs s2 p = Opened j -> w_file (s_w s2) j = Some g -> f_kp g = burp_kp ->
      burp_file g /\
      (forall r0, receives r0 r -> exists r2, mrfget (s_w s2) (rec_handle j k n) r0 = Some (0, r2) /\ copy_of r r2) /\
      (head_fits h -> forall e, mrfprm e (s_w s2) (rec_handle j k n) = Some (0, Some (seen_keys e h, b_nbits (r_b r) / 32))) /\
      (head_fits h -> forall junk2 stnid idtyp lat lon date temps, search_fits stnid idtyp lat lon date temps ->
         exists found w, enumerates (fun w c => mrfloc junk2 w (f_iun g) c stnid idtyp lat lon date temps) (s_w s2) 0 found w /\ NoDup found /\
           (In (rec_handle j k n) found <-> sought stnid idtyp lat lon date temps h = true)).
Proof.
  intros W OK FX F BF NB PO H. destruct (put_report orc s h r ks i f junk iun handle w' r' W OK FX F BF NB PO H) as (CP & OP & ST & p & k & n & P & SN & SO & L). split; [exact CP|].
  assert (HI : hist any s [(OpPut junk iun (opposed handle) (counted r), 0)] (mksys w' (s_fs s))) by (econstructor; [exact OP|exact Logic.I|exact ST|constructor]). split; [exact HI|].
  exists p, k, n. split; [exact P|]. split; [exact SN|]. split; [exact SO|]. intros l s2 j g HI2 P2 G2 KP2. destruct (L l s2 j g HI2 P2 G2 KP2) as (BG & (IN & LV & KE) & (addr & XP) & GET). split; [exact BG|]. split; [exact GET|].
  assert (W2 : wf s2) by (eapply hist_wf; [exact HI2|eapply hist_wf; [exact HI|exact W]]).
  assert (M64 : b_nbits (r_b r) / 64 * 64 / 32 = b_nbits (r_b r) / 32).
  { destruct OK as (K & its & G & _). destruct (good_sizes _ _ _ _ G) as (_ & _ & _ & M). assert (b_nbits (r_b r) / 64 * 64 = b_nbits (r_b r)) as -> by (pose proof (Z.div_mod (b_nbits (r_b r)) 64 ltac:(lia)); lia). reflexivity. }
  split.
  - intros HF e. unfold mrfprm. rewrite XP. cbn [bind]. rewrite (ok_keys _ _ _ _ OK HF), (written_values h HF). rewrite (prm_values e h HF), M64. reflexivity.
  - intros HF junk2 stnid idtyp lat lon date temps SF. destruct (mrfloc_finds s2 p j g junk2 stnid idtyp lat lon date temps W2 P2 G2 BG) as [[w E] ND]. eexists. exists w. split; [exact E|]. split; [exact ND|].
    apply (found_sought s2 p j g k n h); try assumption. rewrite <- (written_values h HF), <- (ok_keys _ _ _ _ OK HF). apply map_ext_in. exact KE.
Qed.
