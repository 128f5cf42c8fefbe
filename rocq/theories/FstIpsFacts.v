(** Facts on searches with lists of levels. *)
From Coq Require Import ZArith List Lia Bool.
From Verif Require Import Bits BitIO Handles HandlesFacts WaFile Xdf XdfLib XdfInv XdfDel XdfPut XdfPut2 XdfPut3 XdfPut4 XdfKeysThm XdfOpen XdfSearch XdfAbs XdfLoc XdfHist XdfSys XdfSys2 XdfSpec XdfThm XdfEnum XdfThm2 XdfThm3 Fst FstSpec FstFacts FstMatch FstSearch FstThm FstThm2 FstEff FstEffFacts FstIps.
Import ListNotations.
Open Scope Z_scope.
Open Scope opt_scope.

(** ** Comparing codes *)
Lemma land15 x : 0 <= Z.land x 15 <= 15.
Proof. change 15 with (Z.ones 4). rewrite Z.land_ones by lia. pose proof (Z.mod_pos_bound x (2 ^ 4) ltac:(lia)). change (Z.ones 4) with 15. change (2 ^ 4) with 16 in *. lia. Qed.
Lemma code_exp_range c : 0 <= code_exp c <= 15.
Proof. apply land15. Qed.
Lemma code_mant_range c : - 48575 <= code_mant c <= 1000000.
Proof.
  unfold code_mant. change 0xFFFFF with (Z.ones 20). rewrite Z.land_ones by lia. pose proof (Z.mod_pos_bound c (2 ^ 20) ltac:(lia)) as M. change (2 ^ 20) with 1048576 in *.
  destruct (Z.ltb_spec 1000000 (c mod 1048576)); lia.
Qed.
Lemma scale_spec n : forall lo hi m, Z.max 0 (hi - lo) < Z.of_nat n -> Z.abs m * 10 ^ Z.max 0 (hi - lo) < 2 ^ 63 -> scale n lo hi m = Some (m * 10 ^ Z.max 0 (hi - lo)).
Proof.
  induction n as [|n IH]; intros lo hi m N B; [lia|]. cbn [scale]. destruct (Z.ltb_spec lo hi) as [L|L].
  - assert (E : 10 ^ Z.max 0 (hi - lo) = 10 * 10 ^ Z.max 0 (hi - (lo + 1))) by (rewrite <- Z.pow_succ_r by lia; f_equal; lia).
    pose proof (Z.pow_pos_nonneg 10 (Z.max 0 (hi - (lo + 1))) ltac:(lia) ltac:(lia)) as P. assert (Z.abs (m * 10) < 2 ^ 63) by (rewrite E in B; rewrite Z.abs_mul; change (Z.abs 10) with 10; nia).
    rewrite (proj2 (Z.leb_le _ _)), (proj2 (Z.ltb_lt _ _)) by lia. cbn [andb]. rewrite IH; [f_equal; rewrite E; ring|lia|]. rewrite E in B. rewrite Z.abs_mul. change (Z.abs 10) with 10. lia.
  - rewrite Z.max_l by lia. f_equal. cbn. lia.
Qed.

Lemma equal_level c t : 0 <= c -> comparable c t -> exists b, code_equal c t = Some b /\ (b = true <-> same_level c t).
Proof.
  intros C0 CO. unfold code_equal, same_level. destruct (Z.eqb_spec c t) as [E|E]; [exists true; split; [reflexivity|]; split; auto|].
  destruct ((c <? 10) && (nth (Z.to_nat c) ipold_0_9 0 =? t)) eqn:O.
  { apply andb_prop in O as [O1 O2]. apply Z.ltb_lt in O1. apply Z.eqb_eq in O2. exists true. split; [reflexivity|]. split; [|reflexivity]. intros _. right. left. split; [lia|congruence]. }
  assert (NO : ~ (0 <= c < 10 /\ t = nth (Z.to_nat c) ipold_0_9 0)).
  { intros (A & B). rewrite (proj2 (Z.ltb_lt c 10)), (proj2 (Z.eqb_eq _ t)) in O by (congruence || lia). discriminate. }
  destruct ((32767 <? c) && (32767 <? t)) eqn:B; cbn [negb].
  2: { exists false. split; [reflexivity|]. split; [discriminate|]. intros [X|[X|(X & Y & _)]]; [contradiction..|]. rewrite !(proj2 (Z.ltb_lt _ _)) in B by assumption. discriminate. }
  apply andb_prop in B as [B1 B2]. apply Z.ltb_lt in B1. apply Z.ltb_lt in B2.
  destruct (Z.eqb_spec (code_kind c) (code_kind t)) as [K|K]; cbn [negb].
  2: { exists false. split; [reflexivity|]. split; [discriminate|]. intros [X|[X|(_ & _ & X & _)]]; contradiction. }
  destruct (Z.ltb_spec (Z.lxor (code_mant c) (code_mant t)) 0) as [S|S].
  { exists false. split; [reflexivity|]. split; [discriminate|]. intros [X|[X|(_ & _ & _ & X & _)]]; [contradiction..|]. exfalso.
    pose proof (Z.lxor_nonneg (code_mant c) (code_mant t)) as LX. lia. }
  assert (SS : code_mant c < 0 <-> code_mant t < 0) by (pose proof (Z.lxor_nonneg (code_mant c) (code_mant t)); lia).
  pose proof (code_exp_range c) as E1. pose proof (code_exp_range t) as E2. pose proof (code_mant_range c) as M1. pose proof (code_mant_range t) as M2. specialize (CO B1 B2 K).
  unfold code_value, code_step. set (e1 := code_exp c) in *. set (e2 := code_exp t) in *. set (m1 := code_mant c) in *. set (m2 := code_mant t) in *.
  assert (P12 : forall x, x <= 12 -> 0 <= x -> 10 ^ x <= 10 ^ 12) by (intros; apply Z.pow_le_mono_r; lia).
  assert (SC : forall lo hi m, 0 <= lo <= 15 -> 0 <= hi <= 15 -> Z.abs (lo - hi) <= 12 -> -48575 <= m <= 1000000 -> scale 17 lo hi m = Some (m * 10 ^ Z.max 0 (hi - lo))).
  { intros lo hi m L H D M. apply scale_spec; [lia|]. specialize (P12 (Z.max 0 (hi - lo)) ltac:(lia) ltac:(lia)). pose proof (Z.pow_pos_nonneg 10 (Z.max 0 (hi - lo)) ltac:(lia) ltac:(lia)). change (10 ^ 12) with 1000000000000 in P12. change (2 ^ 63) with 9223372036854775808. nia. }
  rewrite (SC e1 e2 m1), (SC e2 e1 m2) by lia. cbn [bind]. eexists. split; [reflexivity|]. rewrite Z.leb_le.
  assert (G : forall a b x y, 0 <= a <= b -> b <= 15 -> (Z.abs (x * 10 ^ (b - a) - y) <= 1 <-> Z.abs (x * 10 ^ (15 - a) - y * 10 ^ (15 - b)) <= Z.min (10 ^ (15 - a)) (10 ^ (15 - b)))).
  { intros a b x y A Bd. assert (E' : 10 ^ (15 - a) = 10 ^ (b - a) * 10 ^ (15 - b)) by (rewrite <- Z.pow_add_r by lia; f_equal; lia).
    pose proof (Z.pow_pos_nonneg 10 (b - a) ltac:(lia) ltac:(lia)) as Q1. pose proof (Z.pow_pos_nonneg 10 (15 - b) ltac:(lia) ltac:(lia)) as Q2. rewrite E'. set (u := 10 ^ (b - a)) in *. set (v := 10 ^ (15 - b)) in *.
    rewrite Z.min_r by nia. replace (x * (u * v) - y * v) with ((x * u - y) * v) by ring. rewrite Z.abs_mul, (Z.abs_eq v) by lia. nia. }
  assert (H : Z.abs (m1 * 10 ^ Z.max 0 (e2 - e1) - m2 * 10 ^ Z.max 0 (e1 - e2)) <= 1 <-> Z.abs (m1 * 10 ^ (15 - e1) - m2 * 10 ^ (15 - e2)) <= Z.min (10 ^ (15 - e1)) (10 ^ (15 - e2))).
  { destruct (Z.le_ge_cases e1 e2) as [L|L].
    - rewrite (Z.max_r 0 (e2 - e1)), (Z.max_l 0 (e1 - e2)) by lia. change (10 ^ 0) with 1. rewrite Z.mul_1_r. apply G; lia.
    - rewrite (Z.max_l 0 (e2 - e1)), (Z.max_r 0 (e1 - e2)) by lia. change (10 ^ 0) with 1. rewrite Z.mul_1_r. rewrite <- (Z.abs_opp (m1 - _)), <- (Z.abs_opp (m1 * _ - _)), Z.min_comm.
      replace (- (m1 - m2 * 10 ^ (e1 - e2))) with (m2 * 10 ^ (e1 - e2) - m1) by ring. replace (- (m1 * 10 ^ (15 - e1) - m2 * 10 ^ (15 - e2))) with (m2 * 10 ^ (15 - e2) - m1 * 10 ^ (15 - e1)) by ring. apply G; lia. }
  rewrite H. split; [intros X; right; right; auto|]. intros [X|[X|(_ & _ & _ & _ & X)]]; [contradiction..|exact X].
Qed.
Lemma list_level t c : 0 <= c -> (forall x, In x t -> comparable c x) -> exists b, equal_loop t c = Some b /\ (b = true <-> exists x, In x t /\ same_level c x).
Proof.
  intros C0. induction t as [|x t IH]; intros CO; cbn [equal_loop].
  - exists false. split; [reflexivity|]. split; [discriminate|]. intros (x & [] & _).
  - destruct (equal_level c x C0 (CO x (or_introl eq_refl))) as (b & -> & B). cbn [bind]. destruct b.
    + exists true. split; [reflexivity|]. split; [intros _; exists x; split; [left; reflexivity|apply B; reflexivity]|reflexivity].
    + destruct IH as (b & -> & B'); [intros y Y; apply CO; right; exact Y|]. exists b. split; [reflexivity|]. rewrite B'. split; [intros (y & Y & S); exists y; split; [right|]; assumption|].
      intros (y & [->|Y] & S); [apply B in S; discriminate|exists y; auto].
Qed.

(** ** Searching on with the keys of the record found *)
Definition ips_call (n : nat) (junk : nat -> Z) (filt : Z -> bool) (iun : Z) (primk msk : list Z) (w : world) (h : Z) : option (Z * world) :=
  if h =? 0 then xdfloc2 n junk filt w iun 0 primk 16 (Some msk)
  else match xdfprm w h with Some (Go (_, _, _, ks)) => xdfloc2 n junk filt w iun (-1) ks 16 (Some msk) | _ => None end.

Lemma masked_step a b p m : Z.land (Z.lxor a p) m = 0 -> Z.land (Z.lxor b a) m = Z.land (Z.lxor b p) m.
Proof.
  intros H. apply Z.bits_inj'. intros n _. assert (X : Z.testbit (Z.land (Z.lxor a p) m) n = false) by (rewrite H; apply Z.bits_0). rewrite !Z.land_spec, !Z.lxor_spec in *.
  destruct (Z.testbit a n), (Z.testbit b n), (Z.testbit p n), (Z.testbit m n); cbn in *; congruence.
Qed.
Lemma keys_eq_step n keys msk e : keys_eq n keys msk e = true -> forall e', keys_eq n (skipn 2 e) msk e' = keys_eq n keys msk e'.
Proof.
  intros H e'. unfold keys_eq in *. rewrite forallb_forall in H. apply forallb_ext_in. intros j J. specialize (H j J). apply Z.eqb_eq in H. f_equal. rewrite nth_skipn_d. apply masked_step. exact H.
Qed.

Lemma ips_enum junk filt iun primk msk n : forall w i f, file_index w iun = Some i -> w_file w i = Some f -> fok f -> f_kp f = std_kp -> w_seq w = false ->
  (1 <= i < MAX_XDF_FILES)%nat -> (nkeys f <= length primk)%nat -> (nkeys f <= length msk)%nat -> all_words msk -> (length (f_pages f) <= n)%nat ->
  exists w', enumerates (ips_call n junk filt iun primk msk) w 0 (matching f i filt primk msk) w'.
Proof.
  intros w i f FX F FK KP SQ IR LP LM WM FUEL. pose proof (fo_inv _ FK) as FI. pose proof FI as [G I]. pose proof (g_np _ _ G) as NPG.
  set (MT := keys_eq (nkeys f) primk msk).
  set (ns := nents (f_pages f)). assert (LN : length ns = length (f_pages f)) by (unfold ns, nents; apply map_length).
  set (H := fun s : nat * nat => live_entry (entry_words f (fst s) (snd s)) && MT (entry_words f (fst s) (snd s)) && filt (rec_handle i (fst s) (snd s))).
  set (Q0 := fun (w : world) (g : fte) => fok g /\ f_kp g = std_kp /\ f_hdr g = f_hdr f /\ f_pages g = f_pages f /\ f_plen g = f_plen f /\ file_index w iun = Some i /\ w_seq w = false).
  set (Q := fun (w : world) (g : fte) => Q0 w g /\ forall k r a b, f_cur g = mkcur (Some (i, k)) (Some ((i, k), S r)) a b -> H (k, r) = true).
  assert (HN : forall k r m, nth_error ns k = Some m -> (r < m)%nat ->
     0 < hnd i (k, r) /\ (forall w, w_seq w = false -> hidx w (hnd i (k, r)) = i) /\ hpage (hnd i (k, r)) = k /\ hrec (hnd i (k, r)) = r).
  { intros k r m N R. pose proof (ent_words f k r m FI N R) as E. destruct (ent_bounds _ _ _ _ FI E).
    change (hnd i (k, r)) with (rec_handle i k r).
    destruct (rec_handle_dec w i k r SQ ltac:(lia) ltac:(lia) ltac:(lia)) as (A & B & C & D). split.
    - unfold rec_handle. unfold MAX_XDF_FILES in IR. rewrite make_rnd_sum by lia. lia.
    - split; [|auto]. intros w0 S0. apply (rec_handle_dec w0 i k r S0); lia. }
  assert (HITS : forall g, f_pages g = f_pages f -> f_plen g = f_plen f -> aims_to f MT g -> forall s, (exists k r, In s (after ns k r)) -> hit filt i g s = H s).
  { intros g PG LG AG [k r] (? & ? & IN). destruct (after_in _ _ _ _ _ IN) as (m & N & R).
    pose proof (ent_words f k r m FI N R) as E. destruct (ent_shape _ _ _ _ FI E) as [LE WE]. rewrite (hit_kp filt i f g MT k r _ FI AG PG LG E LE WE). reflexivity. }
  assert (MS : forall x y, others x y i -> forall fx fy, w_file x i = Some fx -> w_file y i = Some fy -> f_iun fy = f_iun fx -> file_index y iun = file_index x iun).
  { intros x y [_ O] fx fy X Y IU. unfold file_index. apply find_ext. intros j _. destruct (Nat.eq_dec j i) as [->|N]; [rewrite X, Y, IU; reflexivity|]. rewrite O by exact N. reflexivity. }
  unfold matching, kp_matching. rewrite <- slots_positions. change (slots f) with (slots_from 0 ns). rewrite <- after_start. fold MT. fold H.
  change (fun s : nat * nat => rec_handle i (fst s) (snd s)) with (fun s => hnd i s).
  edestruct (enum_ind (ips_call n junk filt iun primk msk) i ns H Q0 Q) as (w' & E & _).
  - intros w0 g h k r F0 K PO.
    assert (QB : Q0 w0 g) by (destruct PO as [[A _]|[[A _] _]]; exact A). pose proof QB as (GK & GP & GHD & GG & GL & GX & GS). pose proof (fo_inv _ GK) as GI.
    assert (NSG : nents (f_pages g) = ns) by (rewrite GG; reflexivity). assert (NK : nkeys g = nkeys f) by (unfold nkeys; rewrite GL; reflexivity).
    assert (GO : exists ks ha, ips_call n junk filt iun primk msk w0 h = xdfloc2 n junk filt w0 iun ha ks 16 (Some msk) /\ starts w0 i g ha k r /\ (nkeys f <= length ks)%nat /\
       forall e', keys_eq (nkeys f) ks msk e' = MT e').
    { destruct PO as [(_ & -> & -> & ->)|([_ HC] & r' & -> & -> & H0 & CU & m & N & R)].
      - exists primk, 0. split; [reflexivity|]. split; [constructor|]. split; [exact LP|reflexivity].
      - pose proof (HC _ _ _ _ CU) as HK. pose proof (ent_words f k r' m FI N R) as E. destruct (ent_shape _ _ _ _ FI E) as [LE WE].
        assert (E1 : ent g k r' = Some (entry_words f k r')) by (unfold ent; rewrite GG; exact E). set (e := entry_words f k r') in *.
        destruct (HN k r' m N R) as (A & B & C & D). destruct (ent_located _ _ _ _ _ _ F0 GI E1) as [LC EO].
        exists (skipn 2 e), (-1). split; [|split; [apply start_next; [rewrite GG, <- LN; exact K|exact CU]|split]].
        + unfold ips_call. rewrite (proj2 (Z.eqb_neq _ 0)) by lia. unfold xdfprm. rewrite (B w0 GS), F0, C, LC, D, EO. rewrite GP. cbn [kp_read std_kp]. unfold std_read. rewrite (std_nw_plen _ GI), NK.
          pose proof (g_plen _ _ G) as PLB. unfold MAX_PRIMARY_LNG in *. rewrite !(proj2 (Nat.leb_le _ _)) by (unfold nkeys; lia). cbn [andb bind]. rewrite firstn_all2 by (rewrite skipn_length; unfold nkeys; lia). reflexivity.
        + rewrite skipn_length. unfold nkeys. lia.
        + apply keys_eq_step. unfold H in HK. apply andb_prop in HK as [HK _]. apply andb_prop in HK as [_ HK]. exact HK. }
    destruct GO as (ks & ha & EQC & STT & LK & KE).
    destruct (std_aimed junk g ks 16 msk GK GP ltac:(lia)) as (g1 & AM & AG0); [rewrite NK; exact LK|rewrite NK; exact LM|exact WM|].
    assert (AG : aims_to f MT g1).
    { assert (AF : aims f ks msk g1) by (unfold aims in *; rewrite <- NK; exact AG0). destruct (std_aims_to f ks msk g1 FI AF) as [VT ME]. split; [exact VT|]. intros e' L' W'. rewrite ME by assumption. apply KE. }
    destruct (aimed_quiet _ _ _ _ _ _ GI AM) as (GI1 & ST1 & _).
    assert (EQS : f_pages g1 = f_pages g /\ f_plen g1 = f_plen g /\ f_kp g1 = f_kp g /\ f_iun g1 = f_iun g /\ f_modified g1 = f_modified g /\ f_disk g1 = f_disk g /\ f_hdr g1 = f_hdr g).
    { unfold aimed in AM. change (16 =? 0) with false in AM. cbv iota in AM. destruct AM as (t & m & _ & ->). auto 10. }
    destruct EQS as (EP & EL & EK & EI & EM & ED & EH).
    destruct (xdfloc2_spec n junk filt w0 iun ha ks 16 (Some msk) i g g1 k r GX F0 GI AM (proj1 AG) STT) as (w1 & X & O & F1); [rewrite GG; exact FUEL|].
    cbv zeta in *. rewrite NSG in *. rewrite (find_ext (hit filt i g1) H) in * by (intros s IN; apply HITS; [congruence|congruence|exact AG|eauto]).
    set (cu := snd (found_cur i g (find H (after ns k r)))) in *.
    assert (fok (f_setcur g1 cu)) as FK1.
    { eapply fok_stat; [exact GK|exact (stat_trans _ _ _ ST1 (proj1 (proj2 (quiet_cur g1 cu GI1))))|apply finv_cur; exact GI1|].
      intros NW. destruct (fo_ro _ GK NW) as [M (f0 & C0 & D0 & A0)]. cbn [f_setcur f_modified f_disk]. split; [congruence|]. exists f0. split; [exact C0|]. split; [congruence|].
      intros a b. rewrite A0. symmetry. unfold abs, ent, rec_data. cbn [f_setcur f_pages f_disk]. rewrite EP, ED. reflexivity. }
    eexists w1, _. split; [rewrite EQC; exact X|]. split; [exact F1|]. split; [|reflexivity]. split.
    + split; [exact FK1|]. cbn [f_setcur f_kp f_pages f_plen]. split; [congruence|]. split; [cbn [f_setcur f_hdr]; congruence|]. split; [congruence|]. split; [congruence|].
      split; [rewrite (MS w0 w1 O _ _ F0 F1 EI); exact GX|]. destruct O as [O _]. congruence.
    + intros k1 r1 a b CU1. cbn [f_setcur f_cur] in CU1. unfold cu in CU1. destruct (find H (after ns k r)) as [[k2 r2]|] eqn:FD; cbn [found_cur snd] in CU1; [|discriminate].
      assert (k2 = k1 /\ r2 = r1) as [-> ->] by (split; congruence). apply find_some in FD. apply FD.
  - intros k r m N R. apply (HN k r m N R).
  - lia.
  - exact F.
  - unfold Q0. auto 10.
  - exists w'. exact E.
Qed.

(** ** The search *)
Lemma relaxed_match n t q e : (forall j, (16 <= j)%nat -> nth j (tabs_mask t q) 0 = 0) -> keys_eq n (key_words (query_keys q)) (tabs_mask t q) e = keys_eq n (key_words (query_keys (relaxed t q))) (tabs_mask t q) e.
Proof.
  intros Z16. unfold keys_eq. apply forallb_ext_in. intros j _. f_equal. destruct (Nat.lt_ge_cases j 16) as [J|J]; [|rewrite Z16, !Z.land_0_r by exact J; reflexivity].
  assert (W : nth j (key_words (query_keys q)) 0 = nth j (key_words (query_keys (relaxed t q))) 0 \/ nth j (tabs_mask t q) 0 = 0).
  { unfold tabs_mask, key_words, query_mask, query_keys, relaxed. destruct t as [t1 t2 t3]. cbn [t_ip1 t_ip2 t_ip3 q_datev q_etiket q_ip1 q_ip2 q_ip3 q_typvar q_nomvar].
    do 16 (destruct j as [|j]; [cbn [nth k_deet k_nbits k_ni k_gtyp k_nj k_datyp k_nk k_ubc k_npas k_pad7 k_ig4 k_ig2a k_ig1 k_ig2b k_ig3 k_ig2c k_etik15 k_pad1 k_etik6a k_pad2 k_etikbc k_typvar k_pad3 k_nomvar k_pad4 k_ip1 k_levtyp k_ip2 k_pad5 k_ip3 k_pad6 k_date];
      first [left; reflexivity | destruct t1; [left; reflexivity|right; reflexivity] | destruct t2; [left; reflexivity|right; reflexivity] | destruct t3; [left; reflexivity|right; reflexivity]]|]). lia. }
  destruct W as [->| ->]; [reflexivity|rewrite !Z.land_0_r; reflexivity].
Qed.
Lemma relaxed_ok t q : query_ok q -> query_ok (relaxed t q).
Proof.
  unfold query_ok, relaxed. intros (A & (B1 & B2 & B3) & C). cbn [q_datev q_etiket q_ip1 q_ip2 q_ip3 q_typvar q_nomvar]. split; [exact A|]. split; [|exact C].
  destruct (in_use (t_ip1 t)), (in_use (t_ip2 t)), (in_use (t_ip3 t)); lia.
Qed.
Lemma relaxed_found s p i f filt t q : wf s -> opened s p i f -> std_file f -> query_ok q -> (q_datev q = -1 \/ dates_coded f) ->
  matching f i filt (key_words (query_keys q)) (tabs_mask t q) = map (fun x => rec_handle i (fst x) (snd x)) (found filt (relaxed t q) i f).
Proof.
  intros W OP SF QO DC. rewrite <- (matching_found s p i f filt (relaxed t q) W OP SF (relaxed_ok t q QO) DC). unfold matching, kp_matching. f_equal. apply filter_ext. intros x. f_equal. f_equal. apply relaxed_match.
  intros j J. apply nth_overflow. unfold tabs_mask. rewrite key_words_length. exact J.
Qed.

Section Loop.
  Variables (junk : nat -> Z) (filt : Z -> bool) (t : iptabs) (q : query) (s : sys) (p i : nat) (f : fte) (primk : list Z) (T : nat * nat -> bool).
  Hypotheses (W : wf s) (OP : opened s p i f) (SF : std_file f).
  Hypothesis TK : forall k r, In (k, r) (found filt (relaxed t q) i f) -> tabs_take t q (keys_of (skipn 2 (entry_words f k r))) = Some (T (k, r)).

  Lemma found_ent k r : In (k, r) (found filt (relaxed t q) i f) -> ent f k r = Some (entry_words f k r).
  Proof. intros IN. apply (positions_ent f k r (fo_inv _ (wf_fok _ W i f (proj2 OP)))). eapply found_positions. exact IN. Qed.

  Lemma ips_loop_ok n : forall s1 k r ps w', after_search s i f s1 -> (length ps < n)%nat -> (forall x, In x ((k, r) :: ps) -> In x (found filt (relaxed t q) i f)) ->
    enumerates (ips_call (S MAX_DIR_PAGES) junk filt (f_iun f) primk (tabs_mask t q)) (s_w s1) (rec_handle i k r) (map (fun x => rec_handle i (fst x) (snd x)) ps) w' ->
    exists h ks s2, ips_loop n junk filt (f_iun f) t q (rec_handle i k r) s1 = Some (h, ks, s2) /\ after_search s i f s2 /\ length ks = 16%nat /\
      match find T ((k, r) :: ps) with
      | Some x => h = rec_handle i (fst x) (snd x) /\ ks = skipn 2 (entry_words f (fst x) (snd x))
      | None => h = ERR_NOT_FOUND
      end.
  Proof.
    pose proof OP as [P F]. pose proof (fo_inv _ (wf_fok _ W i f F)) as FI. induction n as [|n IH]; intros s1 k r ps w' AS LN IN EN; [lia|].
    pose proof AS as (W1 & SR & FS & O & g & G & LG). pose proof (found_ent k r (IN _ (or_introl eq_refl))) as E. set (e := entry_words f k r) in *.
    assert (KG : f_kp g = std_kp) by (destruct LG as (_&_&_&->&_); apply SF). assert (E1 : ent g k r = Some e) by (rewrite (likes_ent _ _ _ _ LG); exact E).
    assert (P1 : s_fs s1 p = Opened i) by (rewrite FS; exact P). destruct (ent_shape _ _ _ _ FI E) as [LE _]. destruct SF as (_ & PL & _). rewrite PL in LE.
    cbn [ips_loop]. rewrite (xdfprm_entry _ _ _ _ _ _ _ W1 P1 G KG E1). cbn [bind]. unfold e at 1. rewrite (TK k r (IN _ (or_introl eq_refl))). cbn [bind find]. destruct (T (k, r)) eqn:TT.
    { exists (rec_handle i k r), (skipn 2 e), s1. split; [reflexivity|]. split; [exact AS|]. split; [rewrite skipn_length; lia|]. split; reflexivity. }
    assert (HP : 0 < rec_handle i k r).
    { pose proof (wf_rng _ W i f F) as IR. destruct (ent_bounds _ _ _ _ FI E). unfold rec_handle. unfold MAX_XDF_FILES in IR. rewrite make_rnd_sum by lia. lia. }
    assert (HC : forall h' w2, ips_call (S MAX_DIR_PAGES) junk filt (f_iun f) primk (tabs_mask t q) (s_w s1) (rec_handle i k r) = Some (h', w2) ->
       step (OpLoc junk filt (f_iun f) (-1) (skipn 2 e) 16 (Some (tabs_mask t q))) s1 = Some (h', mksys w2 (s_fs s1)) /\ after_search s i f (mksys w2 (s_fs s1))).
    { intros h' w2 C. unfold ips_call in C. rewrite (proj2 (Z.eqb_neq _ 0)) in C by lia. rewrite (xdfprm_entry _ _ _ _ _ _ _ W1 P1 G KG E1) in C.
      assert (ST : step (OpLoc junk filt (f_iun f) (-1) (skipn 2 e) 16 (Some (tabs_mask t q))) s1 = Some (h', mksys w2 (s_fs s1))) by (cbn [step]; rewrite C; reflexivity).
      split; [exact ST|]. eapply loc_after; [reflexivity|exact F|exact W|exact AS|exact ST]. }
    destruct ps as [|[k2 r2] ps]; cbn [map fst snd] in EN; inversion EN as [w0 h0 w1 C|w0 h0 h' w2 l w3 C HP2 EN2]; clear EN.
    - destruct (HC _ _ C) as [ST AS2]. rewrite ST. cbn [bind find]. change (ERR_NOT_FOUND <? 0) with true. cbv iota. eexists _, _, _. split; [reflexivity|]. split; [exact AS2|]. split; [rewrite skipn_length; lia|reflexivity].
    - destruct (HC _ _ C) as [ST AS2]. rewrite ST. cbn [bind]. rewrite (proj2 (Z.ltb_ge (rec_handle i k2 r2) 0)) by lia. apply (IH _ k2 r2 ps w' AS2); [cbn [length] in LN; lia|intros x X; apply IN; right; exact X|]. exact EN2.
  Qed.
End Loop.

Lemma set_target_ok s p i f s2 ks msk : wf s -> opened s p i f -> std_file f -> after_search s i f s2 -> length ks = 16%nat -> length msk = 16%nat ->
  exists s3, set_target i ks msk s2 = Some s3 /\ after_search s i f s3.
Proof.
  intros W [P F] SF (W2 & SR & FS & O & g & G & LG) LK LM. pose proof (wf_fok _ W2 i g G) as FK. pose proof (fo_inv _ FK) as FI. pose proof (fo_t _ FK) as LT. pose proof (fo_c _ FK) as LC. unfold MAX_PRIMARY_LNG in *.
  assert (KG : f_kp g = std_kp) by (destruct LG as (_&_&_&->&_); apply SF). assert (PG : f_plen g = 9%nat) by (destruct LG as (_&_&_&_&->&_); apply SF).
  unfold set_target. rewrite G. cbn [bind]. rewrite KG. cbn [kp_write std_kp]. unfold std_write. rewrite (std_nw_plen _ FI). unfold nkeys. rewrite PG. change (2 * (9 - 1))%nat with 16%nat. rewrite LK, LM, LT, LC. cbn [Nat.leb andb Nat.add Nat.mul bind fst snd].
  eexists. split; [reflexivity|]. set (tg := _ ++ _). set (mk := [0; 0] ++ _ ++ _).
  assert (QT : quiet g (f_settgt g tg mk (f_vt g))).
  { apply quiet_tgt; [exact FI| |]; [unfold tg|unfold mk]; rewrite !app_length, ?firstn_length, ?skipn_length; cbn [length]; lia. }
  assert (OT : others (s_w s2) (setf (s_w s2) i (Some (f_settgt g tg mk (f_vt g)))) i) by (split; [reflexivity|intros j J; apply setf_other; exact J]).
  destruct QT as (Q1 & Q2 & Q3 & Q4 & Q5 & Q6 & Q7). pose proof (conj Q1 (conj Q2 (conj Q3 (conj Q4 (conj Q5 (conj Q6 Q7)))))) as QT.
  split; [|split; [|split; [exact FS|split; [eapply others_trans; eassumption|]]]].
  - eapply wf_replace; [exact W2|exact G|exact OT|apply setf_same|apply Q2|]. eapply fok_stat; [exact FK|exact Q2|exact Q1|]. intros NW. destruct (fo_ro _ FK NW) as [M (f0 & C0 & D0 & A0)]. split; [exact M|]. exists f0. split; [exact C0|]. split; [exact D0|]. intros k r. rewrite A0. symmetry. reflexivity.
  - eapply same_recs_trans; [exact SR|]. eapply (same_recs_replace s2 _ i g); [exact G|exact OT|apply setf_same|]. apply quiet_abs. exact QT.
  - eexists. split; [apply setf_same|]. eapply likes_trans; [exact LG|]. unfold likes. auto 10.
Qed.
Lemma likes_found filt q i f g : likes f g -> found filt q i g = found filt q i f.
Proof. intros (PG & _). unfold found, record_label, entry_words, page_sizes. rewrite PG. reflexivity. Qed.
Lemma find_split {A} (T : A -> bool) l x : find T l = Some x -> exists bf lt, l = bf ++ x :: lt /\ T x = true /\ forall y, In y bf -> T y = false.
Proof.
  induction l as [|a l IH]; [discriminate|]. cbn [find]. destruct (T a) eqn:E.
  - intros H. assert (a = x) as -> by congruence. exists [], l. split; [reflexivity|]. split; [exact E|intros y []].
  - intros H. destruct (IH H) as (bf & lt & -> & TX & NB). exists (a :: bf), lt. split; [reflexivity|]. split; [exact TX|]. intros y [<-|Y]; [exact E|apply NB; exact Y].
Qed.
