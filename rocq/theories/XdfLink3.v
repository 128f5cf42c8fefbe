(** Linked files: the lemmas behind the theorems. *)
From Coq Require Import ZArith List Lia Bool.
From Verif Require Import Bits Handles HandlesFacts WaFile Xdf XdfLib XdfInv XdfDel XdfPut XdfPut2 XdfPut3 XdfPut4 XdfOpen XdfClose XdfClose2 XdfReopen XdfCreate XdfSearch XdfAbs XdfCkpt XdfLoc XdfHist XdfSys XdfSys2 XdfSpec XdfThm XdfEnum XdfThm2 XdfCrash XdfThm3 XdfDemo XdfLink XdfLink2.
Import ListNotations.
Open Scope Z_scope.

(** As std_aimed, without the invariant of unlinked files. *)
Lemma std_aimed_gen junk f primk nprim msk : (1 <= f_plen f <= 16)%nat -> std_nw (f_hdr f) = nkeys f ->
  length (f_target f) = MAX_PRIMARY_LNG -> length (f_cmask f) = MAX_PRIMARY_LNG -> f_smask f = repeat (2 ^ 32 - 1) MAX_PRIMARY_LNG ->
  f_kp f = std_kp -> nprim <> 0 -> (nkeys f <= length primk)%nat -> (nkeys f <= length msk)%nat -> all_words msk ->
  exists f1, aimed junk f primk nprim (Some msk) f1 /\ aims f primk msk f1.
Proof.
  intros PL NW LT LC LS KP NP LP LM WM. unfold MAX_PRIMARY_LNG in *.
  unfold aimed. rewrite (proj2 (Z.eqb_neq _ _) NP). rewrite KP. cbn [kp_write std_kp mask_of]. unfold std_write. rewrite NW.
  rewrite LT, LC, !(proj2 (Nat.leb_le _ _)) by (unfold nkeys in *; lia). cbn [andb].
  eexists. split; [eexists _, _; split; reflexivity|].
  set (t := firstn 2 (f_target f) ++ firstn (nkeys f) primk ++ skipn (2 + nkeys f) (f_target f)).
  set (m := [0; 0] ++ firstn (nkeys f) msk ++ skipn (2 + nkeys f) (f_cmask f)).
  assert (LMm : length m = 32%nat) by (unfold m; rewrite !app_length, firstn_length, skipn_length; cbn [length]; unfold nkeys in *; lia).
  assert (NM : forall j, (j < 2 * f_plen f)%nat -> nth j (new_mask f m) 0 = Z.land (nth j m 0) (2 ^ 32 - 1)).
  { intros j J. unfold new_mask. rewrite nth_map_seq by lia. rewrite (proj2 (Nat.ltb_lt _ _) J). rewrite LS. rewrite nth_repeat_lt by (unfold MAX_PRIMARY_LNG; lia). reflexivity. }
  split; [reflexivity|]. cbn [f_settgt f_target f_cmask]. split; [|split].
  - intros j J. split.
    + unfold t. replace (2 + j)%nat with (length (firstn 2 (f_target f)) + j)%nat by (rewrite firstn_length; lia). rewrite nth_app_mid by (rewrite firstn_length; lia). apply nth_firstn_d. exact J.
    + rewrite NM by (unfold nkeys in *; lia). assert (EM : nth (2 + j) m 0 = nth j (firstn (nkeys f) msk) 0) by (refine (nth_app_mid [0; 0] _ _ j 0 _); rewrite firstn_length; lia).
      rewrite EM, nth_firstn_d by exact J. apply land_full. apply all_words_nth. exact WM.
  - rewrite NM by lia. reflexivity.
  - rewrite NM by lia. reflexivity.
Qed.

(** The open files of a list. *)
Definition files_of (s : sys) (fl : list (nat * fte)) : Prop := (forall j g, In (j, g) fl -> w_file (s_w s) j = Some g) /\ NoDup (map fst fl).

Lemma link_all s i f rest : wf s -> files_of s ((i, f) :: rest) ->
  exists w1, xdflnk (s_w s) (map (fun x => f_iun (snd x)) ((i, f) :: rest)) = (0, w1) /\ chained w1 ((i, f) :: rest) /\ w_seq w1 = false /\
    (forall j, ~ In j (map fst ((i, f) :: rest)) -> w_file w1 j = w_file (s_w s) j) /\
    (forall j, option_map f_iun (w_file w1 j) = option_map f_iun (w_file (s_w s) j)).
Proof.
  intros W [OP ND]. unfold xdflnk. cbn [map snd]. rewrite (file_index_of _ _ _ W (OP i f (or_introl eq_refl))).
  destruct (lnk_loop_spec rest i f (s_w s)) as (w1 & L & C & S & O & I & _); [|exact ND|].
  - intros j g IN. pose proof (OP j g IN) as F. split; [exact F|]. split; [apply (file_index_of _ _ _ W F)|].
    destruct (fo_inv _ (wf_fok _ W _ _ F)) as [G _]. apply (g_tail _ _ G).
  - exists w1. split; [exact L|]. split; [exact C|]. split; [rewrite S; apply (wf_seq _ W)|]. split; [exact O|exact I].
Qed.

Lemma pgs_length js : length (pgs js) = length (concat (map (fun x => f_pages (snd x)) js)).
Proof. rewrite <- pgs_pages, map_length. reflexivity. Qed.

Lemma files_pages s fl : wf s -> files_of s fl -> Forall (fun jf => f_pages (snd jf) <> []) fl.
Proof.
  intros W [OP _]. apply Forall_forall. intros (j, g) IN. destruct (fo_inv _ (wf_fok _ W _ _ (OP j g IN))) as [G _]. cbn [snd]. intros E.
  pose proof (g_np _ _ G) as NP. rewrite E in NP. cbn in NP. lia.
Qed.

Lemma enum_searched call w h l w' : (forall w h, exists n junk filt iun h' primk nprim msk, call w h = xdfloc2 n junk filt w iun h' primk nprim msk) ->
  enumerates call w h l w' -> searched w w'.
Proof.
  intros C. induction 1 as [w h w' X|w h h' w' l w'' X P E IH].
  - destruct (C w h) as (n & junk & filt & iun & h2 & primk & nprim & msk & EQ). rewrite EQ in X. eapply searched_step; [exact X|constructor].
  - destruct (C w h) as (n & junk & filt & iun & h2 & primk & nprim & msk & EQ). rewrite EQ in X. eapply searched_step; [exact X|exact IH].
Qed.

Definition in_pages (pages : list page) (k r : nat) : list Z := match nth_error pages k with Some p => nth r (p_ents p) [] | None => [] end.

Lemma search_linked s i f rest n junk filt keys nprim msk w1 w : wf s -> files_of s ((i, f) :: rest) -> (forall j g, In (j, g) rest -> f_plen g = f_plen f) -> f_kp f = std_kp ->
  nprim <> 0 -> (nkeys f <= length keys)%nat -> (nkeys f <= length msk)%nat -> all_words msk ->
  let pages := concat (map (fun x => f_pages (snd x)) ((i, f) :: rest)) in (length pages <= 4096)%nat -> (length pages <= n)%nat ->
  xdflnk (s_w s) (map (fun x => f_iun (snd x)) ((i, f) :: rest)) = (0, w1) -> searched w1 w ->
  exists w', enumerates (fun w h => if h =? 0 then xdfloc2 n junk filt w (f_iun f) 0 keys nprim (Some msk) else xdfloc2 n junk filt w (f_iun f) (-1) [] 0 None) w 0
    (map (fun x => rec_handle i (fst x) (snd x)) (filter (fun x => key_match (nkeys f) keys msk (in_pages pages (fst x) (snd x)) && filt (rec_handle i (fst x) (snd x)))
       (positions (map (fun p => Z.to_nat (p_nent p)) pages)))) w'.
Proof.
  intros W FO PL KP NP LP LM WM pages L4 LN X SE. destruct (link_all s i f rest W FO) as (w1' & X' & C & S & O & I). assert (w1' = w1) as -> by congruence.
  pose proof (searched_turned _ _ SE) as AT. pose proof (chained_turned _ _ _ AT C) as CW. pose proof FO as [OP ND].
  pose proof (OP i f (or_introl eq_refl)) as F. pose proof (wf_fok _ W i f F) as FK. pose proof (fo_inv _ FK) as FI. pose proof FI as [G IN0].
  assert (FX : file_index w (f_iun f) = Some i).
  { rewrite (file_index_turned _ _ _ AT). rewrite (file_index_same (s_w s) w1 _ I). apply (file_index_of _ _ _ W F). }
  assert (exists g, w_file w i = Some g /\ like f g) as (g & GW & LK) by (destruct CW as [(g & A & B & _) _]; eauto).
  assert (AG : exists g1, aimed junk g keys nprim (Some msk) g1 /\ aims g keys msk g1 /\ f_plen g = f_plen f).
  { pose proof (g_plen _ _ G) as PLB. pose proof (std_nw_plen f FI) as SN. destruct LK as (t & l & tg & m & v & c & -> & LL). destruct (LL (g_kp _ _ G)) as [L1 L2].
    cbn [f_target f_cmask f_setlink] in L1, L2. set (g := f_setcur _ c).
    destruct (std_aimed_gen junk g keys nprim msk) as (g1 & A & B); auto.
    - cbn. rewrite L1. apply (fo_t _ FK).
    - cbn. rewrite L2. apply (fo_c _ FK).
    - exact (fo_s _ FK).
    - exists g1. auto. }
  destruct AG as (g1 & AM & AI & PG).
  assert (A2 : aims_to f (keys_eq (nkeys f) keys msk) g1).
  { apply std_aims_to; [exact FI|]. unfold aims, nkeys in *. rewrite PG in AI. exact AI. }
  destruct (enum_chain n junk filt i f rest keys nprim msk (keys_eq (nkeys f) keys msk)) with (w := w) (g := g) (g1 := g1) as (w' & E); auto.
  - apply Forall_forall. intros (j, h) IN. cbn [snd]. split; [apply (fo_inv _ (wf_fok _ W _ _ (OP j h IN)))|]. destruct IN as [IN|IN]; [congruence|eapply PL; exact IN].
  - exact (wf_rng _ W i f F).
  - rewrite pgs_length. exact LN.
  - rewrite pgs_length. exact L4.
  - exists w'. rewrite after_start, slots_from_positions in E. rewrite <- (joined_sizes f) in E. exact E.
Qed.

Lemma access_linked s i f rest w1 w : wf s -> files_of s ((i, f) :: rest) ->
  xdflnk (s_w s) (map (fun x => f_iun (snd x)) ((i, f) :: rest)) = (0, w1) -> searched w1 w ->
  forall a j g b k r, (i, f) :: rest = a ++ (j, g) :: b -> (k < length (f_pages g))%nat -> (r < 512)%nat ->
  let K := (length (concat (map (fun x => f_pages (snd x)) a)) + k)%nat in (K < 4096)%nat ->
  (forall buf, xdfget w (rec_handle i K r) buf = xdfget (s_w s) (rec_handle j k r) buf) /\
  (f_kp f = std_kp -> f_kp g = std_kp -> f_plen g = f_plen f -> xdfprm w (rec_handle i K r) = xdfprm (s_w s) (rec_handle j k r)).
Proof.
  intros W FO X SE a j g b k r SP KL RL K K4. destruct (link_all s i f rest W FO) as (w1' & X' & C & S & O & I). assert (w1' = w1) as -> by congruence.
  pose proof (searched_turned _ _ SE) as AT. pose proof (chained_turned _ _ _ AT C) as CW. pose proof (files_pages _ _ W FO) as NE. pose proof FO as [OP ND].
  pose proof (OP i f (or_introl eq_refl)) as F. assert (IN : In (j, g) ((i, f) :: rest)) by (rewrite SP; apply in_or_app; right; left; reflexivity).
  pose proof (OP j g IN) as FJ. assert (SQ : w_seq w = false) by (destruct AT as [-> _]; exact S).
  assert (KE : K = (length (pgs a) + k)%nat) by (unfold K; rewrite pgs_length; reflexivity). rewrite KE in *.
  split.
  - intros buf. apply (get_chain (s_w s) w i f rest a b j g k r SP CW NE (wf_seq _ W) SQ (proj2 (wf_rng _ W i f F)) (proj2 (wf_rng _ W j g FJ)) FJ KL RL). lia.
  - intros KP KPG PL. apply (prm_chain (s_w s) w i f rest a b j g k r SP CW NE (wf_seq _ W) SQ (proj2 (wf_rng _ W i f F)) (proj2 (wf_rng _ W j g FJ)) FJ KL RL); auto.
    rewrite (std_nw_plen g (fo_inv g (wf_fok _ W j g FJ))), (std_nw_plen f (fo_inv f (wf_fok _ W i f F))). unfold nkeys. rewrite PL. reflexivity.
Qed.

(** A page of the concatenation is a page of one of the files. *)
Lemma concat_split (js : list (nat * fte)) K p : nth_error (concat (map (fun x => f_pages (snd x)) js)) K = Some p ->
  exists a j g b k, js = a ++ (j, g) :: b /\ K = (length (concat (map (fun x => f_pages (snd x)) a)) + k)%nat /\ nth_error (f_pages g) k = Some p.
Proof.
  revert K. induction js as [|(j, g) js IH]; intros K N; [destruct K; discriminate|]. cbn [map concat snd] in N.
  destruct (Nat.lt_ge_cases K (length (f_pages g))) as [L|L].
  - rewrite nth_error_app1 in N by exact L. exists [], j, g, js, K. auto.
  - rewrite nth_error_app2 in N by exact L. destruct (IH _ N) as (a & j' & g' & b & k & -> & E & P). exists ((j, g) :: a), j', g', b, k.
    split; [reflexivity|]. split; [|exact P]. cbn [map concat snd]. rewrite app_length. lia.
Qed.

Lemma unlink_all s i f rest w1 w : wf s -> files_of s ((i, f) :: rest) -> xdflnk (s_w s) (map (fun x => f_iun (snd x)) ((i, f) :: rest)) = (0, w1) -> searched w1 w ->
  exists w2, xdfunl w (map (fun x => f_iun (snd x)) ((i, f) :: rest)) = (0, w2) /\ all_turned (s_w s) w2 /\ ((forall j, w_file w j = w_file w1 j) -> forall j, w_file w2 j = w_file (s_w s) j).
Proof.
  intros W FO X SE. destruct (link_all s i f rest W FO) as (w1' & X' & C & S & O & I). assert (w1' = w1) as -> by congruence.
  pose proof (searched_turned _ _ SE) as AT. pose proof (chained_turned _ _ _ AT C) as CW. pose proof FO as [OP ND].
  assert (LKS : forall (w : world) js, chained w js -> forall j h, In (j, h) js -> exists g, w_file w j = Some g /\ like h g).
  { clear. induction js as [|(x, y) js IH]; [intros _ j h []|]. intros [(g & G & LK & _) C] j h [E|IN].
    - exists g. assert (x = j /\ y = h) as [-> ->] by (split; congruence). auto.
    - apply IH; assumption. }
  destruct (unl_spec ((i, f) :: rest) w) as (w2 & U & S2 & O2 & I2); [|exact ND|].
  - intros j h IN. destruct (LKS _ _ CW j h IN) as (g & A & B). exists g. split; [exact A|]. split; [exact B|].
    rewrite (file_index_turned _ _ _ AT), (file_index_same (s_w s) w1 _ I). apply (file_index_of _ _ _ W (OP j h IN)).
  - exists w2. split; [exact U|].
    assert (MEM : forall j, In j (map fst ((i, f) :: rest)) -> exists h, w_file (s_w s) j = Some h /\ In (j, h) ((i, f) :: rest) /\ h = f_setlink h None (-1)).
    { intros j IN. apply in_map_iff in IN. destruct IN as ((x, h) & E & IN). cbn [fst] in E. subst x. exists h. pose proof (OP j h IN) as F. split; [exact F|]. split; [exact IN|].
      destruct (fo_inv _ (wf_fok _ W _ _ F)) as [G _]. pose proof (g_tail _ _ G) as T. pose proof (g_link _ _ G) as L. destruct h; cbn in T, L |- *; subst; reflexivity. }
    split.
    + split; [destruct AT as [A _]; rewrite S2, A, S; symmetry; apply (wf_seq _ W)|]. intros j. destruct (in_dec Nat.eq_dec j (map fst ((i, f) :: rest))) as [IN|NI].
      * destruct (MEM j IN) as (h & F & INH & HE). destruct (I2 j IN) as (g & GW & ->). rewrite F.
        destruct (LKS _ _ CW j h INH) as (g' & GW' & LK). assert (g' = g) as -> by congruence.
        destruct LK as (t & l & tg & m & v & c & -> & LL). exists tg, m, v, c. split; [rewrite HE at 2; reflexivity|exact LL].
      * rewrite O2 by exact NI. destruct AT as [_ AT]. specialize (AT j). rewrite O in AT by exact NI. exact AT.
    + intros SAME j. destruct (in_dec Nat.eq_dec j (map fst ((i, f) :: rest))) as [IN|NI].
      * destruct (MEM j IN) as (h & F & INH & HE). destruct (I2 j IN) as (g & GW & ->). rewrite F. rewrite SAME in GW.
        enough (exists t l, g = f_setlink h t l) as (t & l & ->) by (rewrite HE at 2; reflexivity).
        clear - X W FO GW INH. (* the link loop itself only sets links *)
        assert (Y : forall (i : nat) w l w', xdflnk_loop w i l = (0, w') -> forall j, match w_file w j, w_file w' j with Some a, Some b => exists t l, b = f_setlink a t l | None, None => True | _, _ => False end).
        { clear. intros i w l. revert i w. induction l as [|u l IH]; intros i w w' H j; cbn [xdflnk_loop] in H.
          - assert (w' = w) as -> by congruence. destruct (w_file w j) as [a|]; [|exact Logic.I]. exists (f_tail a), (f_link a). destruct a; reflexivity.
          - destruct (file_index w u) as [k|]; [|discriminate]. destruct (w_file w i) as [a|] eqn:A; [|discriminate].
            specialize (IH _ _ _ H j). destruct (Nat.eq_dec j i) as [-> |N].
            + rewrite setf_same in IH. rewrite A. destruct (w_file w' i) as [b|]; [|contradiction]. destruct IH as (t & q & ->). exists t, q. reflexivity.
            + rewrite setf_other in IH by exact N. exact IH. }
        unfold xdflnk in X. cbn [map snd] in X. destruct (file_index (s_w s) (f_iun f)) as [i'|]; [|discriminate]. specialize (Y _ _ _ _ X j).
        destruct FO as [OP _]. rewrite (OP _ _ INH), GW in Y. exact Y.
      * rewrite O2 by exact NI. rewrite SAME. apply O. exact NI.
Qed.

(** * Files created with the standard key functions, for the examples *)
Definition plain_op (o : op) : Prop := match o with OpCreate _ _ _ _ kp _ _ _ => kp = std_kp | OpPut _ _ _ _ => True | _ => False end.
Definition all_std (s : sys) : Prop := forall i f, w_file (s_w s) i = Some f -> f_kp f = std_kp.

Lemma step_all_std s o c s' : wf s -> ok_op s o -> plain_op o -> all_std s -> step o s = Some (c, s') -> all_std s'.
Proof.
  intros W OK PO AS. destruct o as [junk p iun std kp pri aux sign|junk p iun ro std kp mode|junk iun handle buf|h|junk filt iun handle primk nprim msk|junk iun|junk iun]; try contradiction.
  - cbn [plain_op] in PO. subst kp. destruct OK as [KO KP]. cbn [step].
    assert (MAIN : forall d, bind (open_slot (s_w s) iun) (fun r => match r with Err c => Some (c, s)
     | Go i => bind (xdfopn_create junk iun false std std_kp d pri aux sign) (fun cf => let (c, f) := cf in Some (c, mksys (setf (s_w s) i (Some f)) (setfs (s_fs s) p (Opened i)))) end) = Some (c, s') -> all_std s').
    { intros d. destruct (open_slot (s_w s) iun) as [[e|i]|] eqn:OS; [| |discriminate]; cbn [bind].
      - intros H. injection H as <- <-. exact AS.
      - destruct (create_spec junk iun std std_kp d pri aux sign KO KP) as (f & X & _ & _ & _ & _ & _ & _ & _ & _ & KPE & _).
        rewrite X. cbn [bind]. intros H. injection H as <- <-. intros j g. cbn [s_w]. destruct (Nat.eq_dec j i) as [-> |N].
        + rewrite setf_same. intros E. assert (g = f) as -> by congruence. exact KPE.
        + rewrite setf_other by exact N. apply AS. }
    destruct (s_fs s p) as [|d|j] eqn:P; [apply (MAIN [])|apply (MAIN d)|discriminate].
  - destruct OK as [BO RM]. cbn [step].
    destruct (xdfput junk (s_w s) iun handle buf) as [[[c0 w'] b']|] eqn:X; [|discriminate]. cbn [bind]. intros H. injection H as <- <-.
    destruct (file_index (s_w s) iun) as [i|] eqn:FX.
    2: { destruct (xdfput_nofile _ _ _ _ _ _ _ _ FX X) as (C & -> & _). exact AS. }
    destruct (file_index_own _ _ _ FX) as (f & F & IU & _). destruct (RM i f eq_refl F) as [R1 R2]. pose proof (wf_fok _ W i f F) as FK.
    pose proof (xdfput_spec junk (s_w s) iun handle buf i f FX F (fo_inv _ FK) BO R1 R2) as PS. rewrite X in PS.
    destruct PS as ((_ & O) & f' & F' & PS). assert (ST : stat f f').
    { destruct PS as [(C & Q)|(_ & _ & _ & k & r & e1 & e0 & PE & _)]; [apply Q|apply (pe_stat _ _ _ _ _ _ _ PE)]. }
    intros j g. cbn [s_w]. destruct (Nat.eq_dec j i) as [-> |N].
    + rewrite F'. intros E. assert (g = f') as -> by congruence. destruct ST as (_ & _ & _ & -> & _). apply (AS i f F).
    + rewrite O by exact N. apply AS.
Qed.

Lemma run_all_std l : forall s cs s', Forall std_op l -> Forall plain_op l -> wf s -> all_std s -> run l s = Some (cs, s') -> all_std s'.
Proof.
  induction l as [|o l IH]; intros s cs s' FS FP W AS H; cbn [run] in H.
  - injection H as _ <-. exact AS.
  - inversion FS; inversion FP; subst. destruct (ok_opb s o) eqn:OK; [|discriminate]. destruct (step o s) as [[c s1]|] eqn:ST; [|discriminate].
    destruct (run l s1) as [[cs1 s2]|] eqn:R; [|discriminate]. injection H as _ <-. apply ok_opb_ok in OK; [|assumption].
    destruct (step_spec _ _ _ _ W OK ST) as [W1 _]. apply (IH s1 cs1 s2); auto. apply (step_all_std s o c s1); assumption.
Qed.

Lemma final_all_std l : Forall std_op l -> Forall plain_op l -> all_std (final l).
Proof.
  intros FS FP. unfold final. assert (A0 : all_std init_sys) by (intros i f H; discriminate). destruct (run l init_sys) as [[cs s]|] eqn:R; [|exact A0].
  apply (run_all_std l init_sys cs s); auto. apply reach_wf. exists []. constructor.
Qed.
