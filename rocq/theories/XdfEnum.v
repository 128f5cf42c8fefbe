(** Enumeration of the matching records by repeated searches. *)
From Coq Require Import ZArith List Lia Bool.
From Verif Require Import Bits Handles HandlesFacts WaFile Xdf XdfLib XdfInv XdfDel XdfPut XdfPut2 XdfPut3 XdfPut4 XdfOpen XdfClose XdfClose2 XdfReopen XdfCreate XdfSearch XdfAbs XdfCkpt XdfLoc XdfHist XdfSys XdfSys2 XdfSpec XdfThm.
Import ListNotations.
Open Scope Z_scope.

Lemma slots_from_positions k ns : slots_from k ns = flat_map (fun kn => map (fun r => (fst kn, r)) (seq 0 (snd kn))) (combine (seq k (length ns)) ns).
Proof. revert k. induction ns; intros k; [reflexivity|]. cbn [slots_from length seq combine flat_map fst snd]. rewrite IHns. reflexivity. Qed.
Lemma slots_positions f : slots f = positions (page_sizes f).
Proof. apply slots_from_positions. Qed.

(** The next match splits what remains. *)
Lemma after_find H ns : forall m k r, (length (after ns k r) <= m)%nat -> (k < length ns)%nat ->
  match find H (after ns k r) with
  | Some (k', r') => filter H (after ns k r) = (k', r') :: filter H (after ns k' (S r')) /\ (length (after ns k' (S r')) < length (after ns k r))%nat /\
                     H (k', r') = true /\ exists n, nth_error ns k' = Some n /\ (r' < n)%nat
  | None => filter H (after ns k r) = []
  end.
Proof.
  assert (X : forall d m k r, (length ns - k <= d)%nat -> (length (after ns k r) <= m)%nat -> (k < length ns)%nat ->
    match find H (after ns k r) with
    | Some (k', r') => filter H (after ns k r) = (k', r') :: filter H (after ns k' (S r')) /\ (length (after ns k' (S r')) < length (after ns k r))%nat /\
                     H (k', r') = true /\ exists n, nth_error ns k' = Some n /\ (r' < n)%nat
    | None => filter H (after ns k r) = []
    end).
  2: { intros. apply (X (length ns - k)%nat m); auto. }
  induction d; intros m k; [lia|]. induction m; intros r D L K.
  - destruct (after ns k r) as [|x l]; [reflexivity|]. cbn [length] in L. lia.
  - destruct (nth_error ns k) as [n|] eqn:N. 2: { apply nth_error_None in N. lia. }
    destruct (Nat.le_gt_cases n r) as [R|R].
    + rewrite (after_next _ _ _ _ N R) in *. destruct (Nat.lt_ge_cases (S k) (length ns)) as [K1|K1].
      * apply (IHd (S m)); auto. lia.
      * rewrite after_none by exact K1. reflexivity.
    + rewrite (after_cons _ _ _ _ N R) in *. cbn [find filter length] in *. destruct (H (k, r)) eqn:HK.
      * split; [reflexivity|]. split; [lia|]. split; [exact HK|]. exists n. auto.
      * specialize (IHm (S r) D ltac:(lia) K). destruct (find H (after ns k (S r))) as [[k' r']|]; [|exact IHm].
        destruct IHm as (A & B & C). split; [exact A|]. split; [lia|exact C].
Qed.

(** Enumeration by a call that behaves like a search. [Q0]: the state at the
    start, [Q]: states between calls. *)
Lemma enum_ind call i ns H (Q0 Q : world -> fte -> Prop) :
  (forall w f h k r, w_file w i = Some f -> (k < length ns)%nat ->
     (Q0 w f /\ h = 0 /\ k = 0%nat /\ r = 0%nat \/
      Q w f /\ (exists r', r = S r' /\ h = hnd i (k, r') /\ 0 < h /\ f_cur f = mkcur (Some (i, k)) (Some ((i, k), r)) (Z.of_nat k) (Z.of_nat r) /\ exists n, nth_error ns k = Some n /\ (r' < n)%nat)) ->
     exists w' f', call w h = Some (fst (found_cur i f (find H (after ns k r))), w') /\ w_file w' i = Some f' /\ Q w' f' /\ f_cur f' = snd (found_cur i f (find H (after ns k r)))) ->
  (forall k r n, nth_error ns k = Some n -> (r < n)%nat -> 0 < hnd i (k, r)) -> (1 <= length ns)%nat ->
  forall w f, w_file w i = Some f -> Q0 w f -> exists w', enumerates call w 0 (map (hnd i) (filter H (after ns 0 0))) w' /\ exists f', w_file w' i = Some f' /\ Q w' f'.
Proof.
  intros C HP L1.
  assert (X : forall m w f h k r, (length (after ns k r) <= m)%nat -> w_file w i = Some f -> (k < length ns)%nat ->
     (Q0 w f /\ h = 0 /\ k = 0%nat /\ r = 0%nat \/
      Q w f /\ (exists r', r = S r' /\ h = hnd i (k, r') /\ 0 < h /\ f_cur f = mkcur (Some (i, k)) (Some ((i, k), r)) (Z.of_nat k) (Z.of_nat r) /\ exists n, nth_error ns k = Some n /\ (r' < n)%nat)) ->
     exists w', enumerates call w h (map (hnd i) (filter H (after ns k r))) w' /\ exists f', w_file w' i = Some f' /\ Q w' f').
  { induction m; intros w f h k r LM F K PO.
    - assert (E : after ns k r = []) by (destruct (after ns k r); [reflexivity|cbn [length] in LM; lia]).
      destruct (C w f h k r F K PO) as (w' & f' & CL & F' & QF' & _). rewrite E in CL |- *. cbn [find found_cur fst filter map] in *.
      exists w'. split; [|eauto]. apply enum_end. exact CL.
    - destruct (C w f h k r F K PO) as (w' & f' & CL & F' & QF' & CU). pose proof (after_find H ns (S m) k r LM K) as AF.
      destruct (find H (after ns k r)) as [[k' r']|] eqn:FD.
      + destruct AF as (A & B & HT & n & N & R). rewrite A. cbn [map]. cbn [found_cur fst snd] in *.
        destruct (IHm w' f' (hnd i (k', r')) k' (S r')) as (w2 & E2 & F2); [lia|exact F'|apply nth_error_Some; congruence| |].
        { right. split; [exact QF'|]. exists r'. split; [reflexivity|]. split; [reflexivity|]. split; [eapply HP; eauto|]. split; [exact CU|eauto]. }
        exists w2. split; [|exact F2]. eapply enum_more; [exact CL|eapply HP; eauto|exact E2].
      + rewrite AF. cbn [map found_cur fst] in *. exists w'. split; [|eauto]. apply enum_end. exact CL. }
  intros w f F QF. apply (X _ w f 0 0%nat 0%nat (le_n _) F); [lia|]. left. auto.
Qed.

(** * Standard files *)
Lemma nth_map_seq {A} (g : nat -> A) n j d : (j < n)%nat -> nth j (map g (seq 0 n)) d = g j.
Proof. intros H. rewrite (nth_indep _ d (g 0%nat)) by (rewrite map_length, seq_length; exact H). rewrite map_nth. rewrite seq_nth by exact H. reflexivity. Qed.
Lemma nth_repeat_lt {A} (a : A) n j d : (j < n)%nat -> nth j (repeat a n) d = a.
Proof. revert j. induction n; intros [|j] H; try lia; [reflexivity|]. cbn. apply IHn. lia. Qed.
Lemma forallb_map_local {A B} (g : A -> B) (P : B -> bool) l : forallb P (map g l) = forallb (fun x => P (g x)) l.
Proof. induction l; [reflexivity|]. cbn. rewrite IHl. reflexivity. Qed.
Lemma forallb_ext_in {A} (P Q : A -> bool) l : (forall x, In x l -> P x = Q x) -> forallb P l = forallb Q l.
Proof. induction l; intros H; [reflexivity|]. cbn. rewrite H by (left; reflexivity). rewrite IHl; [reflexivity|]. intros. apply H. right. assumption. Qed.
Definition nkeys (f : fte) : nat := (2 * (f_plen f - 1))%nat.

Lemma std_nw_plen f : finv f -> std_nw (f_hdr f) = nkeys f.
Proof. intros [G I]. unfold std_nw, nkeys. rewrite (g_lprm _ _ G). pose proof (g_plen _ _ G). lia. Qed.

Lemma land_full x : word_ok x -> Z.land x (2 ^ 32 - 1) = x.
Proof. intros W. rewrite land_ones_mod by lia. apply Z.mod_small. exact W. Qed.

(** Target and mask after a call with keys. *)
Definition aims (f : fte) (primk msk : list Z) (f1 : fte) : Prop :=
  f_vt f1 = true /\ (forall j, (j < nkeys f)%nat -> nth (2 + j) (f_target f1) 0 = nth j primk 0 /\ nth (2 + j) (f_cmask f1) 0 = nth j msk 0) /\
  nth 0 (f_cmask f1) 0 = 0 /\ nth 1 (f_cmask f1) 0 = 0.

Lemma nth_app_mid {A} (a b c : list A) j d : (j < length b)%nat -> nth (length a + j) (a ++ b ++ c) d = nth j b d.
Proof. intros. rewrite app_nth2 by lia. replace (length a + j - length a)%nat with j by lia. apply app_nth1. assumption. Qed.

Lemma nth_firstn_d {A} n (l : list A) j d : (j < n)%nat -> nth j (firstn n l) d = nth j l d.
Proof. revert l j. induction n; intros l j H; [lia|]. destruct l; [reflexivity|]. destruct j; [reflexivity|]. cbn. apply IHn. lia. Qed.

Lemma std_aimed junk f primk nprim msk : fok f -> f_kp f = std_kp -> nprim <> 0 -> (nkeys f <= length primk)%nat -> (nkeys f <= length msk)%nat -> all_words msk ->
  exists f1, aimed junk f primk nprim (Some msk) f1 /\ aims f primk msk f1.
Proof.
  intros FK KP NP LP LM WM. pose proof (fo_inv _ FK) as FI. pose proof FI as [G I]. pose proof (g_plen _ _ G) as PL.
  pose proof (fo_t _ FK) as LT. pose proof (fo_c _ FK) as LC. unfold MAX_PRIMARY_LNG in *.
  unfold aimed. rewrite (proj2 (Z.eqb_neq _ _) NP). rewrite KP. cbn [kp_write std_kp mask_of]. unfold std_write. rewrite (std_nw_plen _ FI).
  rewrite LT, LC, !(proj2 (Nat.leb_le _ _)) by (unfold nkeys in *; lia). cbn [andb].
  eexists. split; [eexists _, _; split; reflexivity|].
  set (t := firstn 2 (f_target f) ++ firstn (nkeys f) primk ++ skipn (2 + nkeys f) (f_target f)).
  set (m := [0; 0] ++ firstn (nkeys f) msk ++ skipn (2 + nkeys f) (f_cmask f)).
  assert (LMm : length m = 32%nat) by (unfold m; rewrite !app_length, firstn_length, skipn_length; cbn [length]; unfold nkeys in *; lia).
  assert (NM : forall j, (j < 2 * f_plen f)%nat -> nth j (new_mask f m) 0 = Z.land (nth j m 0) (2 ^ 32 - 1)).
  { intros j J. unfold new_mask. rewrite nth_map_seq by lia. rewrite (proj2 (Nat.ltb_lt _ _) J). rewrite (fo_s _ FK). rewrite nth_repeat_lt by (unfold MAX_PRIMARY_LNG; lia). reflexivity. }
  split; [reflexivity|]. cbn [f_settgt f_target f_cmask]. split; [|split].
  - intros j J. split.
    + unfold t. replace (2 + j)%nat with (length (firstn 2 (f_target f)) + j)%nat by (rewrite firstn_length; lia). rewrite nth_app_mid by (rewrite firstn_length; lia). apply nth_firstn_d. exact J.
    + rewrite NM by (unfold nkeys in *; lia). assert (EM : nth (2 + j) m 0 = nth j (firstn (nkeys f) msk) 0) by (refine (nth_app_mid [0; 0] _ _ j 0 _); rewrite firstn_length; lia).
      rewrite EM, nth_firstn_d by exact J. apply land_full. apply all_words_nth. exact WM.
  - rewrite NM by lia. reflexivity.
  - rewrite NM by lia. reflexivity.
Qed.

(** Keys compared as [MT] says, after a call with keys. *)
Definition aims_to (f : fte) (MT : list Z -> bool) (f1 : fte) : Prop :=
  f_vt f1 = true /\ forall e, length e = (2 * f_plen f)%nat -> all_words e -> masked_eq (2 * f_plen f) e (f_target f1) (f_cmask f1) = MT e.

Definition keys_eq (n : nat) (keys msk e : list Z) : bool :=
  forallb (fun j => Z.land (Z.lxor (nth (2 + j) e 0) (nth j keys 0)) (nth j msk 0) =? 0) (seq 0 n).

Lemma std_aims_to f primk msk f1 : finv f -> aims f primk msk f1 -> aims_to f (keys_eq (nkeys f) primk msk) f1.
Proof.
  intros FI (VT & KM & M0 & M1). split; [exact VT|]. intros e _ _. 
  unfold masked_eq, keys_eq. replace (2 * f_plen f)%nat with (2 + nkeys f)%nat. 2: { destruct FI as [G I]. pose proof (g_plen _ _ G). unfold nkeys. lia. }
  rewrite seq_app, forallb_app. cbn [seq forallb]. rewrite M0, M1, !Z.land_0_r. cbn [Z.eqb andb]. 
  change (0 + 2)%nat with 2%nat. replace (seq 2 (nkeys f)) with (map (fun j => (2 + j)%nat) (seq 0 (nkeys f))).
  2: { rewrite <- (seq_shift (nkeys f) 1), <- (seq_shift (nkeys f) 0), map_map. reflexivity. }
  rewrite forallb_map_local. apply forallb_ext_in. intros j J. apply in_seq in J. destruct (KM j ltac:(lia)) as [-> ->]. reflexivity.
Qed.

Lemma hit_kp filt i f f1 MT k r e : finv f -> aims_to f MT f1 -> f_pages f1 = f_pages f -> f_plen f1 = f_plen f -> ent f k r = Some e -> length e = (2 * f_plen f)%nat -> all_words e ->
  hit filt i f1 (k, r) = live_entry e && MT e && filt (hnd i (k, r)).
Proof.
  intros FI (VT & ME) P1 PL1 E LE WE. unfold hit. cbn [fst snd]. assert (E1 : ent f1 k r = Some e) by (unfold ent; rewrite P1; exact E). rewrite E1.
  unfold entry_matches. unfold hnd. cbn [fst snd]. f_equal. f_equal.
  - destruct FI as [G I]. destruct (g_ents _ _ G _ _ _ E) as (T & _). unfold live_entry. destruct T as [T|[T|T]].
    + rewrite (proj2 (Z.ltb_lt _ _)), (proj2 (Z.leb_le 1 _)), (proj2 (Z.leb_le _ 125)) by lia. reflexivity.
    + rewrite T. reflexivity.
    + rewrite T. reflexivity.
  - rewrite PL1. apply ME; assumption.
Qed.

Lemma after_in ns k r k' r' : In (k', r') (after ns k r) -> exists n, nth_error ns k' = Some n /\ (r' < n)%nat.
Proof.
  assert (X : forall d k r, (length ns - k <= d)%nat -> In (k', r') (after ns k r) -> exists n, nth_error ns k' = Some n /\ (r' < n)%nat).
  2: { apply (X (length ns - k)%nat). lia. }
  clear k r. induction d; intros k r D H.
  - rewrite after_none in H by lia. contradiction.
  - destruct (nth_error ns k) as [n|] eqn:N. 2: { apply nth_error_None in N. rewrite after_none in H by lia. contradiction. }
    remember (n - r)%nat as m eqn:M. revert r M H. induction m; intros r M H.
    + assert (NR : (n <= r)%nat) by lia. rewrite (after_next _ _ _ _ N NR) in H. apply (IHd (S k) 0%nat); [lia|exact H].
    + assert (NR : (r < n)%nat) by lia. rewrite (after_cons _ _ _ _ N NR) in H. destruct H as [H|H]; [|apply (IHm (S r)); [lia|exact H]].
      assert (k = k' /\ r = r') as [<- <-] by (split; congruence). exists n. split; [exact N|lia].
Qed.

Lemma ent_words f k r n : finv f -> nth_error (nents (f_pages f)) k = Some n -> (r < n)%nat -> ent f k r = Some (entry_words f k r).
Proof.
  intros FI N R. pose proof FI as [G I]. unfold nents in N. rewrite nth_error_map in N. destruct (nth_error (f_pages f) k) as [p|] eqn:P; [|discriminate]. cbn [option_map] in N.
  assert (Z.to_nat (p_nent p) = n) by congruence. destruct (page_nth_ok _ _ _ _ G P) as (_ & _ & LE & _). pose proof (nent_bound _ _ _ G P). unfold EPP in LE.
  destruct (nth_error (p_ents p) r) as [e|] eqn:E. 2: { apply nth_error_None in E. lia. }
  rewrite (ent_some f k r p e FI P ltac:(lia) E). unfold entry_words. rewrite P. f_equal. symmetry. apply nth_error_nth. exact E.
Qed.

Lemma filter_ext_in' {A} (P Q : A -> bool) l : (forall x, In x l -> P x = Q x) -> filter P l = filter Q l.
Proof. induction l; intros H; [reflexivity|]. cbn. rewrite H by (left; reflexivity). rewrite IHl; [reflexivity|]. intros. apply H. right. assumption. Qed.

(** The matching records of a file, by handle. *)
Definition kp_matching (f : fte) (i : nat) (filt : Z -> bool) (MT : list Z -> bool) : list Z :=
  map (fun s => rec_handle i (fst s) (snd s))
      (filter (fun s => live_entry (entry_words f (fst s) (snd s)) && MT (entry_words f (fst s) (snd s)) && filt (rec_handle i (fst s) (snd s))) (positions (page_sizes f))).
Definition matching (f : fte) (i : nat) (filt : Z -> bool) (primk msk : list Z) : list Z := kp_matching f i filt (keys_eq (nkeys f) primk msk).

Lemma ent_shape f k r e : finv f -> ent f k r = Some e -> length e = (2 * f_plen f)%nat /\ all_words e.
Proof.
  intros [G I] E. unfold ent, entry_at in E. destruct (nth_error (nents (f_pages f)) k) as [m|]; [|discriminate].
  destruct (nth_error (f_pages f) k) as [p|] eqn:P; [|discriminate]. destruct (r <? m)%nat; [|discriminate]. rename E into X.
  pose proof (g_pages _ _ G) as GP. rewrite Forall_forall in GP. destruct (GP p (nth_error_In _ _ P)) as (_ & _ & _ & F). rewrite Forall_forall in F. apply (F e (nth_error_In _ _ X)).
Qed.

Lemma kp_enum junk filt iun primk nprim msk n kp MT : forall w i f, file_index w iun = Some i -> w_file w i = Some f -> fok f -> f_kp f = kp -> w_seq w = false ->
  (forall j g, w_file w j = Some g -> f_iun g = iun -> j = i) -> (1 <= i < MAX_XDF_FILES)%nat ->
  nprim <> 0 -> (forall g, fok g -> f_kp g = kp -> f_hdr g = f_hdr f -> f_plen g = f_plen f -> exists g1, aimed junk g primk nprim msk g1 /\ aims_to f MT g1) ->
  (length (f_pages f) <= n)%nat -> forall next : bool,
  exists w', enumerates (fun w h => if next && negb (h =? 0) then xdfloc2 n junk filt w iun (-1) [] 0 None else xdfloc2 n junk filt w iun h primk nprim msk)
                        w 0 (kp_matching f i filt MT) w'.
Proof.
  intros w i f FX F FK KP SQ UNQ IR NP AIM FUEL next. pose proof (fo_inv _ FK) as FI. pose proof FI as [G I]. pose proof (g_np _ _ G) as NPG.
  set (ns := nents (f_pages f)). assert (LN : length ns = length (f_pages f)) by (unfold ns, nents; apply map_length).
  set (H := fun s : nat * nat => live_entry (entry_words f (fst s) (snd s)) && MT (entry_words f (fst s) (snd s)) && filt (rec_handle i (fst s) (snd s))).
  set (Q0 := fun (w : world) (g : fte) => fok g /\ f_kp g = kp /\ f_hdr g = f_hdr f /\ f_pages g = f_pages f /\ f_plen g = f_plen f /\ file_index w iun = Some i /\ w_seq w = false).
  set (Q := fun (w : world) (g : fte) => Q0 w g /\ aims_to f MT g).
  assert (HN : forall k r m, nth_error ns k = Some m -> (r < m)%nat ->
     0 < hnd i (k, r) /\ (forall w, w_seq w = false -> hidx w (hnd i (k, r)) = i) /\ hpage (hnd i (k, r)) = k /\ hrec (hnd i (k, r)) = r).
  { intros k r m N R. pose proof (ent_words f k r m FI N R) as E. destruct (ent_bounds _ _ _ _ FI E).
    change (hnd i (k, r)) with (rec_handle i k r).
    destruct (rec_handle_dec w i k r SQ ltac:(lia) ltac:(lia) ltac:(lia)) as (A & B & C & D). split.
    - unfold rec_handle. unfold MAX_XDF_FILES in IR. rewrite make_rnd_sum by lia. lia.
    - split; [|auto]. intros w0 S0. apply (rec_handle_dec w0 i k r S0); lia. }
  assert (HITS : forall g, f_pages g = f_pages f -> f_plen g = f_plen f -> aims_to f MT g -> forall s, In s (after ns 0 0) \/ (exists k r, In s (after ns k r)) -> hit filt i g s = H s).
  { intros g PG LG AG [k r] IN. assert (exists m, nth_error ns k = Some m /\ (r < m)%nat) as (m & N & R) by (destruct IN as [IN|(? & ? & IN)]; eapply after_in; exact IN).
    pose proof (ent_words f k r m FI N R) as E. destruct (ent_shape _ _ _ _ FI E) as [LE WE]. rewrite (hit_kp filt i f g MT k r _ FI AG PG LG E LE WE). reflexivity. }
  assert (MS : forall x y, others x y i -> forall fx fy, w_file x i = Some fx -> w_file y i = Some fy -> f_iun fy = f_iun fx -> file_index y iun = file_index x iun).
  { intros x y [_ O] fx fy X Y IU. unfold file_index. apply find_ext. intros j _. destruct (Nat.eq_dec j i) as [->|N]; [rewrite X, Y, IU; reflexivity|]. rewrite O by exact N. reflexivity. }
  unfold kp_matching. rewrite <- slots_positions. change (slots f) with (slots_from 0 ns). rewrite <- after_start. fold H.
  change (fun s : nat * nat => rec_handle i (fst s) (snd s)) with (fun s => hnd i s).
  edestruct (enum_ind (fun w h => if next && negb (h =? 0) then xdfloc2 n junk filt w iun (-1) [] 0 None else xdfloc2 n junk filt w iun h primk nprim msk) i ns H Q0 Q) as (w' & E & _).
  - intros w0 g h k r F0 K PO.
    assert (QB : Q0 w0 g) by (destruct PO as [[A _]|[[A _] _]]; exact A). pose proof QB as (GK & GP & GHD & GG & GL & GX & GS). pose proof (fo_inv _ GK) as GI.
    assert (NSG : nents (f_pages g) = ns) by (rewrite GG; reflexivity).
    destruct (next && negb (h =? 0)) eqn:MODE.
    + apply andb_prop in MODE. destruct MODE as [_ HZ]. apply negb_true_iff, Z.eqb_neq in HZ. destruct PO as [(_ & Z0 & _)|([_ AG] & r' & -> & HH & H0 & CU & _)]; [contradiction|].
      destruct (xdfloc2_spec n junk filt w0 iun (-1) [] 0 None i g g k (S r') GX F0 GI) as (w1 & X & O & F1); [reflexivity|apply AG| |rewrite GG; exact FUEL|].
      { apply start_next; [rewrite GG, <- LN; exact K|exact CU]. }
      cbv zeta in *. rewrite NSG in *. rewrite (find_ext (hit filt i g) H) in * by (intros s IN; apply HITS; eauto).
      assert (fok (f_setcur g (snd (found_cur i g (find H (after ns k (S r'))))))) as FK1.
      { eapply fok_stat; [exact GK|apply (quiet_cur _ _ GI)|apply finv_cur; exact GI|]. intros NW. destruct (fo_ro _ GK NW) as [M IM]. split; [exact M|]. exact IM. }
      eexists w1, _. split; [exact X|]. split; [exact F1|]. split; [|reflexivity]. split; [|exact AG].
      split; [exact FK1|]. split; [exact GP|]. split; [exact GHD|]. split; [exact GG|]. split; [exact GL|]. split; [rewrite (MS w0 w1 O _ _ F0 F1 eq_refl); exact GX|]. destruct O as [O _]. congruence.
    + destruct (AIM g GK GP GHD GL) as (g1 & AM & AG).
      destruct (aimed_quiet _ _ _ _ _ _ GI AM) as (GI1 & ST1 & _).
      assert (EQS : f_pages g1 = f_pages g /\ f_plen g1 = f_plen g /\ f_kp g1 = f_kp g /\ f_iun g1 = f_iun g /\ f_modified g1 = f_modified g /\ f_disk g1 = f_disk g /\ f_hdr g1 = f_hdr g).
      { unfold aimed in AM. rewrite (proj2 (Z.eqb_neq _ _) NP) in AM. destruct AM as (t & m & _ & ->). auto 10. }
      destruct EQS as (EP & EL & EK & EI & EM & ED & EH).
      destruct (xdfloc2_spec n junk filt w0 iun h primk nprim msk i g g1 k r GX F0 GI AM (proj1 AG)) as (w1 & X & O & F1); [|rewrite GG; exact FUEL|].
      { destruct PO as [(_ & -> & -> & ->)|(_ & r' & -> & -> & H0 & _ & m & N & R)]; [constructor|].
        destruct (HN k r' m N R) as (A & B & C & D). rewrite <- D at 2. rewrite <- C at 2. apply start_h; [exact A|apply B; exact GS|]. rewrite C, GG, <- LN. exact K. }
      cbv zeta in *. rewrite NSG in *. rewrite (find_ext (hit filt i g1) H) in * by (intros s IN; apply HITS; [congruence|congruence|exact AG|eauto]).
      set (cu := snd (found_cur i g (find H (after ns k r)))) in *.
      assert (fok (f_setcur g1 cu)) as FK1.
      { eapply fok_stat; [exact GK|exact (stat_trans _ _ _ ST1 (proj1 (proj2 (quiet_cur g1 cu GI1))))|apply finv_cur; exact GI1|].
        intros NW. destruct (fo_ro _ GK NW) as [M (f0 & C0 & D0 & A0)]. cbn [f_setcur f_modified f_disk]. split; [congruence|]. exists f0. split; [exact C0|]. split; [congruence|].
        intros a b. rewrite A0. symmetry. unfold abs, ent, rec_data. cbn [f_setcur f_pages f_disk]. rewrite EP, ED. reflexivity. }
      eexists w1, _. split; [exact X|]. split; [exact F1|]. split; [|reflexivity]. split; [|exact AG].
      split; [exact FK1|]. cbn [f_setcur f_kp f_pages f_plen]. split; [congruence|]. split; [cbn [f_setcur f_hdr]; congruence|]. split; [congruence|]. split; [congruence|].
      split; [rewrite (MS w0 w1 O _ _ F0 F1 EI); exact GX|]. destruct O as [O _]. congruence.
  - intros k r m N R. apply (HN k r m N R).
  - lia.
  - exact F.
  - unfold Q0. auto 10.
  - exists w'. exact E.
Qed.

Lemma std_enum junk filt iun primk nprim msk n : forall w i f, file_index w iun = Some i -> w_file w i = Some f -> fok f -> f_kp f = std_kp -> w_seq w = false ->
  (forall j g, w_file w j = Some g -> f_iun g = iun -> j = i) -> (1 <= i < MAX_XDF_FILES)%nat ->
  nprim <> 0 -> (nkeys f <= length primk)%nat -> (nkeys f <= length msk)%nat -> all_words msk -> (length (f_pages f) <= n)%nat -> forall next : bool,
  exists w', enumerates (fun w h => if next && negb (h =? 0) then xdfloc2 n junk filt w iun (-1) [] 0 None else xdfloc2 n junk filt w iun h primk nprim (Some msk))
                        w 0 (matching f i filt primk msk) w'.
Proof.
  intros w i f FX F FK KP SQ UNQ IR NP LP LM WM FUEL next. apply (kp_enum junk filt iun primk nprim (Some msk) n std_kp); auto.
  intros g GK GP GHD GL. assert (NK : nkeys g = nkeys f) by (unfold nkeys; rewrite GL; reflexivity).
  destruct (std_aimed junk g primk nprim msk GK GP NP) as (g1 & AM & AG); [rewrite NK; exact LP|rewrite NK; exact LM|exact WM|].
  exists g1. split; [exact AM|]. apply std_aims_to; [apply (fo_inv _ FK)|]. unfold aims in *. rewrite <- NK. exact AG.
Qed.
