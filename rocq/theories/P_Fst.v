(** RPN standard files: properties C37 to C40 and C49.

    [std_file f]: the layout of the keys is that of standard files.
    [opened s p i f]: file [p] is open as entry [i], with state [f].
    [args_ok], [field_ok], [space]: arguments in the domain of fstecr, an array
    large enough, and a file that stays below 2^31 words.
    [hist (spares p k r) s l s']: any calls on any files, closing and opening
    included, but those that rewrite or delete this record or make the file
    anew. [found filt q i f]: the records a search [q] should give, in order. *)
From Coq Require Import ZArith List Lia Lra Bool Reals.
From Flocq Require Import Core.
From Verif Require Import P_FloatPack Bits BitIO Handles WaFile Xdf XdfLib XdfSearch XdfOpen XdfInv XdfHist XdfSpec XdfAbs XdfSys XdfSys2 XdfThm XdfThm2 XdfThm3 XdfPut2 XdfCreate XdfDemo Dates DatesSpec SpecPack Fst FstSpec FstFacts FstSearch FstThm FstThm2 FstLuk FstInl FstStd FstDemo.
Import ListNotations.
Open Scope Z_scope.

(** ** C37 *)

(** A file made by c_fstouv has the layout of standard files whenever c_fstouv
    has it open, after any calls but making it anew. *)
Theorem c37_standard : forall s junk p iun s1 l s2 j g, reach s -> step (fst_create junk p iun) s = Some (0, s1) -> hist (keeps_file p) s1 l s2 ->
  opened s2 p j g -> f_kp g = std_kp -> std_file g.
Proof.
  intros s junk p iun s1 l s2 j g RS ST H OP KG. pose proof (reach_wf _ RS) as W.
  assert (OK : ok_op s (fst_create junk p iun)) by (split; [apply std_keys_ok|apply std_kp_ok]).
  pose proof (proj1 (step_spec _ _ _ _ W OK ST)) as W1. destruct (created_std _ _ _ _ _ W ST) as [SZ _].
  apply (sized_std s2 p j g); [apply (hist_wf _ _ _ _ H W1)|eapply (hist_sized (keeps_file p)); eauto|exact OP|exact KG].
Qed.
Print Assumptions c37_standard.

(** fstprm gives the parameters given to fstecr: the same for numbers, text in
    upper case and blank filled, dates as [dates_kept] says. *)
Theorem c37_params : forall orc junk iun a fld rewrit s s1 p i f, reach s -> opened s p i f -> std_file f -> f_iun f = iun -> args_ok a -> field_ok a fld -> space f a ->
  fstecr orc junk iun a fld rewrit s = Some (0, s1) ->
  exists k r d, s_fs s1 p = Opened i /\ describes a d /\
    forall l s2 j g, hist (spares p k r) s1 l s2 -> opened s2 p j g -> f_kp g = std_kp -> fstprm (s_w s2) (rec_handle j k r) = Some (Go d).
Proof.
  intros orc junk iun a fld rewrit s s1 p i f RS OP SF IU AO FO SP FE.
  destruct (write_all _ _ _ _ _ _ _ _ _ _ _ f (reach_wf _ RS) OP SF IU AO FO SP FE) as (k & r & d & P1 & DS & PM & _). exists k, r, d. auto.
Qed.
Print Assumptions c37_params.

(** ** C38 *)

(** fstinf, then fstsui until nothing is found, or fstinfx with the last handle:
    both list the records wanted, each once, in the order of the directory,
    with their dimensions. *)
Theorem c38_search : forall next junk filt q s p i f, reach s -> opened s p i f -> std_file f -> query_ok q -> (q_datev q = -1 \/ dates_coded f) ->
  let call := fun s h => if h =? 0 then fstinf junk filt (f_iun f) q s else if next : bool then fstsui junk filt (f_iun f) s else fstinfx junk filt h (f_iun f) q s in
  exists s2, lists call s 0 (map (fun x => (rec_handle i (fst x) (snd x), record_dims f (fst x) (snd x))) (found filt q i f)) s2.
Proof.
  intros next junk filt q s p i f RS OP SF QO DC call. destruct (search_lists next junk filt q s p i f (reach_wf _ RS) OP SF QO DC) as (s2 & L & _). exists s2. exact L.
Qed.
Print Assumptions c38_search.

(** A sequence of calls has one result. *)
Theorem c38_unique : forall call s h l s1, lists call s h l s1 -> forall l' s1', lists call s h l' s1' -> l' = l /\ s1' = s1.
Proof.
  intros call s h l s1 L. induction L as [s h s' C|s h h' d s' l s'' C HP L IH]; intros l' s1' L'; inversion L' as [x y z C' |x y h2 d2 s2 l2 s3 C' HP' L2]; subst.
  - split; congruence.
  - congruence.
  - congruence.
  - assert (h2 = h' /\ d2 = d /\ s2 = s') as (-> & -> & ->) by (repeat split; congruence). destruct (IH _ _ L2) as [-> ->]. auto.
Qed.
Print Assumptions c38_unique.

(** What searches look at is what fstprm gives. *)
Theorem c38_label : forall s p i f k r d, reach s -> opened s p i f -> f_kp f = std_kp -> In (k, r) (positions (page_sizes f)) -> fstprm (s_w s) (rec_handle i k r) = Some (Go d) ->
  label_of d = record_label f k r /\ (d_ni d, d_nj d, d_nk d) = record_dims f k r.
Proof.
  intros s p i f k r d RS [P F] KP IN PM. pose proof (reach_wf _ RS) as W. rewrite (positions_ent f k r (fo_inv _ (wf_fok _ W i f F))) in IN.
  unfold fstprm in PM. rewrite (xdfprm_entry _ _ _ _ _ _ _ W P F KP IN) in PM. cbn [bind] in PM. unfold record_label, record_dims. set (ks := keys_of (skipn 2 (entry_words f k r))) in *.
  unfold crack in PM. destruct (2 ^ 31 <=? k_deet ks * k_npas ks); [discriminate|]. cbn [bind] in PM. assert (GO : forall x y : desc, Some (Go x) = Some (Go y) -> y = x) by (intros x y E; congruence). apply GO in PM. rewrite PM. split; reflexivity.
Qed.
Print Assumptions c38_label.

(** fstinl lists the handles of the first [nmax] of them; it returns 0, or minus
    their number if there are more. *)
Theorem c38_list : forall n junk filt q s p i f nmax, reach s -> opened s p i f -> std_file f -> query_ok q -> (q_datev q = -1 \/ dates_coded f) ->
  (1 <= nmax)%nat -> (length (found filt q i f) < n)%nat ->
  exists s3, fstinl n junk filt (f_iun f) q nmax s =
    Some (if (nmax <? length (found filt q i f))%nat then - Z.of_nat (length (found filt q i f)) else 0,
          map (fun x => rec_handle i (fst x) (snd x)) (firstn nmax (found filt q i f)), s3).
Proof. intros n junk filt q s p i f nmax RS. apply fstinl_found. apply reach_wf. exact RS. Qed.
Print Assumptions c38_list.

(** ** C39 *)

(** A record written is found by the searches that its parameters meet and by no
    others; every other record is found by the same searches as before, but the
    one that was rewritten; the record is a new one or takes the place of the
    one rewritten. *)
Theorem c39_found : forall orc junk iun a fld rewrit s s1 p i f f1, reach s -> opened s p i f -> std_file f -> f_iun f = iun -> args_ok a -> field_ok a fld -> space f a ->
  fstecr orc junk iun a fld rewrit s = Some (0, s1) -> opened s1 p i f1 ->
  let old := if rewrit then hd_error (found (fun _ => true) (same_record a) i f) else None in
  exists k r d, describes a d /\
    (~ In (k, r) (positions (page_sizes f)) \/ old = Some (k, r)) /\
    (forall l s2 j g, hist (spares p k r) s1 l s2 -> opened s2 p j g -> f_kp g = std_kp -> fstprm (s_w s2) (rec_handle j k r) = Some (Go d)) /\
    (forall filt q x, In x (found filt q i f1) <->
       x = (k, r) /\ wanted q (label_of d) = true /\ filt (rec_handle i k r) = true \/
       x <> (k, r) /\ old <> Some x /\ In x (found filt q i f)).
Proof.
  intros orc junk iun a fld rewrit s s1 p i f f1 RS OP SF IU AO FO SP FE OP1 old.
  destruct (write_all _ _ _ _ _ _ _ _ _ _ _ f1 (reach_wf _ RS) OP SF IU AO FO SP FE) as (k & r & d & P1 & DS & PM & _ & FD). exists k, r, d. destruct (FD OP1) as [A B].
  split; [exact DS|]. split; [exact A|]. split; [exact PM|exact B].
Qed.
Print Assumptions c39_found.

(** Every other record of every open file reads the same. *)
Theorem c39_others : forall orc junk iun a fld rewrit s s1 p i f q iq j t ws, reach s -> opened s p i f -> std_file f -> f_iun f = iun -> args_ok a -> field_ok a fld -> space f a ->
  fstecr orc junk iun a fld rewrit s = Some (0, s1) -> has_entry s q iq j t -> reads (s_w s) (rec_handle iq j t) ws ->
  ~ (q = p /\ (if rewrit then hd_error (found (fun _ => true) (same_record a) i f) else None) = Some (j, t)) ->
  reads (s_w s1) (rec_handle iq j t) ws.
Proof. intros orc junk iun a fld rewrit s s1 p i f q iq j t ws RS. apply others_written. apply reach_wf. exact RS. Qed.
Print Assumptions c39_others.

(** After writing the file is still open, and the state is one that calls can
    lead to: these theorems apply to what follows. *)
Theorem c39_reach : forall orc junk iun a fld rewrit s s1 p i f, reach s -> opened s p i f -> std_file f -> f_iun f = iun -> args_ok a -> field_ok a fld -> space f a ->
  fstecr orc junk iun a fld rewrit s = Some (0, s1) -> reach s1 /\ exists f1, opened s1 p i f1 /\ std_file f1 /\ f_iun f1 = iun.
Proof.
  intros orc junk iun a fld rewrit s s1 p i f RS OP SF IU AO FO SP FE.
  destruct (fstecr_written _ _ _ _ _ _ _ _ _ _ _ (reach_wf _ RS) OP SF IU AO FO SP FE) as (_ & k & r & e & dat & WR). split; [apply WR; exact RS|].
  eapply wrote_std; eauto using reach_wf.
Qed.
Print Assumptions c39_reach.

(** ** C40 *)

(** fstluk reads the field that fstecr was given, then and after any calls, when
    no compression is asked for: the same words for data types 0, 2, 4 and 5,
    numbers near those given for types 1 and 6. *)
Theorem c40_field : forall orc junk iun a fld rewrit s s1 p i f, reach s -> opened s p i f -> std_file f -> f_iun f = iun -> args_ok a -> field_ok a fld -> field_fits a fld -> space f a ->
  fstecr orc junk iun a fld rewrit s = Some (0, s1) -> zips a = false ->
  exists k r d, describes a d /\ d_datyp d = kind a /\
    forall junk' l s2 j g dst, hist (spares p k r) s1 l s2 -> opened s2 p j g -> f_kp g = std_kp -> dst_ok a dst ->
      fstprm (s_w s2) (rec_handle j k r) = Some (Go d) /\
      exists dst', fstluk orc junk' (s_w s2) (rec_handle j k r) dst = Some (rec_handle j k r, Some (a_ni a, a_nj a, Z.max 1 (a_nk a)), dst') /\ reads_field a fld dst dst'.
Proof.
  intros orc junk iun a fld rewrit s s1 p i f RS OP SF IU AO FO FF SP FE ZA.
  destruct (write_all _ _ _ _ _ _ _ _ _ _ _ f (reach_wf _ RS) OP SF IU AO FO SP FE) as (k & r & d & P1 & DS & PM & LK & _). exists k, r, d. split; [exact DS|].
  split; [destruct DS as (_ & (_ & [DT|[ZT _]]) & _); [exact DT|congruence]|].
  intros junk' l s2 j g dst H OP2 KG DO. split; [eapply PM; eauto|]. eapply LK; eauto. split; intros X; congruence.
Qed.
Print Assumptions c40_field.

(** ** C49 *)

(** The same when compression is asked for, for the records that [legible] tells.
    Missing: the others, which the theorems below show to be misread. *)
Theorem c49_compressed_partial : forall orc junk iun a fld rewrit s s1 p i f, reach s -> opened s p i f -> std_file f -> f_iun f = iun -> args_ok a -> field_ok a fld -> field_fits a fld -> space f a ->
  fstecr orc junk iun a fld rewrit s = Some (0, s1) ->
  exists k r d, describes a d /\
    (legible a fld d -> forall junk' l s2 j g dst, hist (spares p k r) s1 l s2 -> opened s2 p j g -> f_kp g = std_kp -> dst_ok a dst ->
      fstprm (s_w s2) (rec_handle j k r) = Some (Go d) /\
      exists dst', fstluk orc junk' (s_w s2) (rec_handle j k r) dst = Some (rec_handle j k r, Some (a_ni a, a_nj a, Z.max 1 (a_nk a)), dst') /\ reads_field a fld dst dst').
Proof.
  intros orc junk iun a fld rewrit s s1 p i f RS OP SF IU AO FO FF SP FE.
  destruct (write_all _ _ _ _ _ _ _ _ _ _ _ f (reach_wf _ RS) OP SF IU AO FO SP FE) as (k & r & d & P1 & DS & PM & LK & _). exists k, r, d. split; [exact DS|].
  intros LE junk' l s2 j g dst H OP2 KG DO. split; [eapply PM; eauto|]. eapply LK; eauto.
Qed.
Print Assumptions c49_compressed_partial.

(** ** These hypotheses are met *)

Lemma demo_args_ok n : Forall printable n -> args_ok (demo_args demo_date n).
Proof.
  intros PN. split; [cbn; lia|]. split.
  - repeat split; cbn [demo_args a_typvar a_nomvar a_etiket a_grtyp]; try exact PN; repeat (apply Forall_cons || apply Forall_nil); unfold printable; lia.
  - split; [cbn; lia|]. right. exists {| yr := 2020; mon := 1; day := 15; hr := 12; mnt := 0; sec := 0 |}, {| yr := 2020; mon := 1; day := 15; hr := 18; mnt := 0; sec := 0 |}.
    assert (D : is_date 2020 1 15) by (unfold is_date; change (month_len 2020 1) with 31; lia). split; [split; [|vm_compute; reflexivity]|split].
    + split; [split; [exact D|unfold is_time; cbn; lia]|left; split; reflexivity].
    + split; [split; [exact D|unfold is_time; cbn; lia]|left; split; reflexivity].
    + left. split; [split; reflexivity|]. split; [split; reflexivity|]. split; [intros X; apply (f_equal yr) in X; discriminate X|]. split; [intros X; apply (f_equal yr) in X; discriminate X|]. vm_compute. reflexivity.
Qed.
Lemma demo_field_ok n : field_ok (demo_args demo_date n) demo_field /\ field_fits (demo_args demo_date n) demo_field.
Proof.
  split; [split; [repeat (apply Forall_cons || apply Forall_nil); lia|split; [vm_compute; discriminate|intros T; exfalso; revert T; vm_compute; discriminate]]|]. split; [intros T j J|split; intros T; exfalso; revert T; vm_compute; discriminate].
  change (Z.to_nat _) with 4%nat in J. change (width _) with 16. do 4 (destruct j as [|j]; [vm_compute; reflexivity|]). lia.
Qed.
Lemma demo_space f n : std_file f -> hget (f_hdr f) H_FSIZ < 10000 -> space f (demo_args demo_date n).
Proof.
  intros (_ & PL & _) H. split; [|cbn [demo_args a_datyp]; lia]. unfold room, fsize. rewrite PL. change (field_words (demo_args demo_date n)) with 6. assert (page_wlen 9 < 100000) by (vm_compute; reflexivity). lia.
Qed.
Example fst_demo : exists s s1 i f f1, reach s /\ opened s 0 i f /\ std_file f /\ f_iun f = 10 /\ reach s1 /\ opened s1 0 i f1 /\ std_file f1 /\
  fstecr no_orc zeros 10 (demo_args demo_date tt) demo_field false s = Some (0, s1) /\ space f (demo_args demo_date tt) /\ args_ok (demo_args demo_date tt) /\
  field_ok (demo_args demo_date tt) demo_field /\ field_fits (demo_args demo_date tt) demo_field.
Proof.
  assert (R0 : reach init_sys) by (exists []; constructor).
  assert (X : match step (fst_create zeros 0 10) init_sys with
              | Some (c, s) => match s_fs s 0%nat with
                | Opened i => match w_file (s_w s) i with
                  | Some f => Some (c, f_iun f, hget (f_hdr f) H_FSIZ <? 10000, code (fstecr no_orc zeros 10 (demo_args demo_date tt) demo_field false s))
                  | None => None end
                | _ => None end
              | None => None end = Some (0, 10, true, Some 0)) by (vm_compute; reflexivity).
  destruct (step (fst_create zeros 0 10) init_sys) as [[c s]|] eqn:ST; [|discriminate]. destruct (s_fs s 0%nat) as [| |i] eqn:P; try discriminate. destruct (w_file (s_w s) i) as [f|] eqn:F; [|discriminate].
  assert (c = 0 /\ f_iun f = 10 /\ (hget (f_hdr f) H_FSIZ <? 10000) = true /\ code (fstecr no_orc zeros 10 (demo_args demo_date tt) demo_field false s) = Some 0) as (-> & IU & SZ & CD) by (repeat split; congruence).
  clear X. destruct (code_after _ _ CD) as (s1 & W). destruct (created_std _ _ _ _ _ (reach_wf _ R0) ST) as (_ & i' & f' & OP & KP).
  assert (OP' : opened s 0 i f) by (split; assumption). assert (i' = i) as -> by (destruct OP; congruence). assert (f' = f) as -> by (destruct OP; congruence). 
  assert (SF : std_file f) by (eapply (c37_standard init_sys zeros 0%nat 10 s [] s); eauto; constructor).
  assert (RS : reach s). { eexists. eapply hist_cons; [|exact Logic.I|exact ST|constructor]. split; [apply std_keys_ok|apply std_kp_ok]. }
  assert (AO : args_ok (demo_args demo_date tt)) by (apply demo_args_ok; repeat (apply Forall_cons || apply Forall_nil); unfold printable; lia).
  pose proof (demo_space f tt SF (proj1 (Z.ltb_lt _ _) SZ)) as SP. destruct (demo_field_ok tt) as [FO FF].
  destruct (c39_reach _ _ _ _ _ _ _ _ _ _ _ RS OP SF IU AO FO SP W) as (R1 & f1 & OP1 & SF1 & _). exists s, s1, i, f, f1. auto 20.
Qed.
(** A second record; the searches of both, and what they hold. *)
Example fst_demo2 : code (wr (demo_args demo_date gz) fst1 false) = Some 0 /\
  option_map fst (fstinf zeros (fun _ => true) 10 (named tt) fst2) = Some (1, Some (2, 2, 1)) /\
  option_map fst (fstinf zeros (fun _ => true) 10 (named gz) fst2) = Some (1025, Some (2, 2, 1)) /\
  option_map fst (fstinl 3 zeros (fun _ => true) 10 any_query 1 fst2) = Some (-2, [1]) /\
  option_map fst (fstinl 3 zeros (fun _ => true) 10 any_query 5 fst2) = Some (0, [1; 1025]) /\
  fstluk no_orc zeros (s_w fst2) 1025 (repeat 7 6) = Some (1025, Some (2, 2, 1), [1; 65535; 3; 4; 7; 7]).
Proof. repeat split; vm_compute; reflexivity. Qed.
(** Rewriting the first: its place is taken. *)
Example fst_demo3 : code (wr (demo_args demo_date tt) fst2 true) = Some 0 /\
  option_map fst (fstinl 3 zeros (fun _ => true) 10 any_query 5 (after (wr (demo_args demo_date tt) fst2 true))) = Some (0, [1; 1025]).
Proof. split; vm_compute; reflexivity. Qed.

(** Data types 1, 6, 5, 130 and 129. *)
Example trip_1 : trip (type_args (-16) 1 2 2 1) (reals 9 4) 5 = Some (0, Some (0, [1]), Some 1, Some (1, Some (2, 2, 1), reals 9 4 ++ [7])).
Proof. vm_compute; reflexivity. Qed.
Example trip_6 : trip (type_args (-12) 6 2 2 1) (reals 9 4) 5 = Some (0, Some (0, [1]), Some 6, Some (1, Some (2, 2, 1), reals 9 4 ++ [7])).
Proof. vm_compute; reflexivity. Qed.
Example trip_5 : trip (type_args (-32) 1 2 2 1) (reals 9 4) 5 = Some (0, Some (0, [1]), Some 5, Some (1, Some (2, 2, 1), reals 9 4 ++ [7])).
Proof. vm_compute; reflexivity. Qed.
Example trip_130 : trip (type_args (-16) 130 8 4 1) (ramp 32) 33 = Some (0, Some (0, [1]), Some 130, Some (1, Some (8, 4, 1), ramp 32 ++ [7])).
Proof. vm_compute; reflexivity. Qed.
Example trip_129 : trip (type_args (-16) 129 8 8 1) (reals 4 64) 65 = Some (0, Some (0, [1]), Some 129, Some (1, Some (8, 8, 1), reals 4 64 ++ [7])).
Proof. vm_compute; reflexivity. Qed.

(** The hypotheses of c40_field and c49_compressed_partial are met by these. *)
Lemma type_args_ok npak datyp ni nj nk : 0 <= datyp < 256 -> args_ok (type_args npak datyp ni nj nk).
Proof.
  intros D. destruct (demo_args_ok tt) as (_ & A & B & C); [repeat (apply Forall_cons || apply Forall_nil); unfold printable; lia|]. split; [exact D|]. split; [exact A|]. split; [exact B|exact C].
Qed.
Lemma reals_value k : (k < 128)%nat -> number32 (0x3F800000 + 65536 * Z.of_nat k) /\ ieee32 (0x3F800000 + 65536 * Z.of_nat k) = (1 + INR k / 128)%R.
Proof.
  intros K. set (w := 0x3F800000 + 65536 * Z.of_nat k). assert (E : w / 2 ^ 23 = 127 /\ w mod 2 ^ 23 = 65536 * Z.of_nat k) by (unfold w; split; Z.div_mod_to_equations; lia). destruct E as [E1 E2].
  split; [split; [unfold w; lia|rewrite E1; discriminate]|]. unfold ieee32. rewrite E1, E2. change (127 mod 256) with 127. cbn [Z.eqb]. rewrite (proj2 (Z.leb_gt (2 ^ 31) w)) by (unfold w; lia).
  rewrite INR_IZR_INZ. replace (2 ^ 23 + 65536 * Z.of_nat k) with (65536 * (128 + Z.of_nat k)) by lia. rewrite mult_IZR, plus_IZR. change (127 - 150) with (-23). change (bpow radix2 (-23)) with (/ IZR 8388608)%R. lra.
Qed.
Lemma reals_elt m n k : (k < n)%nat -> elt (reals m n) 1 k = 0x3F800000 + 65536 * Z.of_nat (Nat.min m k).
Proof. intros K. unfold elt, reals. rewrite Nat.mul_1_r. set (g := fun k => 0x3F800000 + 65536 * Z.of_nat (Nat.min m k)). rewrite (nth_indep _ 0 (g 0%nat)) by (rewrite map_length, seq_length; lia). rewrite (map_nth g), seq_nth by lia. reflexivity. Qed.
Lemma reals_between m n k : (k < n <= 128)%nat -> number32 (elt (reals m n) 1 k) /\ (1 <= ieee32 (elt (reals m n) 1 k) <= 2)%R.
Proof.
  intros K. rewrite reals_elt by lia. destruct (reals_value (Nat.min m k) ltac:(lia)) as [A B]. split; [exact A|]. rewrite B. pose proof (pos_INR (Nat.min m k)). assert (INR (Nat.min m k) <= 128)%R by (rewrite INR_IZR_INZ; apply IZR_le; lia). lra.
Qed.
Lemma reals_ok a m n : (n <= 128)%nat -> Z.to_nat (field_size a) = n -> 1 <= field_size a -> kind a = 1 \/ kind a = 5 \/ kind a = 6 -> field_ok a (reals m n) /\ field_fits a (reals m n).
Proof.
  intros N FS F1 K. assert (L : length (reals m n) = n) by (unfold reals; rewrite map_length, seq_length; reflexivity).
  assert (NU : Forall number32 (reals m n)). { apply Forall_forall. intros x X. apply in_map_iff in X as (k & <- & I). apply in_seq in I. apply reals_value. lia. }
  split; split.
  - apply Forall_forall. intros x X. rewrite Forall_forall in NU. apply (NU x X).
  - split; [lia|]. intros _ j J. rewrite FS in J. destruct (reals_between m n j ltac:(lia)) as [A B]. split; [exact A|]. rewrite Rabs_pos_eq by lra. apply Rle_trans with 2%R; [lra|]. apply (IZR_le 2 (10 ^ 38)). vm_compute. discriminate.
  - intros T. exfalso. lia.
  - split; [intros T; exfalso; lia|]. intros _. rewrite FS, firstn_all2 by lia. split; [rewrite L; lia|]. split; [exact NU|]. left. exists (elt (reals m n) 1 0). split.
    + apply nth_In. lia.
    + destruct (reals_between m n 0 ltac:(lia)) as [_ B]. rewrite Rabs_pos_eq by lra. apply Rle_trans with 1%R; [|lra]. change 1%R with (bpow radix2 0). apply bpow_le. lia.
Qed.
Lemma ramp_elt n k : (k < n)%nat -> elt (ramp n) 1 k = 10 + Z.of_nat k.
Proof. intros K. unfold elt, ramp. rewrite Nat.mul_1_r. rewrite (nth_indep _ 0 ((fun k => 10 + Z.of_nat k) 0%nat)) by (rewrite map_length, seq_length; lia). rewrite (map_nth (fun k => 10 + Z.of_nat k)), seq_nth by lia. reflexivity. Qed.
Lemma ints_ok a fld : words_ok fld -> Z.to_nat (field_size a) = length fld -> 1 <= field_size a -> kind a = 2 -> (forall j, (j < length fld)%nat -> elt fld 1 j < 2 ^ width a) -> field_ok a fld /\ field_fits a fld.
Proof.
  intros W FS F1 K V. split; [split; [exact W|split; [lia|intros T; exfalso; lia]]|]. split; [intros _ j J; rewrite FS in J; apply V; exact J|]. split; intros T; exfalso; lia.
Qed.
Lemma fst0_file : reach fst0 /\ exists i f, opened fst0 0 i f /\ std_file f /\ f_iun f = 10 /\ hget (f_hdr f) H_FSIZ < 10000.
Proof.
  assert (R0 : reach init_sys) by (exists []; constructor).
  assert (X : match step (fst_create zeros 0 10) init_sys with
              | Some (c, s) => match s_fs s 0%nat with
                | Opened i => match w_file (s_w s) i with
                  | Some f => Some (c, f_iun f, hget (f_hdr f) H_FSIZ <? 10000)
                  | None => None end
                | _ => None end
              | None => None end = Some (0, 10, true)) by (vm_compute; reflexivity).
  assert (EF : fst0 = match step (fst_create zeros 0 10) init_sys with Some (_, s) => s | None => init_sys end).
  { unfold fst0, final. cbn [run]. destruct (step (fst_create zeros 0 10) init_sys) as [[c s]|]; reflexivity. }
  rewrite EF. clear EF. destruct (step (fst_create zeros 0 10) init_sys) as [[c s]|] eqn:ST; [|discriminate]. destruct (s_fs s 0%nat) as [| |i] eqn:P; try discriminate. destruct (w_file (s_w s) i) as [f|] eqn:F; [|discriminate].
  assert (c = 0 /\ f_iun f = 10 /\ (hget (f_hdr f) H_FSIZ <? 10000) = true) as (-> & IU & SZ) by (repeat split; congruence). apply Z.ltb_lt in SZ.
  clear X. destruct (created_std _ _ _ _ _ (reach_wf _ R0) ST) as (_ & i' & f' & OP & KP).
  assert (OP' : opened s 0 i f) by (split; assumption). assert (i' = i) as -> by (destruct OP; congruence). assert (f' = f) as -> by (destruct OP; congruence).
  assert (SF : std_file f) by (eapply (c37_standard init_sys zeros 0%nat 10 s [] s); eauto; constructor).
  split; [eexists; eapply hist_cons; [|exact Logic.I|exact ST|constructor]; split; [apply std_keys_ok|apply std_kp_ok]|]. exists i, f. auto.
Qed.
Lemma small_space f a : std_file f -> hget (f_hdr f) H_FSIZ < 10000 -> 0 <= field_words a < 10000 -> space f a.
Proof. intros (_ & PL & _) H B. split; [|lia]. unfold room, fsize. rewrite PL. assert (page_wlen 9 < 100000) by (vm_compute; reflexivity). lia. Qed.
Lemma trip_writes a fld n c l t x : trip a fld n = Some (c, l, t, x) -> exists s1, fstecr no_orc zeros 10 a fld false fst0 = Some (c, s1) /\ l = option_map fst (fstinl 3 zeros (fun _ => true) 10 any_query 5 s1) /\
  x = fstluk no_orc zeros (s_w s1) 1 (repeat 7 n).
Proof. unfold trip. destruct (fstecr no_orc zeros 10 a fld false fst0) as [[c' s1]|]; [|discriminate]. intros T. exists s1. inversion T. auto. Qed.
Definition wr_demo (a : fargs) (fld : list Z) : Prop := exists i f s1, reach fst0 /\ opened fst0 0 i f /\ std_file f /\ f_iun f = 10 /\ args_ok a /\ field_ok a fld /\ field_fits a fld /\ space f a /\
  fstecr no_orc zeros 10 a fld false fst0 = Some (0, s1).
Lemma wr_demo_trip a fld n l t x : args_ok a -> field_ok a fld -> field_fits a fld -> 0 <= field_words a < 10000 -> trip a fld n = Some (0, l, t, x) -> wr_demo a fld.
Proof.
  intros AO FO FF FW T. destruct fst0_file as (R & i & f & OP & SF & IU & SZ). destruct (trip_writes _ _ _ _ _ _ _ T) as (s1 & E & _). exists i, f, s1.
  split; [exact R|]. split; [exact OP|]. split; [exact SF|]. split; [exact IU|]. split; [exact AO|]. split; [exact FO|]. split; [exact FF|]. split; [apply small_space; assumption|exact E].
Qed.
Example fst_demo5 : wr_demo (type_args (-16) 1 2 2 1) (reals 9 4) /\ zips (type_args (-16) 1 2 2 1) = false.
Proof.
  destruct (reals_ok (type_args (-16) 1 2 2 1) 9 4 ltac:(lia) eq_refl ltac:(vm_compute; discriminate) (or_introl eq_refl)) as [FO FF].
  split; [|reflexivity]. refine (wr_demo_trip _ _ _ _ _ _ _ FO FF _ trip_1); [apply type_args_ok; lia|vm_compute; split; congruence].
Qed.
Example fst_demo6 : wr_demo (type_args (-16) 129 8 8 1) (reals 4 64) /\ zips (type_args (-16) 129 8 8 1) = true /\ forall d, legible (type_args (-16) 129 8 8 1) (reals 4 64) d.
Proof.
  destruct (reals_ok (type_args (-16) 129 8 8 1) 4 64 ltac:(lia) eq_refl ltac:(vm_compute; discriminate) (or_introl eq_refl)) as [FO FF].
  split; [|split; [reflexivity|]].
  - refine (wr_demo_trip _ _ _ _ _ _ _ FO FF _ trip_129); [apply type_args_ok; lia|vm_compute; split; congruence].
  - intros d. split; [intros _ _ _; split; [reflexivity|vm_compute; discriminate]|]. intros _ X. discriminate X.
Qed.

(** ** What does not hold *)

(** A date whose last digit is 8 or 9, as an old stamp with run number 8 has, is
    not kept, even when no time has elapsed. *)
Theorem c37_any_date_refuted : exists a s s1 h x, reach s /\ a_deet a = 0 /\ - 2 ^ 31 <= a_date a < 2 ^ 31 /\ fstecr no_orc zeros 10 a demo_field false s = Some (0, s1) /\
  option_map fst (fstinl 3 zeros (fun _ => true) 10 any_query 5 s1) = Some (0, [h]) /\
  option_map (fun r => match r with Go d => d_dateo d | Err _ => 0 end) (fstprm (s_w s1) h) = Some x /\ x <> a_date a.
Proof.
  set (a := mkargs (-16) 115201208 0 0 2 2 1 500 6 0 [80] tt [116] [76] 1 66051 3 4 2).
  assert (X : match fstecr no_orc zeros 10 a demo_field false fst0 with
              | Some (c, s1) => Some (c, option_map fst (fstinl 3 zeros (fun _ => true) 10 any_query 5 s1), option_map (fun r => match r with Go d => d_dateo d | Err _ => 0 end) (fstprm (s_w s1) 1))
              | None => None end = Some (0, Some (0, [1]), Some 115201210)) by (vm_compute; reflexivity).
  destruct (fstecr no_orc zeros 10 a demo_field false fst0) as [[c s1]|] eqn:W; [|discriminate]. exists a, fst0, s1, 1, 115201210.
  split; [apply final_reach; repeat (apply Forall_cons || apply Forall_nil); left; reflexivity|]. split; [reflexivity|]. split; [cbn; lia|].
  split; [rewrite W; congruence|]. split; [congruence|]. split; [congruence|discriminate].
Qed.
Print Assumptions c37_any_date_refuted.

(** Searching by date: records less than 40 s apart are not told apart. Here both
    records are listed by a search for the date of the first. *)
Theorem c38_date_refuted : exists s q, q_datev q = 439089200 /\ mode_3 20200115 12000000 = Some 439089200 /\ mode_3 20200115 12000500 = Some 439089201 /\
  option_map fst (fstinl 3 zeros (fun _ => true) 10 q 5 s) = Some (0, [1; 1025]) /\
  map (fun h => option_map (fun r => match r with Go d => d_datev d | Err _ => 0 end) (fstprm (s_w s) h)) [1; 1025] = [Some 439089200; Some 439089201].
Proof.
  exists (after (wr (mkargs (-16) 439089201 0 0 2 2 1 500 6 0 [80] tt [116] [76] 1 66051 3 4 2)
    (after (wr (mkargs (-16) 439089200 0 0 2 2 1 500 6 0 [80] tt [116] [76] 1 66051 3 4 2) fst0 false)) false)), (mkquery 439089200 [] (-1) (-1) (-1) [] []).
  repeat split; vm_compute; reflexivity.
Qed.
Print Assumptions c38_date_refuted.

(** *** Compressed fields *)

(** A record of an empty file, and the array read, which is not as it should. *)
Definition misread (a : fargs) (fld : list Z) : Prop :=
  exists s s1 i f h dst dst', reach s /\ opened s 0 i f /\ std_file f /\ f_iun f = 10 /\ args_ok a /\ field_ok a fld /\ field_fits a fld /\ space f a /\ dst_ok a dst /\
    fstecr no_orc zeros 10 a fld false s = Some (0, s1) /\ option_map fst (fstinl 3 zeros (fun _ => true) 10 any_query 5 s1) = Some (0, [h]) /\
    fstluk no_orc zeros (s_w s1) h dst = Some (h, Some (a_ni a, a_nj a, a_nk a), dst') /\ ~ reads_field a fld dst dst'.
Lemma misread_trip a fld n t dst' : args_ok a -> field_ok a fld -> field_fits a fld -> 0 <= field_words a < 10000 -> dst_ok a (repeat 7 n) ->
  trip a fld n = Some (0, Some (0, [1]), t, Some (1, Some (a_ni a, a_nj a, a_nk a), dst')) -> ~ reads_field a fld (repeat 7 n) dst' -> misread a fld.
Proof.
  intros AO FO FF FW DO T N. destruct fst0_file as (R & i & f & OP & SF & IU & SZ). destruct (trip_writes _ _ _ _ _ _ _ T) as (s1 & E & L & X).
  exists fst0, s1, i, f, 1, (repeat 7 n), dst'.
  split; [exact R|]. split; [exact OP|]. split; [exact SF|]. split; [exact IU|]. split; [exact AO|]. split; [exact FO|]. split; [exact FF|]. split; [apply small_space; assumption|]. split; [exact DO|].
  split; [exact E|]. split; [symmetry; exact L|]. split; [symmetry; exact X|exact N].
Qed.
Ltac dst_small := split; vm_compute; repeat constructor.

(** Integers that could not be compressed are read from the wrong place: from the
    first word of the data, where they begin in the second. *)
Theorem c49_fallback_refuted : misread (type_args (-16) 130 2 2 1) [11; 22; 33; 44].
Proof.
  assert (W : words_ok [11; 22; 33; 44]) by (repeat apply Forall_cons; try apply Forall_nil; lia).
  destruct (ints_ok (type_args (-16) 130 2 2 1) [11; 22; 33; 44] W eq_refl ltac:(vm_compute; discriminate) eq_refl) as [FO FF].
  { intros j J. change (width _) with 16. cbn [length] in J. do 4 (destruct j as [|j]; [vm_compute; reflexivity|]). lia. }
  apply (misread_trip _ _ 4 (Some 2) [0; 0; 11; 22]); [apply type_args_ok; lia|exact FO|exact FF|vm_compute; split; congruence|dst_small|vm_compute; reflexivity|].
  intros (_ & R & _). specialize (R 0%nat ltac:(vm_compute; repeat constructor)). discriminate R.
Qed.
Print Assumptions c49_fallback_refuted.

(** Compressed integers of 16 bits come back with the sign of a short. *)
Theorem c49_sign_refuted : misread (type_args (-16) 130 8 4 1) (map (Z.add 40000) (ramp 32)).
Proof.
  set (fld := map (Z.add 40000) (ramp 32)). assert (B : forall x, In x fld -> 0 <= x < 2 ^ 16) by (intros x X; apply in_map_iff in X as (y & <- & X); apply in_map_iff in X as (k & <- & X); apply in_seq in X; lia).
  destruct (ints_ok (type_args (-16) 130 8 4 1) fld) as [FO FF]; [apply Forall_forall; intros x X; specialize (B x X); lia|reflexivity|vm_compute; discriminate|reflexivity| |].
  { intros j J. change (width _) with 16. apply B. unfold elt. rewrite Nat.mul_1_r. apply nth_In, J. }
  apply (misread_trip _ _ 32 (Some 130) (map (Z.add (2 ^ 32 - 2 ^ 16)) fld)); [apply type_args_ok; lia|exact FO|exact FF|vm_compute; split; congruence|dst_small|vm_compute; reflexivity|].
  intros (_ & R & _). specialize (R 0%nat ltac:(vm_compute; repeat constructor)). vm_compute in R. discriminate R.
Qed.
Print Assumptions c49_sign_refuted.

(** Of several levels only the first is compressed, and the others are lost. *)
Theorem c49_levels_refuted : misread (type_args (-16) 130 8 4 2) (ramp 64).
Proof.
  assert (B : forall x, In x (ramp 64) -> 0 <= x < 2 ^ 16) by (intros x X; apply in_map_iff in X as (k & <- & X); apply in_seq in X; lia).
  destruct (ints_ok (type_args (-16) 130 8 4 2) (ramp 64)) as [FO FF]; [apply Forall_forall; intros x X; specialize (B x X); lia|reflexivity|vm_compute; discriminate|reflexivity| |].
  { intros j J. change (width _) with 16. apply B. unfold elt. rewrite Nat.mul_1_r. apply nth_In, J. }
  apply (misread_trip _ _ 64 (Some 130) (ramp 32 ++ repeat 0 32)); [apply type_args_ok; lia|exact FO|exact FF|vm_compute; split; congruence|dst_small|vm_compute; reflexivity|].
  intros (_ & R & _). specialize (R 32%nat ltac:(vm_compute; repeat constructor)). vm_compute in R. discriminate R.
Qed.
Print Assumptions c49_levels_refuted.

(** Reals compressed with 12 bits: written 16 bits apart, read 12 bits apart. *)
Definition misread12 : list Z :=
  [1065353216; 1065353216; 1066401792; 1065484288; 1065365504; 1065354240; 1065353216; 1065680896; 1065377792; 1065354752;
   1066401792; 1065877504; 1065390080; 1065355776; 1065353216; 1066074112; 1065402368; 1065356288; 1066401792; 1066270720;
   1065414656; 1065357312; 1065353216; 1066467328; 1065426944; 1065357824; 1066401792; 1066663936; 1065439232; 1065358848; 1065353216; 1066860544].
Theorem c49_bits_refuted : misread (type_args (-12) 129 8 4 1) (reals 99 32).
Proof.
  destruct (reals_ok (type_args (-12) 129 8 4 1) 99 32 ltac:(lia) eq_refl ltac:(vm_compute; discriminate) (or_introl eq_refl)) as [FO FF].
  apply (misread_trip _ _ 32 (Some 129) misread12); [apply type_args_ok; lia|exact FO|exact FF|vm_compute; split; congruence|dst_small|vm_compute; reflexivity|].
  intros (_ & R). specialize (R 1%R 2%R). change (Z.to_nat (field_size (type_args (-12) 129 8 4 1))) with 32%nat in R. specialize (R (fun j J => proj2 (reals_between 99 32 j ltac:(lia))) 2%nat ltac:(lia)). destruct R as [_ R].
  change (elt misread12 1 2) with (0x3F800000 + 65536 * Z.of_nat 16) in R. rewrite reals_elt in R by lia. change (Nat.min 99 2) with 2%nat in R. rewrite (proj2 (reals_value 16 ltac:(lia))), (proj2 (reals_value 2 ltac:(lia))) in R.
  change (kind _) with 1 in R. change (width _) with 12 in R. unfold real_error in R. cbn [Z.eqb Pos.eqb] in R. rewrite !Rabs_pos_eq, Rmax_right in R by (cbn [INR]; lra).
  change (bpow radix2 12) with 4096%R in R. change (bpow radix2 23) with 8388608%R in R. assert (bpow radix2 (-126) <= bpow radix2 (-23))%R by (apply bpow_le; lia). change (bpow radix2 (-23)) with (/ 8388608)%R in H. cbn [INR] in R. lra.
Qed.
Print Assumptions c49_bits_refuted.
