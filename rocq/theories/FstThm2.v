(** The record that c_fstecr writes, and the others. *)
From Coq Require Import ZArith List Lia Bool.
From Verif Require Import Bits BitIO SpecPack Handles WaFile Xdf XdfLib XdfInv XdfDel XdfPut XdfPut2 XdfPut3 XdfPut4 XdfKeysThm XdfOpen XdfSearch XdfAbs XdfHist XdfSys XdfSys2 XdfSpec XdfThm XdfThm2 XdfThm3 Dates DatesSpec Fst FstSpec FstPack FstFacts FstDates FstMatch FstSearch FstThm.
Import ListNotations.
Open Scope Z_scope.
Open Scope opt_scope.

(** The keys of the record written from [a] with data type [t]. *)
Definition args_keys (a : fargs) (t : Z) : list Z := key_words (entry_keys a t (width a)).

Lemma search_handle a rewrit s p i f handle : wf s -> opened s p i f ->
  handle = match rewritten a rewrit i f with Some (k, r) => rec_handle i k r | None => 0 end -> (rewritten a rewrit i f <> None -> 0 < handle) ->
  put_tgt handle = rewritten a rewrit i f.
Proof.
  intros W [P F] -> POS. destruct (rewritten a rewrit i f) as [[k r]|] eqn:RW; [|reflexivity]. specialize (POS ltac:(discriminate)).
  assert (IN : In (k, r) (positions (page_sizes f))).
  { unfold rewritten in RW. destruct rewrit; [|discriminate]. apply (found_positions all_records (same_record a) i). destruct (found _ _ _ _); [discriminate|]. cbn in RW. injection RW as ->. left. reflexivity. }
  pose proof (proj1 (positions_ent f k r (fo_inv _ (wf_fok _ W i f F))) IN) as E.
  destruct (rec_handle_ent _ _ _ _ _ _ _ W P F E) as (_ & H2 & H3 & H4). unfold put_tgt. rewrite (proj2 (Z.eqb_neq _ _)) by lia. rewrite Z.abs_eq by lia. congruence.
Qed.

(** The records after a successful call: record [r] of page [k] is the new one,
    the record rewritten is there no more, the others are the same. *)
Record written (orc : oracle) (a : fargs) (fld : list Z) (rewrit : bool) (s : sys) (p i : nat) (f : fte) (s1 : sys) (k r : nat) (e : list Z) (x : packed) : Prop := {
  wr_wf : wf s1;
  wr_reach : reach s -> reach s1;
  wr_open : s_fs s1 p = Opened i;
  wr_entry : skipn 2 e = args_keys a (p_type x);
  wr_lng : 2 * e_lng e = 20 + p_nw x;
  wr_packs : packs orc a fld x;
  wr_new : exists hd addr, sabs s1 p k r = Some (Some (e, hd :: addr :: args_keys a (p_type x) ++ [0; 0] ++ firstn (Z.to_nat (p_nw x)) (p_dat x)));
  wr_where : sabs s p k r = None \/ rewritten a rewrit i f = Some (k, r);
  wr_old : forall x, rewritten a rewrit i f = Some x -> exists y, sabs s p (fst x) (snd x) = Some (Some y);
  wr_rest : forall q j t, sabs s1 q j t = if Nat.eqb q p && eq2 j t k r then sabs s1 p k r
                                          else if Nat.eqb q p && is_tgt (rewritten a rewrit i f) j t then Some None else sabs s q j t
}.
Lemma fstecr_written orc junk iun a fld rewrit s s1 p i f : wf s -> opened s p i f -> std_file f -> f_iun f = iun -> args_ok a -> field_ok a fld -> space f a ->
  fstecr orc junk iun a fld rewrit s = Some (0, s1) ->
  in_range a = true /\ exists k r e x, written orc a fld rewrit s p i f s1 k r e x.
Proof.
  intros W OP SF IU AO FO SP FE. pose proof OP as [P F]. pose proof SF as (KP & PL & IL).
  destruct (fstecr_put _ _ _ _ _ _ _ _ _ _ _ W OP SF IU AO FO SP FE) as (IR & FS & RO & buf & x & handle & s0 & BO & AS & ST & OK & HE & HP & (lh & HI)). split; [exact IR|].
  pose proof (search_handle _ _ _ _ _ _ _ W OP HE HP) as TG. pose proof AS as (W0 & SR & FS0 & _ & g & G & LG).
  destruct (step_spec _ _ _ _ W0 OK ST) as [W1 E]. cbn [effect Z.eqb] in E. destruct OK as [BOK OKR].
  destruct E as (p' & i' & f' & k & r & e & ws & P' & FX & F' & WB & HN & EW & [EK EKY] & WH & TGE & EFF).
  assert (GI : f_iun g = iun) by (destruct LG as (_&_&_&_&_&_&->&_&_); exact IU).
  assert (i' = i). { rewrite <- GI in FX. rewrite (file_index_of _ _ _ W0 G) in FX. congruence. } subst i'. assert (f' = g) by congruence. subst f'.
  assert (p' = p). { apply (wf_one _ W0 p' p i P'). rewrite FS0. exact P. } subst p'. rewrite TG in *. clear HN.
  assert (KG : f_kp g = std_kp /\ f_plen g = 9%nat) by (destruct LG as (_&_&_&->&->&_&_&_&_); auto). destruct KG as [KG PG]. specialize (EK KG). rewrite PG in EK. change (2 * (9 - 1))%nat with 16%nat in EK.
  pose proof (bo_words _ _ _ _ _ _ BO) as BW. pose proof (bo_data _ _ _ _ _ _ BO) as BD. fold (args_keys a (p_type x)) in BD.
  assert (KL : length (args_keys a (p_type x)) = 16%nat) by apply key_words_length.
  destruct (packs_words _ _ _ _ (bo_packs _ _ _ _ _ _ BO)) as (_ & _ & BF & (hw & HW)). assert (B2 : 2 <= 20 + p_nw x < 2 ^ 25) by (rewrite <- BW; apply BOK).
  exists k, r, e, x. constructor.
  - exact W1.
  - intros (l0 & H0). exists (l0 ++ lh ++ [(OpPut junk iun handle buf, 0)]). clear - H0 HI ST BOK OKR.
    assert (APP : forall s l s' l' s'', hist any s l s' -> hist any s' l' s'' -> hist any s (l ++ l') s'').
    { intros s2 l s' l' s'' H. revert l' s''. induction H; intros l' s'' H'; cbn [app]; [exact H'|]. econstructor; eauto. }
    eapply APP; [exact H0|]. eapply APP; [exact HI|]. econstructor; [split; [exact BOK|exact OKR]|exact Logic.I|exact ST|constructor].
  - rewrite (step_put_fs _ _ _ _ _ _ _ ST). exact P'.
  - rewrite EK, BD. cbn [skipn app]. rewrite firstn_app, KL, Nat.sub_diag, firstn_O, app_nil_r. apply firstn_all2. lia.
  - rewrite EK. unfold e_lng. cbn [nth]. rewrite hd_lng, BW. rewrite HW in *. rewrite Z.mod_small by (Z.div_mod_to_equations; lia). Z.div_mod_to_equations; lia.
  - apply BO.
  - rewrite EFF, Nat.eqb_refl. unfold eq2. rewrite !Nat.eqb_refl. cbn [andb]. eexists _, _. do 3 f_equal.
    rewrite EW. rewrite stamped_put by apply BOK. unfold put_words. rewrite BW, BD. f_equal. f_equal.
    replace (Z.to_nat (20 + p_nw x)) with (S (S (16 + (2 + Z.to_nat (p_nw x)))))%nat by lia. cbn [app firstn skipn].
    rewrite <- KL at 1. rewrite firstn_app_2. f_equal.
  - rewrite <- (SR p k r). destruct WH as [WH|(H & T & _)]; auto.
  - intros [y1 y2] X. rewrite <- (SR p _ _). apply TGE. exact X.
  - intros q j t. rewrite !EFF, Nat.eqb_refl. assert (eq2 k r k r = true) as -> by (unfold eq2; rewrite !Nat.eqb_refl; reflexivity).
    destruct (Nat.eqb_spec q p) as [->|]; cbn [andb]; rewrite SR; reflexivity.
Qed.

(** ** Parameters *)
Lemma written_prm orc a fld rewrit s p i f s1 k r e dat : in_range a = true -> args_ok a -> written orc a fld rewrit s p i f s1 k r e dat ->
  exists d, crack (keys_of (skipn 2 e)) = Some d /\ d_datyp d = p_type dat /\ describes a d /\ label_of d = entry_label (skipn 2 e).
Proof.
  intros IR AO WR. rewrite (wr_entry _ _ _ _ _ _ _ _ _ _ _ _ _ WR). pose proof (packs_type _ _ _ _ (wr_packs _ _ _ _ _ _ _ _ _ _ _ _ _ WR)) as PT. apply crack_entry; [exact IR|exact AO| |exact PT].
  pose proof (pa_kind _ _ _ _ (wr_packs _ _ _ _ _ _ _ _ _ _ _ _ _ WR)) as K. cbn [In] in K. lia.
Qed.

(** What a later state has of the record. *)
Lemma written_later orc a fld rewrit s p i f s1 k r e dat l s2 j g : written orc a fld rewrit s p i f s1 k r e dat -> hist (spares p k r) s1 l s2 -> opened s2 p j g ->
  wf s2 /\ ent g k r = Some e /\ sabs s2 p k r = sabs s1 p k r.
Proof.
  intros WR H [P2 G]. destruct (wr_new _ _ _ _ _ _ _ _ _ _ _ _ _ WR) as (hd & addr & SA). pose proof (hist_frame _ _ _ _ _ _ _ (wr_wf _ _ _ _ _ _ _ _ _ _ _ _ _ WR) H SA) as S2.
  split; [apply (hist_wf _ _ _ _ H), WR|]. split; [|congruence]. rewrite (sabs_open _ _ _ _ P2 G) in S2. apply abs_live in S2. apply S2.
Qed.
(** What fstprm gives for the record written, then and later. *)
Definition prm_later (s1 : sys) (p k r : nat) (d : desc) : Prop :=
  forall l s2 j g, hist (spares p k r) s1 l s2 -> opened s2 p j g -> f_kp g = std_kp -> fstprm (s_w s2) (rec_handle j k r) = Some (Go d).
Lemma prm_of_written orc a fld rewrit s p i f s1 k r e dat : in_range a = true -> args_ok a -> written orc a fld rewrit s p i f s1 k r e dat ->
  exists d, describes a d /\ d_datyp d = p_type dat /\ label_of d = entry_label (skipn 2 e) /\ prm_later s1 p k r d.
Proof.
  intros IR AO WR. destruct (written_prm _ _ _ _ _ _ _ _ _ _ _ _ _ IR AO WR) as (d & CR & DT & DS & LB). exists d. split; [exact DS|]. split; [exact DT|]. split; [exact LB|].
  intros l s2 j g H OP2 KG. destruct (written_later _ _ _ _ _ _ _ _ _ _ _ _ _ _ _ _ _ WR H OP2) as (W2 & E & _). destruct OP2 as [P2 G].
  unfold fstprm. rewrite (xdfprm_entry _ _ _ _ _ _ _ W2 P2 G KG E). cbn [bind]. rewrite CR. reflexivity.
Qed.

(** ** Searches afterwards *)
Lemma found_abs s p i f filt q k r : wf s -> opened s p i f ->
  In (k, r) (found filt q i f) <-> exists e ws, sabs s p k r = Some (Some (e, ws)) /\ wanted q (entry_label (skipn 2 e)) = true /\ filt (rec_handle i k r) = true.
Proof.
  intros W [P F]. pose proof (fo_inv _ (wf_fok _ W i f F)) as FI. unfold found. rewrite filter_In. rewrite (sabs_open _ _ _ _ P F). cbn [fst snd]. rewrite !andb_true_iff.
  rewrite (positions_ent f k r FI). split.
  - intros (E & (L & WN) & FL). exists (entry_words f k r), (rec_data f (entry_words f k r)). split; [apply abs_live; auto|]. split; [exact WN|exact FL].
  - intros (e & ws & A & WN & FL). apply abs_live in A. destruct A as (E & L & _).
    assert (EE : e = entry_words f k r). { apply entry_at_page in E. destruct E as (n & pg & N & PG & R & Q). unfold entry_words. rewrite PG. symmetry. apply nth_error_nth. exact Q. }
    rewrite <- EE. split; [exact E|]. split; [|exact FL]. split; [exact L|]. unfold record_label. rewrite <- EE. exact WN.
Qed.
Lemma describes_label a d : describes a d -> label_of d = args_label a (d_datev d).
Proof. unfold describes, label_of, args_label. intros (_ & _ & _ & (-> & -> & ->) & _ & (-> & -> & -> & _) & _). reflexivity. Qed.
Lemma found_of_written orc a fld rewrit s p i f s1 k r e dat f1 d : wf s -> opened s p i f -> written orc a fld rewrit s p i f s1 k r e dat -> opened s1 p i f1 -> label_of d = entry_label (skipn 2 e) ->
  (~ In (k, r) (positions (page_sizes f)) \/ rewritten a rewrit i f = Some (k, r)) /\
  (forall filt q x, In x (found filt q i f1) <->
     x = (k, r) /\ wanted q (label_of d) = true /\ filt (rec_handle i k r) = true \/
     x <> (k, r) /\ rewritten a rewrit i f <> Some x /\ In x (found filt q i f)).
Proof.
  intros W OP WR OP1 LB. pose proof (wr_wf _ _ _ _ _ _ _ _ _ _ _ _ _ WR) as W1. split.
  - destruct (wr_where _ _ _ _ _ _ _ _ _ _ _ _ _ WR) as [N|N]; [left|right; exact N]. intros IN. destruct OP as [P F]. rewrite (positions_ent f k r (fo_inv _ (wf_fok _ W i f F))) in IN.
    rewrite (sabs_open _ _ _ _ P F) in N. unfold abs in N. rewrite IN in N. discriminate.
  - intros filt q [j t]. rewrite (found_abs _ _ _ _ _ _ _ _ W1 OP1), (found_abs _ _ _ _ _ _ _ _ W OP).
    destruct (wr_new _ _ _ _ _ _ _ _ _ _ _ _ _ WR) as (h1 & h2 & SA). pose proof (wr_rest _ _ _ _ _ _ _ _ _ _ _ _ _ WR p j t) as R. rewrite Nat.eqb_refl in R. cbn [andb] in R.
    destruct (eq2_spec j t k r) as [E|N].
    + assert (j = k /\ t = r) as [-> ->] by (split; congruence). rewrite SA. split.
      * intros (e' & ws & X & WN & FL). left. assert (e' = e) as -> by congruence. rewrite LB. auto.
      * intros [(_ & WN & FL)|(X & _)]; [|congruence]. eexists _, _. split; [reflexivity|]. rewrite <- LB. auto.
    + assert (IT : is_tgt (rewritten a rewrit i f) j t = true <-> rewritten a rewrit i f = Some (j, t)).
      { destruct (rewritten a rewrit i f) as [[x y]|]; cbn [is_tgt]; [|split; discriminate]. destruct (eq2_spec j t x y) as [X|X]; split; congruence. }
      destruct (is_tgt (rewritten a rewrit i f) j t).
      * rewrite R. split; [intros (? & ? & X & _); discriminate|]. intros [(X & _)|(_ & X & _)]; [congruence|]. exfalso. apply X, IT. reflexivity.
      * rewrite R. split; [|intros [(X & _)|(_ & _ & X)]; [congruence|exact X]]. intros X. right. split; [exact N|]. split; [|exact X]. intros Y. apply IT in Y. discriminate.
Qed.
(** The other records read the same. *)
Lemma others_written orc junk iun a fld rewrit s s1 p i f q iq j t ws : wf s -> opened s p i f -> std_file f -> f_iun f = iun -> args_ok a -> field_ok a fld -> space f a ->
  fstecr orc junk iun a fld rewrit s = Some (0, s1) -> has_entry s q iq j t -> reads (s_w s) (rec_handle iq j t) ws -> ~ (q = p /\ rewritten a rewrit i f = Some (j, t)) ->
  reads (s_w s1) (rec_handle iq j t) ws.
Proof.
  intros W OP SF IU AO FO SP FE HE RD ND. destruct (reads_inv _ _ _ _ _ _ W HE RD) as (e0 & SA0). destruct (fstecr_written _ _ _ _ _ _ _ _ _ _ _ W OP SF IU AO FO SP FE) as (IR & k & r & e & dat & WR).
  assert (SA1 : sabs s1 q j t = Some (Some (e0, ws))).
  { rewrite (wr_rest _ _ _ _ _ _ _ _ _ _ _ _ _ WR). destruct (Nat.eqb_spec q p) as [->|]; cbn [andb]; [|exact SA0]. destruct (eq2_spec j t k r) as [E|N].
    - assert (j = k /\ t = r) as [-> ->] by (split; congruence). destruct (wr_where _ _ _ _ _ _ _ _ _ _ _ _ _ WR) as [N|N]; [congruence|]. exfalso. apply ND. auto.
    - destruct (rewritten a rewrit i f) as [[x y]|]; cbn [is_tgt]; [|exact SA0]. destruct (eq2_spec j t x y) as [X|X]; [|exact SA0]. exfalso. apply ND. split; congruence. }
  eapply reads_live; [apply WR| |exact SA1]. destruct HE as [PQ _].
  destruct (fstecr_put _ _ _ _ _ _ _ _ _ _ _ W OP SF IU AO FO SP FE) as (_ & _ & _ & buf & _ & h & s0 & _ & (_ & _ & FS0 & _) & ST & _). rewrite (step_put_fs _ _ _ _ _ _ _ ST), FS0. exact PQ.
Qed.
